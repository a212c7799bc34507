(** Entries of the APK Signing Block and which of them the verifier uses. *)
From Verif.Model Require Import Bytes.
From Verif.Spec Require Import Encoding ApkLayout.

Definition id_v2 : Z := 0x7109871a.
Definition id_v3 : Z := 0xf05368c0.
Definition id_v31 : Z := 0x1b93ad61.
Definition id_stamp : Z := 0x6dff800d.
Definition id_frosting : Z := 0x2146444e.
Definition id_padding : Z := 0x42726577.

(** [pairs] is the concatenation of [es]; the format check of the code additionally refuses a final
    entry without payload (unless it is verity padding). *)
Definition entries_of (pairs : bytes) (es : list (Z * bytes)) : Prop :=
  pairs = enc_entries es /\ Forall entry_fits es /\
  (forall before id, es = before ++ [(id, [])] -> id = id_padding).

(** The last entry with this id has payload [p]. *)
Definition last_entry (es : list (Z * bytes)) (id : Z) (p : bytes) : Prop :=
  exists before after, es = before ++ (id, p) :: after /\ ~ In id (map fst after).

(** Signature schemes a device at [maxSdk] knows, and the source stamp. *)
Definition used_at (maxSdk id : Z) : Prop :=
  (id = id_v2 /\ 24 <= maxSdk) \/ (id = id_v3 /\ 28 <= maxSdk) \/ (id = id_v31 /\ 33 <= maxSdk) \/ id = id_stamp.

(** Ids that end up in ExtraBlocks. *)
Definition extra_at (maxSdk id : Z) : Prop :=
  id <> id_padding /\ id <> id_frosting /\ id <> id_stamp /\
  (id = id_v2 -> maxSdk < 24) /\ (id = id_v3 -> maxSdk < 28 \/ 33 <= maxSdk) /\ (id = id_v31 -> maxSdk < 33).
