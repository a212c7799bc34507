(** When does an APK count as signed under scheme v2, v3 or v3.1?  (File-level predicates.) *)
From Coq Require Import Permutation Sorted.
From Verif.Model Require Import Bytes Env Result.
From Verif.Spec Require Import Encoding Algorithms ApkLayout Digests Entries Signer SignerV3 Ranges.

(** An APK with the entries of its signing block and its protected sections. *)
Definition apk_with (file : bytes) (es : list (Z * bytes)) (sections : list bytes) : Prop :=
  exists before pairs cd rec, apk file before pairs cd rec /\ entries_of pairs es /\ protected before cd rec sections.

(** The digest each signer recorded is the digest of the contents. *)
Definition digests_match (E : env) (sections : list bytes) (is : list signer_info) : Prop :=
  forall i k, In i is -> has_kind (si_algo i) k -> content_digest E k sections (si_digest i).

(** Another signature scheme's block is in the APK (for the stripping check). *)
Definition present_in (es : list (Z * bytes)) (id : Z) : Prop := id <> id_v2 /\ In id (map fst es).

(** A newer scheme that the device (up to [maxSdk]) knows is in the APK. *)
Definition v31_in (maxSdk : Z) (es : list (Z * bytes)) : Prop := 33 <= maxSdk /\ In id_v31 (map fst es).
Definition v3_in (maxSdk : Z) (es : list (Z * bytes)) : Prop := 28 <= maxSdk /\ In id_v3 (map fst es).
Definition v2_in (maxSdk : Z) (es : list (Z * bytes)) : Prop := 24 <= maxSdk /\ In id_v2 (map fst es).

(** v2: signed by [is]. *)
Definition v2_verified (E : env) (maxSdk : Z) (es : list (Z * bytes)) (sections : list bytes) (is : list signer_info) : Prop :=
  24 <= maxSdk /\ is <> [] /\
  exists block, last_entry es id_v2 block /\ v2_block E maxSdk (present_in es) block is /\ digests_match E sections is.

(** The signers' ranges cover [lo, hi]; along them the lineages get longer, and one of them, the reported
    one, extends all the others. *)
Definition range3 (i : v3_info) : Z * Z := (i3_min i, i3_max i).
Definition has_lineage (i : v3_info) : bool := match i3_lineage i with [] => false | _ => true end.
Definition lineages (is : list v3_info) : list (list lnode) := map i3_lineage (filter has_lineage is).
Definition v3_covering (lo hi : Z) (is : list v3_info) (lin : option (list lnode)) : Prop :=
  exists js a b, Permutation js is /\ tiles a (map range3 js) b /\ a <= lo /\ hi <= b /\
    StronglySorted (fun l l' => zlen l <= zlen l') (lineages js) /\
    match lin with
    | None => lineages is = []
    | Some l => extends_all (lineages is) l
    end.

(** v3: signed by [is], whose consolidated lineage is [lin]. *)
Definition v3_verified (E : env) (minSdk maxSdk : Z) (es : list (Z * bytes)) (sections : list bytes)
           (is : list v3_info) (lin : option (list lnode)) : Prop :=
  28 <= maxSdk /\ is <> [] /\
  exists block, last_entry es id_v3 block /\ v3_block E maxSdk 0 block is /\
    digests_match E sections (map i3_signer is) /\
    v3_covering (Z.max minSdk 28) maxSdk is lin.

(** [m] is the lowest SDK level of the signers. *)
Definition lowest (is : list v3_info) (m : Z) : Prop :=
  (exists i, In i is /\ i3_min i = m) /\ forall i, In i is -> m <= i3_min i.

(** First level served by the v3.1 signers (the code uses 0 = "none" when that is the largest int32). *)
Definition rotation_level (is31 : list v3_info) (rot : Z) : Prop :=
  exists m, lowest is31 m /\ rot = (if m =? 2147483647 then 0 else m).
Definition below_rotation (maxSdk rot : Z) : Z := if rot =? 0 then maxSdk else rot - 1.

(** v3.1, as checked by the code: signed by [is31]; the v3.0 block must be there too, signed by [is3] and
    covering the levels below.  Only the digests of [is3] are compared with the contents. *)
Definition v31_verified (E : env) (minSdk maxSdk : Z) (es : list (Z * bytes)) (sections : list bytes)
           (is31 : list v3_info) (lin : option (list lnode)) (is3 : list v3_info) : Prop :=
  33 <= maxSdk /\ is31 <> [] /\ is3 <> [] /\
  exists block31 block3 rot lin3,
    last_entry es id_v31 block31 /\ last_entry es id_v3 block3 /\
    v3_block E maxSdk 0 block31 is31 /\ rotation_level is31 rot /\ v3_block E maxSdk rot block3 is3 /\
    digests_match E sections (map i3_signer is3) /\
    v3_covering maxSdk maxSdk is31 lin /\
    v3_covering (Z.max minSdk 28) (below_rotation maxSdk rot) is3 lin3.
