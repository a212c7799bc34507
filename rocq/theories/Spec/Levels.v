(** SDK levels at which the requirements on an APK change. *)
From Verif.Model Require Import Bytes.

(** No level of [steps] lies between [a] and [b]: each is above both or above none of them. *)
Definition between_same (steps : list Z) (a b : Z) : Prop := forall s, In s steps -> (a < s <-> b < s).

(** Levels of the signing block: ECDSA (11) and RSA-PSS (23) in source stamps, scheme v3 (28). *)
Definition block_steps : list Z := [11; 23; 28].
(** Together with those of the JAR signature: SHA-384/512 (9), strongest digest only (18), all PKCS#7 signers, and no
    JAR signature needed beside a signing block (24). *)
Definition min_steps : list Z := [9; 11; 18; 23; 24; 28].

(** The level reported with a lineage. *)
From Verif.Model Require Import Env Result Verify.
Definition reported_level (res : vresult) : option Z := option_map l_minSdk (signingLineage (v_core res)).
(** RSASSA-PSS with SHA2-256. *)
Definition pss_sha256 : Z := 0x0101.

(** [m] is the first SDK level for which a signer of the v3.1 block signed. *)
From Verif.Spec Require Import ApkLayout Entries SignerV3 Verified.
Definition rotates_from (E : env) (maxSdk : Z) (es : list (Z * bytes)) (m : Z) : Prop :=
  exists block is31, last_entry es id_v31 block /\ v3_block E maxSdk 0 block is31 /\ lowest is31 m.
(** Levels of the maximum: ECDSA (11), strongest digest only (18), RSA-PSS (23), scheme v2 (24), sandbox version (26),
    scheme v3 (28), scheme v3.1 (33); the largest 32-bit level stands for "no limit". *)
Definition max_steps : list Z := [1; 11; 18; 23; 24; 26; 28; 33; 2147483647].
