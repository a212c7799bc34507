(** APK Signature Scheme v3 / v3.1 signer records and proof-of-rotation lineages
    (https://source.android.com/security/apksigning/v3), as predicates over bytes. *)
From Verif.Model Require Import Bytes Env Result.
From Verif.Spec Require Import Encoding Algorithms Signer.

(** [node_of E prev nb n]: bytes [nb] hold lineage node [n]; if there is a previous node, its certificate
    signed this node's certificate with the algorithm the previous node declares, and this node names
    that algorithm as its parent's. *)
Definition node_of (E : env) (prev : option lnode) (nb : bytes) (n : lnode) : Prop :=
  exists signedData junk enc junk',
    nb = lp signedData ++ le32 (ln_flags n) ++ le32 (ln_algo n) ++ lp (ln_signature n) ++ junk /\
    fits signedData /\ is_int32 (ln_flags n) /\ is_int32 (ln_algo n) /\ fits (ln_signature n) /\
    signedData = lp enc ++ le32 (ln_parent_algo n) ++ junk' /\ fits enc /\ is_int32 (ln_parent_algo n) /\
    e_cert_std E enc = Some (ln_cert n) /\
    match prev with
    | None => True
    | Some p => sig_valid E (c_key (ln_cert p)) (ln_algo p) signedData (ln_signature n) /\ ln_parent_algo n = ln_algo p
    end.

Inductive nodes_of (E : env) : option lnode -> list bytes -> list lnode -> Prop :=
| no_nil prev : nodes_of E prev [] []
| no_cons prev nb n nbs ns : node_of E prev nb n -> nodes_of E (Some n) nbs ns -> nodes_of E prev (nb :: nbs) (n :: ns).

(** A proof-of-rotation attribute value: version 1, then the nodes; no certificate occurs twice. *)
Definition lineage_of (E : env) (value : bytes) (ns : list lnode) : Prop :=
  exists items, value = le32 1 ++ lps items /\ Forall fits items /\
    nodes_of E None items ns /\ NoDup (map (fun n => c_raw (ln_cert n)) ns).

Definition id_proof_of_rotation : Z := 0x3ba06f8c.
Definition id_rotation_min_sdk : Z := 0x559f8b02.

(** What the signed attributes of an accepted v3 signer satisfy.  [main]: the signer's certificate;
    [rot]: lowest SDK level of the v3.1 signers in the APK, 0 if there are none. *)
Definition v3_attribute_ok (E : env) (maxSdk rot : Z) (main : cert) (a : Z * bytes) : Prop :=
  (fst a = id_proof_of_rotation ->
     snd a = [] \/
     exists ns, lineage_of E (snd a) ns /\ (ns = [] \/ exists l n, ns = l ++ [n] /\ c_raw (ln_cert n) = c_raw main)) /\
  (fst a = id_rotation_min_sdk -> 33 <= maxSdk -> rot <> 0 /\ exists rest, snd a = le32 rot ++ rest).

(** The lineage that the attributes establish: that of the last non-empty proof-of-rotation attribute. *)
Definition rotation_lineage (E : env) (al : list (Z * bytes)) (ns : list lnode) : Prop :=
  (ns = [] /\ forall v l, In (id_proof_of_rotation, v) al -> lineage_of E v l -> l = []) \/
  (ns <> [] /\ exists before v after, al = before ++ (id_proof_of_rotation, v) :: after /\ lineage_of E v ns /\
     forall v' l, In (id_proof_of_rotation, v') after -> lineage_of E v' l -> l = []).

(** What is known about an accepted v3 signer. *)
Record v3_info : Set := mkV3Info {
  i3_signer : signer_info;         (* chain, algorithm, digest *)
  i3_min : Z; i3_max : Z;          (* SDK range in the unsigned part *)
  i3_signedMin : Z; i3_signedMax : Z;  (* SDK range in the signed data *)
  i3_lineage : list lnode          (* [] = none *)
}.

Definition v3_signer (E : env) (maxSdk rot : Z) (signer : bytes) (i : v3_info) : Prop :=
  exists signedData sigs pk junk digs cs attrs junk' al main others,
    signer = lp signedData ++ le32 (i3_min i) ++ le32 (i3_max i) ++ lp sigs ++ lp pk ++ junk /\
    fits signedData /\ is_int32 (i3_min i) /\ is_int32 (i3_max i) /\ fits sigs /\ fits pk /\
    signedData = lp digs ++ lp cs ++ le32 (i3_signedMin i) ++ le32 (i3_signedMax i) ++ lp attrs ++ junk' /\
    fits digs /\ fits cs /\ is_int32 (i3_signedMin i) /\ is_int32 (i3_signedMax i) /\ fits attrs /\
    1 <= i3_min i <= i3_max i /\ i3_min i = i3_signedMin i /\
    signed_by E signedData sigs pk digs cs (si_chain (i3_signer i)) (si_algo (i3_signer i)) (si_digest (i3_signer i)) /\
    si_chain (i3_signer i) = main :: others /\
    attribute_list attrs al /\ Forall (v3_attribute_ok E maxSdk rot main) al /\
    rotation_lineage E al (i3_lineage i).

(** A v3 block: a list of valid signer records. *)
Definition v3_block (E : env) (maxSdk rot : Z) (block : bytes) (is : list v3_info) : Prop :=
  exists signers junk,
    block = lp (lps signers) ++ junk /\ fits (lps signers) /\ Forall fits signers /\
    Forall2 (v3_signer E maxSdk rot) signers is /\
    consistent (map i3_signer is).
