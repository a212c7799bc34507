(** Honestly made source stamps: what a signer that follows the source stamp v2 format produces. *)
From Coq Require Import Permutation.
From Verif.Model Require Import Bytes Env Result.
From Verif.Spec Require Import Encoding Algorithms ApkLayout Digests Entries Signer SignerV3 Ranges Verified Stamp.

(** [slice] is a list of signature records in which every signature by an algorithm that platforms up to
    [maxSdk] implement is a valid signature of [data]; platform [minSdk] implements one of them. *)
Definition stamp_signed_all (E : env) (key : pubkey) (minSdk maxSdk : Z) (data slice : bytes) : Prop :=
  exists rs, stamp_records slice rs /\
    (forall a s k m, offered rs a s -> In (a, k, m) algorithm_table -> m <= maxSdk -> sig_valid E key a data s) /\
    (exists a s k m, offered rs a s /\ In (a, k, m) algorithm_table /\ m <= minSdk /\ m <= maxSdk).

(** Signed attributes [al]: time stamps are positive, lineages are valid and end in [c]; other attributes
    are not understood.  Of several attributes of one kind the last one counts. *)
Definition honest_attributes (E : env) (c : cert) (al : list (Z * bytes)) : Prop :=
  (forall v, In (id_stamp_time, v) al -> exists t r, v = le64 t ++ r /\ 0 < t < 2 ^ 63) /\
  (forall v, In (id_stamp_rotation, v) al -> exists ns, stamp_lineage E c v ns).
Definition time_in (al : list (Z * bytes)) (t : option Z) : Prop :=
  match t with
  | None => ~ In id_stamp_time (map fst al)
  | Some t => 0 < t < 2 ^ 63 /\ exists r, last_entry al id_stamp_time (le64 t ++ r)
  end.
Definition lineage_in (E : env) (c : cert) (al : list (Z * bytes)) (ns : list lnode) : Prop :=
  match ns with
  | [] => ~ In id_stamp_rotation (map fst al)
  | _ => exists v, last_entry al id_stamp_rotation v /\ stamp_lineage E c v ns
  end.

(** A stamp by certificate [c] over the digests [m] for signature scheme [scheme], which says that it was made
    at [t] and that [c] succeeds the certificates in [ns]. *)
Definition honest_stamp (E : env) (minSdk maxSdk scheme : Z) (m : list (Z * bytes)) (block : bytes) (c : cert)
           (t : option Z) (ns : list lnode) : Prop :=
  exists enc schemes rest sigs msg,
    stamp_layout block enc schemes rest /\ e_cert_andr E enc = Some c /\
    scheme_signatures schemes scheme sigs /\ stamp_message m msg /\
    stamp_signed_all E (c_key c) minSdk maxSdk msg sigs /\
    ((rest = [] /\ t = None /\ ns = []) \/
     exists attrs asigs inner junk al,
       stamp_attributes_layout rest attrs asigs /\ stamp_signed_all E (c_key c) minSdk maxSdk attrs asigs /\
       attrs = lp inner ++ junk /\ fits inner /\ attribute_list inner al /\
       honest_attributes E c al /\ time_in al t /\ lineage_in E c al ns).

(** The signature scheme that counts for the stamp, and the digests [m] that a stamp has to sign: those
    recorded by the signers of the newest scheme that platform [maxSdk] knows (for v3.1: of the v3.0 signers), or
    the digest of the manifest when it knows none of the schemes used. *)
Definition stamped_digests (E : env) (minSdk maxSdk : Z) (es : list (Z * bytes)) (sections : list bytes) (z : zip)
           (scheme : Z) (m : list (Z * bytes)) : Prop :=
  (scheme = 31 /\ exists is31 lin is3, v31_verified E minSdk maxSdk es sections is31 lin is3 /\ recorded_digests (map i3_signer is3) m) \/
  (scheme = 3 /\ ~ v31_in maxSdk es /\ exists is lin, v3_verified E minSdk maxSdk es sections is lin /\ recorded_digests (map i3_signer is) m) \/
  (scheme = 2 /\ ~ v31_in maxSdk es /\ ~ v3_in maxSdk es /\ exists is, v2_verified E maxSdk es sections is /\ recorded_digests is m) \/
  (scheme = 1 /\ ~ v31_in maxSdk es /\ ~ v3_in maxSdk es /\ ~ v2_in maxSdk es /\ exists d, manifest_digest E z d /\ m = [(4, d)]).
