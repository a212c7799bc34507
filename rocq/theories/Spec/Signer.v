(** What a signer record of the v2/v3 signature blocks must look like, as predicates over bytes
    built from the encoders of Encoding.v and the cryptographic primitives (independent of the parsers). *)
From Verif.Model Require Import Bytes Env.
From Verif.Spec Require Import Encoding Algorithms.

(** A list of (algorithm id, field) records. *)
Definition enc_rec (r : Z * bytes) : bytes := le32 (fst r) ++ snd r.
Definition rec_ok (r : Z * bytes) : Prop := is_int32 (fst r) /\ 4 <= zlen (snd r) /\ fits (enc_rec r).
Definition records_of (slice : bytes) (rs : list (Z * bytes)) : Prop :=
  slice = lps (map enc_rec rs) /\ Forall rec_ok rs.

(** [f] starts with a length-prefixed value. *)
Definition holds_value (f v : bytes) : Prop := exists junk, f = lp v ++ junk /\ fits v.

(** [a] is supported and stronger than every supported algorithm in [before]. *)
Definition improves (before : list (Z * bytes)) (a : Z) : Prop :=
  exists k, has_kind a k /\
            forall a' f' k', In (a', f') before -> has_kind a' k' -> strength k' < strength k.

(** The signatures field: algorithm ids in file order, the algorithm to check and its signature. *)
Definition signature_list (slice : bytes) (algos : list Z) (algo : Z) (sig : bytes) : Prop :=
  exists rs field,
    records_of slice rs /\ algos = map fst rs /\
    strongest rs algo field /\ holds_value field sig /\
    (forall before a f after, rs = before ++ (a, f) :: after -> improves before a -> exists s, holds_value f s).

(** The digests field: algorithm ids in file order, and the digest recorded (last) for [algo]. *)
Definition digest_list (slice : bytes) (algos : list Z) (algo : Z) (digest : bytes) : Prop :=
  exists rs before field after,
    records_of slice rs /\ algos = map fst rs /\
    rs = before ++ (algo, field) :: after /\ holds_value field digest /\
    (forall f, ~ In (algo, f) after) /\
    (forall f, In (algo, f) before -> exists s, holds_value f s).

(** The certificates field. *)
Definition cert_list (E : env) (slice : bytes) (chain : list cert) : Prop :=
  exists encs, slice = lps encs /\ Forall fits encs /\ Forall2 (fun e c => e_cert_andr E e = Some c) encs chain.

(** The additional attributes: ids and values. *)
Definition attribute_list (slice : bytes) (attrs : list (Z * bytes)) : Prop :=
  slice = lps (map enc_rec attrs) /\ Forall (fun a => is_uint32 (fst a) /\ fits (enc_rec a)) attrs.

(** Part common to v2 and v3: the signature over [signedData] by the key in [pk], which is the key of
    the first certificate, and the digest signed for the algorithm that was checked. *)
Definition signed_by (E : env) (signedData sigs pk digs cs : bytes) (chain : list cert) (algo : Z) (digest : bytes) : Prop :=
  exists algos sig key main others,
    signature_list sigs algos algo sig /\
    e_pkix_andr E pk = Some key /\
    sig_valid E key algo signedData sig /\
    cert_list E cs chain /\ chain = main :: others /\ c_spki main = pk /\
    digest_list digs algos algo digest.

(** v2 stripping protection: attribute 0xbeeff00d names a scheme whose block must be in the APK;
    [present id] says that it is. *)
Definition scheme_block_id (scheme : Z) : option Z :=
  match scheme with 2 => Some 0x7109871a | 3 => Some 0xf05368c0 | 31 => Some 0x1b93ad61 | _ => None end.
Definition v2_attribute_ok (maxSdk : Z) (present : Z -> Prop) (a : Z * bytes) : Prop :=
  fst a = 0xbeeff00d -> 28 <= maxSdk ->
  exists scheme rest id,
    snd a = le32 scheme ++ rest /\ is_int32 scheme /\
    scheme_block_id scheme = Some id /\ present id.

(** A valid v2 signer record. *)
Definition v2_signer (E : env) (maxSdk : Z) (present : Z -> Prop) (signer : bytes)
           (chain : list cert) (algo : Z) (digest : bytes) : Prop :=
  exists signedData sigs pk junk digs cs attrs junk' al,
    signer = lp signedData ++ lp sigs ++ lp pk ++ junk /\ fits signedData /\ fits sigs /\ fits pk /\
    signedData = lp digs ++ lp cs ++ lp attrs ++ junk' /\ fits digs /\ fits cs /\ fits attrs /\
    signed_by E signedData sigs pk digs cs chain algo digest /\
    attribute_list attrs al /\ Forall (v2_attribute_ok maxSdk present) al.

(** What is known about an accepted signer: its certificate chain, the algorithm whose signature was
    checked and the content digest signed for it. *)
Record signer_info : Set := { si_chain : list cert; si_algo : Z; si_digest : bytes }.

(** Signers whose digests are of the same kind recorded the same digest. *)
Definition consistent (is : list signer_info) : Prop :=
  forall i j k, In i is -> In j is -> has_kind (si_algo i) k -> has_kind (si_algo j) k -> si_digest i = si_digest j.

(** [m] is the map of all the content digests recorded by the signers. *)
Definition recorded_digests (is : list signer_info) (m : list (Z * bytes)) : Prop :=
  NoDup (map fst m) /\
  forall key d, zget key m = Some d <->
    exists i k, In i is /\ has_kind (si_algo i) k /\ key = kind_id k /\ d = si_digest i.

(** A v2 block: a list of valid signer records, at most ten of them. *)
Definition v2_block (E : env) (maxSdk : Z) (present : Z -> Prop) (block : bytes) (is : list signer_info) : Prop :=
  exists signers junk,
    block = lp (lps signers) ++ junk /\ fits (lps signers) /\ Forall fits signers /\
    Forall2 (fun s i => v2_signer E maxSdk present s (si_chain i) (si_algo i) (si_digest i)) signers is /\
    consistent is /\ zlen is <= 10.
