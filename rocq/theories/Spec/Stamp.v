(** Source stamp v2 (block 0x6dff800d and the ZIP entry stamp-cert-sha256), as predicates over bytes. *)
From Coq Require Import Permutation Sorted String.
From Verif.Model Require Import Bytes Env Result.
From Verif.Spec Require Import Encoding Algorithms Digests Entries Signer SignerV3.

Definition stamp_entry_name : bytes := s2b "stamp-cert-sha256".
Definition manifest_mf_name : bytes := s2b "META-INF/MANIFEST.MF".

(** What the stamp signs: the (digest kind, digest) pairs in increasing order of kind. *)
Definition enc_digest (p : Z * bytes) : bytes := lp (le32 (fst p) ++ lp (snd p)).
Definition stamp_message (m : list (Z * bytes)) (msg : bytes) : Prop :=
  exists l, Permutation l m /\ StronglySorted (fun a b => fst a <= fst b) l /\ msg = flat_map enc_digest l.

(** Without a v2/v3 content digest the stamp signs the SHA-256 of the manifest, as kind 4. *)
Definition manifest_digest (E : env) (z : zip) (d : bytes) : Prop :=
  match sget manifest_mf_name (z_map z) with
  | None => d = []
  | Some f => match zf_readall f 134217728 with None => d = [] | Some b => d = e_hash E HSha256 b end
  end.

(** [m] holds content digests of the APK, by kind. *)
Definition content_digests (E : env) (sections : list bytes) (m : list (Z * bytes)) : Prop :=
  m <> [] /\ NoDup (map fst m) /\ Forall (fun p => exists k, fst p = kind_id k /\ content_digest E k sections (snd p)) m.

(** A list of (algorithm, signature) records; unsupported algorithms are skipped, the last record of a
    supported algorithm counts. *)
Definition stamp_records (slice : bytes) (rs : list (Z * bytes)) : Prop :=
  slice = lps (map enc_rec rs) /\
  Forall (fun r => is_int32 (fst r) /\ fits (enc_rec r) /\ (supported (fst r) -> exists s, holds_value (snd r) s)) rs.
Definition offered (rs : list (Z * bytes)) (a : Z) (s : bytes) : Prop :=
  supported a /\ exists f, last_entry rs a f /\ holds_value f s.

(** [slice] holds enough valid signatures of [data]: among the algorithms that platforms up to [maxSdk]
    implement, for every level at which algorithms appear (third column of the table) one of the
    strongest offered was verified, and level [minSdk] implements at least one of them. *)
Definition stamp_signed (E : env) (key : pubkey) (minSdk maxSdk : Z) (data slice : bytes) : Prop :=
  exists rs chosen,
    stamp_records slice rs /\
    (forall a s, In (a, s) chosen -> offered rs a s /\ sig_valid E key a data s) /\
    (forall a s k m, offered rs a s -> In (a, k, m) algorithm_table -> m <= maxSdk ->
       exists a' s' k', In (a', s') chosen /\ In (a', k', m) algorithm_table /\ strength k <= strength k') /\
    (exists a s k m, In (a, s) chosen /\ In (a, k, m) algorithm_table /\ m <= minSdk /\ m <= maxSdk).

(** One list of signatures per signature scheme; the last one for the scheme counts (3 stands for 3.1). *)
Definition stamp_scheme (scheme : Z) : Z := if scheme =? 31 then 3 else scheme.
Definition scheme_signatures (schemes : bytes) (scheme : Z) (sigs : bytes) : Prop :=
  exists rs f, schemes = lps (map enc_rec rs) /\
    Forall (fun r => is_int32 (fst r) /\ fits (enc_rec r) /\ exists s, holds_value (snd r) s) rs /\
    last_entry rs (stamp_scheme scheme) f /\ holds_value f sigs.

(** Layout of the block: certificate, per-scheme signatures, then optionally signed attributes. *)
Definition stamp_layout (block enc schemes rest : bytes) : Prop :=
  exists sb junk, block = lp sb ++ junk /\ fits sb /\ sb = lp enc ++ lp schemes ++ rest /\ fits enc /\ fits schemes.
Definition stamp_attributes_layout (rest attrs sigs : bytes) : Prop :=
  exists junk, rest = lp attrs ++ lp sigs ++ junk /\ fits attrs /\ fits sigs.

(** A valid stamp made with certificate [c] over the digests [m]. *)
Definition stamp_block (E : env) (minSdk maxSdk scheme : Z) (m : list (Z * bytes)) (block : bytes) (c : cert) : Prop :=
  exists enc schemes rest sigs msg,
    stamp_layout block enc schemes rest /\ e_cert_andr E enc = Some c /\
    scheme_signatures schemes scheme sigs /\ stamp_message m msg /\
    stamp_signed E (c_key c) minSdk maxSdk msg sigs /\
    (rest = [] \/ exists attrs asigs, stamp_attributes_layout rest attrs asigs /\
                                     stamp_signed E (c_key c) minSdk maxSdk attrs asigs).

(** Signed attributes of the stamp: [al] are attributes in file order, [tail] what follows them. *)
Definition id_stamp_time : Z := 0xe43c5946.
Definition id_stamp_rotation : Z := 0x9d6303f7.
Definition stamp_attrs (E : env) (minSdk maxSdk : Z) (block : bytes) (c : cert) (al : list (Z * bytes)) (tail : bytes) : Prop :=
  exists enc schemes rest attrs asigs inner junk,
    stamp_layout block enc schemes rest /\ e_cert_andr E enc = Some c /\
    stamp_attributes_layout rest attrs asigs /\ stamp_signed E (c_key c) minSdk maxSdk attrs asigs /\
    attrs = lp (inner ++ tail) ++ junk /\ fits (inner ++ tail) /\ attribute_list inner al.

(** Stamp lineages have the format of v3 lineages (Spec/SignerV3.v), with certificates read by the
    lenient (Android) parser instead of the standard one. *)
Definition andr_certs (E : env) : env := {|
  e_hash := e_hash E; e_rsa_pss := e_rsa_pss E; e_rsa_pkcs1 := e_rsa_pkcs1 E; e_ecdsa := e_ecdsa E; e_dsa := e_dsa E;
  e_asn1_ints := e_asn1_ints E; e_asn1_rs_std := e_asn1_rs_std E; e_asn1_rs_andr := e_asn1_rs_andr E;
  e_pkix_andr := e_pkix_andr E; e_pkix_std := e_pkix_std E; e_cert_andr := e_cert_andr E; e_cert_std := e_cert_andr E;
  e_pkcs7 := e_pkcs7 E; e_asn1_oid := e_asn1_oid E; e_asn1_octets := e_asn1_octets E; e_marshal_attrs := e_marshal_attrs E;
  e_cert_check := e_cert_check E; e_base64 := e_base64 E; e_parse_xml := e_parse_xml E; e_to_lower := e_to_lower E |}.
Definition stamp_lineage (E : env) (c : cert) (value : bytes) (ns : list lnode) : Prop :=
  lineage_of (andr_certs E) value ns /\ exists l n, ns = l ++ [n] /\ c_raw (ln_cert n) = c_raw c.

(** No two offered algorithms are equally strong and of the same level. *)
Definition untied (rs : list (Z * bytes)) : Prop :=
  forall a a' k m, In a (map fst rs) -> In a' (map fst rs) -> In (a, k, m) algorithm_table -> In (a', k, m) algorithm_table -> a = a'.
Definition untied_stamp (block : bytes) : Prop :=
  forall enc schemes rest, stamp_layout block enc schemes rest ->
    (forall scheme sigs rs, scheme_signatures schemes scheme sigs -> stamp_records sigs rs -> untied rs) /\
    (forall attrs sigs rs, stamp_attributes_layout rest attrs sigs -> stamp_records sigs rs -> untied rs).
