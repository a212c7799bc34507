(** When a PKCS#7 SignedData object verifies (C85, C86). *)
From Coq Require Import Permutation Sorted.
From Verif.Model Require Import Bytes Env Asn1 X509 Pkcs7Verify.
From Verif.Spec Require Import Ber Asn1 Asn1Value Pkcs7 Revocation.

(** Lexicographic order of octet strings *)
Inductive bytes_le : bytes -> bytes -> Prop :=
| le_nil b : bytes_le [] b
| le_less x y a b : b2z x < b2z y -> bytes_le (x :: a) (y :: b)
| le_same x a b : bytes_le a b -> bytes_le (x :: a) (x :: b).

(** The DER encoding of the SET OF these attributes: their encodings in ascending order. *)
Definition attribute_set (l : list (oid * bytes)) (m : bytes) : Prop :=
  exists parts sorted, Forall2 attribute_der l parts /\ Permutation parts sorted /\ StronglySorted bytes_le sorted /\ set_der sorted m.

(** Identifiers (RFC 3279, 3370, 4055, 5754, 5758) and the numbers crypto/x509 gives to the algorithms *)
Definition digest_algorithms : list (oid * hash_id) := [
  ([1; 3; 14; 3; 2; 26], HSha1);
  ([2; 16; 840; 1; 101; 3; 4; 2; 1], HSha256)].
Definition MD2WithRSA := 1. Definition MD5WithRSA := 2. Definition SHA1WithRSA := 3. Definition SHA256WithRSA := 4.
Definition SHA384WithRSA := 5. Definition SHA512WithRSA := 6. Definition DSAWithSHA1 := 7. Definition DSAWithSHA256 := 8.
Definition ECDSAWithSHA1 := 9. Definition ECDSAWithSHA256 := 10. Definition ECDSAWithSHA384 := 11. Definition ECDSAWithSHA512 := 12.
Definition SHA256WithRSAPSS := 13. Definition SHA384WithRSAPSS := 14. Definition SHA512WithRSAPSS := 15.
Definition signature_algorithms : list (oid * Z) := [
  ([1; 2; 840; 113549; 1; 1; 2], MD2WithRSA);
  ([1; 2; 840; 113549; 1; 1; 4], MD5WithRSA);
  ([1; 2; 840; 113549; 1; 1; 5], SHA1WithRSA);
  ([1; 3; 14; 3; 2; 29], SHA1WithRSA);
  ([1; 2; 840; 113549; 1; 1; 11], SHA256WithRSA);
  ([1; 2; 840; 113549; 1; 1; 12], SHA384WithRSA);
  ([1; 2; 840; 113549; 1; 1; 13], SHA512WithRSA);
  ([1; 2; 840; 10040; 4; 3], DSAWithSHA1);
  ([2; 16; 840; 1; 101; 3; 4; 3; 2], DSAWithSHA256);
  ([1; 2; 840; 10045; 4; 1], ECDSAWithSHA1);
  ([1; 2; 840; 10045; 4; 3; 2], ECDSAWithSHA256);
  ([1; 2; 840; 10045; 4; 3; 3], ECDSAWithSHA384);
  ([1; 2; 840; 10045; 4; 3; 4], ECDSAWithSHA512)].
Definition id_rsaEncryption : oid := [1; 2; 840; 113549; 1; 1; 1].
Definition id_rsassaPss : oid := [1; 2; 840; 113549; 1; 1; 10].
Definition id_mgf1 : oid := [1; 2; 840; 113549; 1; 1; 8].
Definition der_null : bytes := [x05; x00].
(** RSASSA-PSS: one hash function for message and mask, salt as long as the hash *)
Definition pss_algorithms : list (oid * Z * Z) := [
  ([2; 16; 840; 1; 101; 3; 4; 2; 1], 32, SHA256WithRSAPSS);
  ([2; 16; 840; 1; 101; 3; 4; 2; 2], 48, SHA384WithRSAPSS);
  ([2; 16; 840; 1; 101; 3; 4; 2; 3], 64, SHA512WithRSAPSS)].
(** The signature algorithm a SignerInfo means: named directly; "rsaEncryption", with the hash of the digest algorithm; or PSS. *)
Inductive means_algorithm (D : stdDecoder) (o : oid) (params : bytes) : hash_id -> Z -> Prop :=
| named h a : In (o, a) signature_algorithms -> means_algorithm D o params h a
| rsa_sha1 : o = id_rsaEncryption -> means_algorithm D o params HSha1 SHA1WithRSA
| rsa_sha256 : o = id_rsaEncryption -> means_algorithm D o params HSha256 SHA256WithRSA
| pss h p hash salt a : o = id_rsassaPss -> d_pss D params = Some p -> In (hash, salt, a) pss_algorithms ->
    ps_hash p = hash -> ps_hash_params p = der_null -> ps_mgf p = id_mgf1 -> d_algorithm D (ps_mgf_params p) = Some (hash, der_null) ->
    ps_salt p = salt -> ps_trailer p = 1 -> means_algorithm D o params h a.

(** The certificate a SignerInfo means: the first one with this serial number and these bytes as issuer name. *)
Definition means_certificate (certs : list p7cert) (i : sigInfo) (c : p7cert) : Prop :=
  exists l1 l2, certs = l1 ++ c :: l2 /\ c_serial (pc_cert c) = gi_serial i /\ pc_issuer c = gi_issuer i /\
    forall d, In d l1 -> ~ (c_serial (pc_cert d) = gi_serial i /\ pc_issuer d = gi_issuer i).

(** The first attribute of type messageDigest: its value starts with an OCTET STRING that holds this digest. *)
Definition first_digest (l : list p7_attr) (digest : bytes) : Prop :=
  exists l1 a l2 octets rest, l = l1 ++ a :: l2 /\ pa_type a = [1; 2; 840; 113549; 1; 9; 4] /\
    (forall b, In b l1 -> pa_type b <> [1; 2; 840; 113549; 1; 9; 4]) /\ pa_value a = octets ++ rest /\ element 0 4 false digest octets.

(** The bytes a signature is about: the content, or the SET of attributes with the digest of the content in it. *)
Inductive signed_bytes (E : env) (content : bytes) (i : sigInfo) (h : hash_id) : bytes -> Prop :=
| the_content : gi_attrs i = [] -> signed_bytes E content i h content
| the_attributes m : gi_attrs i <> [] -> first_digest (gi_attrs i) (e_hash E h content) -> attribute_set (map said (gi_attrs i)) m ->
    signed_bytes E content i h m.

(** This SignerInfo is a signature of the content. *)
Definition signature_of (E : env) (D : stdDecoder) (certs : list p7cert) (content : bytes) (i : sigInfo) (c : p7cert) (m : bytes) : Prop :=
  exists h algo, In (gi_digest i, h) digest_algorithms /\ means_certificate certs i c /\ means_algorithm D (gi_enc i) (gi_enc_params i) h algo /\
    signed_bytes E content i h m /\ e_cert_check E (pc_cert c) algo m (gi_sig i) = true.

(** *** SignedData with or without content, with or without revocation lists *)
Record content_doc : Type := { c_doc : signed_doc; c_content : option bytes; c_crls : option (list crl_doc) }.
Definition octets_in (b f : bytes) : Prop := exists octets, der_element 0 4 false b octets /\ der_element 2 0 true octets f.
Definition crls_der (T : textenv) (l : list crl_doc) (f : bytes) : Prop := exists fs, Forall2 (crl_der T) l fs /\ der_element 2 1 true (concat fs) f.
Definition content_der (T : textenv) (d : content_doc) (f : bytes) : Prop :=
  exists ver digests digest_set ctype content cinfo certs crls signers signer_set sdata sd_oid explicit,
    - 2 ^ 63 <= s_version (c_doc d) < 2 ^ 63 /\ integer_element (s_version (c_doc d)) ver /\ Forall2 algorithm_der (s_digests (c_doc d)) digests /\ set_der digests digest_set /\
    oid_element (s_content_type (c_doc d)) ctype /\ optional octets_in (c_content d) content /\ seq_der [ctype; content] cinfo /\
    optional (der_element 2 0 true) (s_certs (c_doc d)) certs /\ optional (crls_der T) (c_crls d) crls /\
    Forall2 signer_der (s_signers (c_doc d)) signers /\ set_der signers signer_set /\
    seq_der [ver; digest_set; cinfo; certs; crls; signer_set] sdata /\
    oid_element [1; 2; 840; 113549; 1; 7; 2] sd_oid /\ der_element 2 0 true sdata explicit /\ seq_der [sd_oid; explicit] f.
(** The object says the same as the document. *)
Definition or_empty (x : option bytes) : bytes := match x with Some b => b | None => [] end.
Definition info_says (d : signer_doc) (i : sigInfo) : Prop :=
  gi_issuer i = sd_issuer d /\ gi_serial i = sd_serial d /\ gi_digest i = fst (sd_digest d) /\ map said (gi_attrs i) = present (sd_attrs d) /\
  Forall attribute_ok (gi_attrs i) /\ gi_enc i = fst (sd_enc d) /\ gi_enc_params i = or_empty (snd (sd_enc d)) /\ gi_sig i = sd_signature d.
Definition content_says (d : content_doc) (p : pkcs7obj) : Prop :=
  po_type p = s_content_type (c_doc d) /\ po_content p = or_empty (c_content d) /\ po_envelope p = None /\
  po_crls p = map kept_list (listed (c_crls d)) /\ Forall2 info_says (s_signers (c_doc d)) (po_signers p).
