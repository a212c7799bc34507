(** DER elements and PKCS#7 signed attributes (C61-C64). *)
From Verif.Model Require Import Bytes Env Asn1.
From Verif.Spec Require Import Ber Asn1 Asn1Value.

(** The DER encoding of an element with this identifier and these contents. *)
Definition der_element (class tag : Z) (compound : bool) (content full : bytes) : Prop :=
  exists id len, full = id ++ len ++ content /\ identifier_shortest class tag compound id /\ der_length (zlen content) len.

(** The DER contents of an OBJECT IDENTIFIER *)
Inductive numbers_shortest : list Z -> bytes -> Prop :=
| ns_nil : numbers_shortest [] []
| ns_cons n b l bs : base128_shortest b n -> numbers_shortest l bs -> numbers_shortest (n :: l) (b ++ bs).
Definition oid_der (o : list Z) (bs : bytes) : Prop :=
  exists a b r, o = a :: b :: r /\ 0 <= a <= 2 /\ 0 <= b /\ (a < 2 -> b < 40) /\ numbers_shortest (a * 40 + b :: r) bs.

(** An attribute: SEQUENCE of its type and its value, the value being an element of any kind. *)
Definition attribute_der (a : oid * bytes) (full : bytes) : Prop :=
  exists octets type_element, oid_der (fst a) octets /\ der_element 0 6 false octets type_element /\
    der_element 0 16 true (type_element ++ snd a) full.
Inductive attributes_der : list (oid * bytes) -> bytes -> Prop :=
| ad_nil : attributes_der [] []
| ad_cons a f l fs : attribute_der a f -> attributes_der l fs -> attributes_der (a :: l) (f ++ fs).

(** The attribute can be encoded: its type is an identifier, its value an element with contents [pa_value]. *)
Definition attribute_ok (a : p7_attr) : Prop :=
  valid_oid (pa_type a) /\ exists class tag compound, element class tag compound (pa_value a) (pa_full a).
(** What an attribute says. *)
Definition said (a : p7_attr) : oid * bytes := (pa_type a, pa_full a).

(** *** SignedData (PKCS#7, RFC 2315) with definite lengths; [bytes] fields are elements as they stand in the file *)
Definition is_element (f : bytes) : Prop := exists class tag compound content, element class tag compound content f.
Definition seq_der (parts : list bytes) (f : bytes) : Prop := der_element 0 16 true (concat parts) f.
Definition set_der (parts : list bytes) (f : bytes) : Prop := der_element 0 17 true (concat parts) f.
Definition oid_element (o : list Z) (f : bytes) : Prop := exists octets, oid_der o octets /\ der_element 0 6 false octets f.
Definition integer_element (z : Z) (f : bytes) : Prop := exists octets, integer_octets octets z /\ der_element 0 2 false octets f.
(** An optional element: absent (no bytes) or present. *)
Definition optional {A} (R : A -> bytes -> Prop) (x : option A) (f : bytes) : Prop :=
  match x with None => f = [] | Some a => R a f end.
(** AlgorithmIdentifier: identifier and optional parameters (any element) *)
Definition algorithm_der (a : oid * option bytes) (f : bytes) : Prop :=
  exists o params, oid_element (fst a) o /\ optional (fun e x => is_element e /\ x = e) (snd a) params /\ seq_der [o; params] f.
(** Attributes under an implicit tag *)
Definition tagged_attributes (tag : Z) (l : list (oid * bytes)) (f : bytes) : Prop :=
  exists c, attributes_der l c /\ Forall (fun a => is_element (snd a)) l /\ der_element 2 tag true c f.

Record signer_doc : Set := {
  sd_version : Z; sd_issuer : bytes; sd_serial : Z;
  sd_digest : oid * option bytes; sd_attrs : option (list (oid * bytes));
  sd_enc : oid * option bytes; sd_signature : bytes; sd_unauth : option (list (oid * bytes)) }.
Definition signer_der (d : signer_doc) (f : bytes) : Prop :=
  exists ver serial issuer_serial digest attrs enc sig unauth,
    - 2 ^ 63 <= sd_version d < 2 ^ 63 /\ integer_element (sd_version d) ver /\ integer_element (sd_serial d) serial /\ is_element (sd_issuer d) /\
    seq_der [sd_issuer d; serial] issuer_serial /\ algorithm_der (sd_digest d) digest /\ optional (tagged_attributes 0) (sd_attrs d) attrs /\
    algorithm_der (sd_enc d) enc /\ der_element 0 4 false (sd_signature d) sig /\ optional (tagged_attributes 1) (sd_unauth d) unauth /\
    seq_der [ver; issuer_serial; digest; attrs; enc; sig; unauth] f.

Record signed_doc : Set := {
  s_version : Z; s_digests : list (oid * option bytes); s_content_type : oid;
  s_certs : option bytes;                (* the certificates, one after the other *)
  s_signers : list signer_doc }.
(** SignedData without content and without revocation lists, in a ContentInfo, as in an APK. *)
Definition signed_data_der (d : signed_doc) (f : bytes) : Prop :=
  exists ver digests digest_set ctype cinfo certs signers signer_set sdata sd_oid explicit,
    - 2 ^ 63 <= s_version d < 2 ^ 63 /\ integer_element (s_version d) ver /\ Forall2 algorithm_der (s_digests d) digests /\ set_der digests digest_set /\
    oid_element (s_content_type d) ctype /\ seq_der [ctype] cinfo /\ optional (der_element 2 0 true) (s_certs d) certs /\
    Forall2 signer_der (s_signers d) signers /\ set_der signers signer_set /\
    seq_der [ver; digest_set; cinfo; certs; signer_set] sdata /\
    oid_element [1; 2; 840; 113549; 1; 7; 2] sd_oid /\ der_element 2 0 true sdata explicit /\ seq_der [sd_oid; explicit] f.
(** All the identifiers in it have numbers below 2^31. *)
Definition signer_oids (d : signer_doc) : list oid :=
  fst (sd_digest d) :: fst (sd_enc d) :: map fst (match sd_attrs d with Some l => l | None => [] end) ++ map fst (match sd_unauth d with Some l => l | None => [] end).
Definition doc_oids (d : signed_doc) : list oid := s_content_type d :: map fst (s_digests d) ++ flat_map signer_oids (s_signers d).
(** The decoded signer and the decoded object say the same as the document; [name] decodes issuer names. *)
Definition present {A} (x : option (list A)) : list A := match x with Some l => l | None => [] end.
Definition signer_says (name : bytes -> option rdn_seq) (d : signer_doc) (i : p7_signer) : Prop :=
  ps_issuer i = name (sd_issuer d) /\ ps_serial i = sd_serial d /\ ps_digest_alg i = fst (sd_digest d) /\ ps_enc_alg i = fst (sd_enc d) /\
  ps_enc_digest i = sd_signature d /\ map said (ps_auth_attrs i) = present (sd_attrs d) /\ Forall attribute_ok (ps_auth_attrs i).
Definition object_says (name : bytes -> option rdn_seq) (d : signed_doc) (p : p7) : Prop :=
  p7_content_type p = s_content_type d /\ Forall2 (signer_says name) (s_signers d) (p7_signers p).

(** *** The numbers r and s of a DSA or ECDSA signature (C76): RFC 3279 2.2.2, Dss-Sig-Value *)
Definition rs_der (r s : Z) (f : bytes) : Prop := exists ri si, integer_element r ri /\ integer_element s si /\ seq_der [ri; si] f.
(** What is accepted: lengths need not be the shortest, and something may follow s inside the SEQUENCE. *)
Definition loose_integer (z : Z) (f : bytes) : Prop := exists octets, integer_octets octets z /\ element 0 2 false octets f.
Definition rs_loose (r s : Z) (f : bytes) : Prop := exists ri si junk, loose_integer r ri /\ loose_integer s si /\ element 0 16 true (ri ++ si ++ junk) f.
