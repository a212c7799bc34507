(** X.509 certificates and public keys, RFC 5280 and RFC 3279 (C69-C75). *)
From Verif.Model Require Import Bytes Env Asn1 X509.
From Verif.Spec Require Import Ber Asn1 Asn1Value Pkcs7.

(** BIT STRING without unused bits *)
Definition bit_string_der (b f : bytes) : Prop := der_element 0 3 false (x00 :: b) f.

(** *** SubjectPublicKeyInfo *)
Definition id_rsa : oid := [1; 2; 840; 113549; 1; 1; 1].
Definition id_dsa : oid := [1; 2; 840; 10040; 4; 1].
Definition id_ec : oid := [1; 2; 840; 10045; 2; 1].
Definition curve_id (c : curve) : oid :=
  match c with P224 => [1; 3; 132; 0; 33] | P256 => [1; 2; 840; 10045; 3; 1; 7] | P384 => [1; 3; 132; 0; 34] | P521 => [1; 3; 132; 0; 35] end.
(** octets of a coordinate *)
Definition field_size (c : curve) : Z := match c with P224 => 28 | P256 => 32 | P384 => 48 | P521 => 66 end.
Definition spki_of (alg : oid * option bytes) (key f : bytes) : Prop :=
  exists a bits, algorithm_der alg a /\ bit_string_der key bits /\ seq_der [a; bits] f.
Inductive spki_der (K : xenv) : gokey -> bytes -> Prop :=
| sp_rsa n e params ni ei key f : 0 < n -> 0 < e < 2 ^ 63 -> integer_element n ni -> integer_element e ei -> seq_der [ni; ei] key ->
    spki_of (id_rsa, params) key f -> spki_der K (GRsa n e) f
| sp_dsa y p q g pi qi gi params key f : 0 < y -> 0 < p -> 0 < q -> 0 < g -> integer_element p pi -> integer_element q qi -> integer_element g gi ->
    seq_der [pi; qi; gi] params -> integer_element y key -> spki_of (id_dsa, Some params) key f -> spki_der K (GDsa y p q g) f
| sp_ec c x y bx by_ params f : k_point K c x y = true -> be_val bx = x -> be_val by_ = y -> zlen bx = field_size c -> zlen by_ = field_size c ->
    oid_element (curve_id c) params -> spki_of (id_ec, Some params) (x04 :: bx ++ by_) f -> spki_der K (GEcdsa c x y) f
| sp_other alg key f : fst alg <> id_rsa -> fst alg <> id_dsa -> fst alg <> id_ec -> valid_oid (fst alg) -> spki_of alg key f -> spki_der K GNone f.

(** *** Names: sequences of sets of attributes, whose values are strings of a type *)
Definition name_doc : Type := list (list (oid * (Z * bytes))).
(** The octets are those of a string of this type (BMPString is left out). *)
Definition string_ok (T : textenv) (tag : Z) (s : bytes) : Prop :=
  (tag = 19 \/ tag = 20) \/ (tag = 12 /\ x_utf8 T s = true) \/ (tag = 22 /\ Forall (fun c => b2z c < 128) s) \/
  (tag = 18 /\ Forall (fun c => 48 <= b2z c <= 57 \/ b2z c = 32) s).
Definition name_attribute_der (T : textenv) (a : oid * (Z * bytes)) (f : bytes) : Prop :=
  exists t v, oid_element (fst a) t /\ valid_oid (fst a) /\ string_ok T (fst (snd a)) (snd (snd a)) /\
    der_element 0 (fst (snd a)) false (snd (snd a)) v /\ seq_der [t; v] f.
Definition rdn_der (T : textenv) (l : list (oid * (Z * bytes))) (f : bytes) : Prop :=
  exists fs, Forall2 (name_attribute_der T) l fs /\ set_der fs f.
Definition name_der (T : textenv) (n : name_doc) (f : bytes) : Prop :=
  exists fs, Forall2 (rdn_der T) n fs /\ seq_der fs f.
(** what the name says *)
Definition name_text (n : name_doc) : rdn_seq :=
  map (map (fun a => {| at_type := fst a; at_value := AvString (snd (snd a)) |})) n.

(** *** Times *)
Inductive time_der (T : textenv) (t : Z) : bytes -> Prop :=
| td_utc s f : x_utc T s = Some t -> der_element 0 23 false s f -> time_der T t f
| td_generalized s f : x_generalized T s = Some t -> der_element 0 24 false s f -> time_der T t f.

(** *** Extensions *)
Record ext_doc : Set := { x_id : oid; x_critical : bool; x_value : bytes }.
Definition extension_der (d : ext_doc) (f : bytes) : Prop :=
  exists i c v, oid_element (x_id d) i /\ valid_oid (x_id d) /\ (if x_critical d then der_element 0 1 false [xff] c else c = []) /\
    der_element 0 4 false (x_value d) v /\ seq_der [i; c; v] f.

(** *** Certificates *)
Record cert_doc : Type := {
  d_version : option Z; d_serial : Z; d_sigalg : oid * option bytes; d_issuer : name_doc; d_not_before : Z; d_not_after : Z;
  d_subject : name_doc; d_key : gokey; d_spki : bytes; d_issuer_uid : option bytes; d_subject_uid : option bytes;
  d_exts : option (list ext_doc); d_outer_alg : oid * option bytes; d_signature : bytes }.
Definition certificate_der (K : xenv) (d : cert_doc) (f : bytes) : Prop :=
  exists version serial sigalg issuer nb na validity subject iuid suid exts tbs outer sig,
    optional (fun v e => - 2 ^ 63 <= v < 2 ^ 63 /\ exists i, integer_element v i /\ der_element 2 0 true i e) (d_version d) version /\
    integer_element (d_serial d) serial /\ algorithm_der (d_sigalg d) sigalg /\ valid_oid (fst (d_sigalg d)) /\
    name_der (k_text K) (d_issuer d) issuer /\
    time_der (k_text K) (d_not_before d) nb /\ time_der (k_text K) (d_not_after d) na /\ seq_der [nb; na] validity /\
    name_der (k_text K) (d_subject d) subject /\ spki_der K (d_key d) (d_spki d) /\
    optional (fun b e => der_element 2 1 false (x00 :: b) e) (d_issuer_uid d) iuid /\
    optional (fun b e => der_element 2 2 false (x00 :: b) e) (d_subject_uid d) suid /\
    optional (fun l e => exists es s, Forall2 extension_der l es /\ seq_der es s /\ der_element 2 3 true s e) (d_exts d) exts /\
    seq_der [version; serial; sigalg; issuer; validity; subject; d_spki d; iuid; suid; exts] tbs /\
    algorithm_der (d_outer_alg d) outer /\ valid_oid (fst (d_outer_alg d)) /\ bit_string_der (d_signature d) sig /\
    seq_der [tbs; outer; sig] f.

(** Values of the extensions that are decoded (C73) *)
Definition ce (x : Z) : oid := [2; 5; 29; x].
Definition id_aia : oid := [1; 3; 6; 1; 5; 5; 7; 1; 1].
Definition recognised : list oid := id_aia :: map ce [14; 15; 17; 19; 30; 31; 32; 35; 37].
Definition bits_value (v : bytes) : Prop :=
  exists pad b, 0 <= pad < 8 /\ (b = [] -> pad = 0) /\ (b <> [] -> b2z (last b x00) mod 2 ^ pad = 0) /\ der_element 0 3 false (z2b pad :: b) v.
(** an alternative name: the number of its tag, and its contents; definite lengths, not necessarily the shortest *)
Definition general_name (n : Z * bytes) (f : bytes) : Prop := exists class compound, element class (fst n) compound (snd n) f.
Definition name_supported (n : Z * bytes) : Prop := fst n = 1 \/ fst n = 2 \/ fst n = 7.
Definition alt_names_value (l : list (Z * bytes)) (v : bytes) : Prop :=
  exists fs, Forall2 general_name l fs /\ element 0 16 true (concat fs) v.
Definition alt_name_ok (n : Z * bytes) : Prop := fst n = 7 -> zlen (snd n) = 4 \/ zlen (snd n) = 16.
(** sequences of sequences that start with an object identifier *)
Definition oid_seqs (P : bytes -> Prop) (v : bytes) : Prop :=
  exists fs, Forall (fun f => exists o i more, oid_element o i /\ valid_oid o /\ P more /\ seq_der [i; more] f) fs /\ seq_der fs v.
(** RFC 5280 4.2.1.10, name constraints: a subtree is a DNS name or another name; a critical extension may only have DNS names. *)
Definition subtree_der (dns : option bytes) (f : bytes) : Prop :=
  exists base more, seq_der [base; more] f /\
    match dns with
    | Some n => Forall (fun c => b2z c < 128) n /\ der_element 2 2 false n base
    | None => exists t k b, t <> 2 /\ element 2 t k b base
    end.
Definition subtrees_der (tag : Z) (l : list (option bytes)) (f : bytes) : Prop := exists fs, Forall2 subtree_der l fs /\ der_element 2 tag true (concat fs) f.
Definition only_dns (l : option (list (option bytes))) : Prop := forall x d, l = Some x -> In d x -> exists c n, d = Some (c :: n).
(** RFC 5280 4.2.1.13, distribution points of revocation lists, with full names *)
Definition bits_ok (pad : Z) (b : bytes) : Prop := 0 <= pad < 8 /\ (b = [] -> pad = 0) /\ (b <> [] -> b2z (last b x00) mod 2 ^ pad = 0).
Definition full_name_der (names : list bytes) (f : bytes) : Prop :=
  names <> [] /\ Forall is_element names /\ exists full, der_element 2 0 true (concat names) full /\ der_element 2 0 true full f.
Definition point_der (f : bytes) : Prop :=
  exists names reasons issuer n r i, optional full_name_der names n /\
    optional (fun (b : Z * bytes) e => bits_ok (fst b) (snd b) /\ der_element 2 1 false (z2b (fst b) :: snd b) e) reasons r /\
    optional (der_element 2 2 true) issuer i /\ seq_der [n; r; i] f.
(** RFC 5280 4.2.1.13 also has names relative to the issuer of the list: [nameRelativeToCRLIssuer [1] RelativeDistinguishedName],
    a SET OF attributes, which are SEQUENCEs.  The first point has such a name. *)
Definition relative_points (v : bytes) : Prop :=
  exists attr attrs rel n more p points, Forall (fun a => exists b, der_element 0 16 true b a) (attr :: attrs) /\ der_element 2 1 true (concat (attr :: attrs)) rel /\
    der_element 2 0 true rel n /\ seq_der [n; more] p /\ seq_der (p :: points) v.
Inductive value_ok (critical : bool) : oid -> bytes -> Prop :=
| vo_key_id b v : der_element 0 4 false b v -> value_ok critical (ce 14) v
| vo_usage v : bits_value v -> value_ok critical (ce 15) v
| vo_alt_names l v : alt_names_value l v -> Forall alt_name_ok l -> value_ok critical (ce 17) v
| vo_constraints ca path c p v : optional (fun b e => der_element 0 1 false [if b : bool then xff else x00] e) ca c ->
    optional (fun n e => - 2 ^ 63 <= n < 2 ^ 63 /\ integer_element n e) path p -> seq_der [c; p] v -> value_ok critical (ce 19) v
| vo_names permitted excluded p e v : optional (subtrees_der 0) permitted p -> optional (subtrees_der 1) excluded e -> seq_der [p; e] v ->
    (critical = true -> only_dns permitted /\ only_dns excluded) -> value_ok critical (ce 30) v
| vo_points l v : Forall point_der l -> seq_der l v -> value_ok critical (ce 31) v
| vo_policies v : oid_seqs (fun _ => True) v -> value_ok critical (ce 32) v
| vo_authority id i more v : optional (fun b e => der_element 2 0 false b e) id i -> (more = [] \/ exists e rest t k b, more = e ++ rest /\ element 2 t k b e /\ t <> 0) ->
    seq_der [i; more] v -> value_ok critical (ce 35) v
| vo_ext_usage l v : Forall (fun f => exists o, oid_element o f /\ valid_oid o) l -> seq_der l v -> value_ok critical (ce 37) v
| vo_aia v : oid_seqs is_element v -> value_ok critical id_aia v
| vo_other i v : ~ In i recognised -> value_ok critical i v.

(** An extension that is not understood: not one of the ten recognised ones, or alternative names without an e-mail address,
    DNS name or IP address. *)
Definition unhandled (x : ext_doc) : Prop :=
  ~ In (x_id x) recognised \/ (x_id x = ce 17 /\ exists ns, alt_names_value ns (x_value x) /\ Forall (fun n => ~ name_supported n) ns).

(** *** Signature algorithms: the numbers of crypto/x509 *)
Definition id_pss : oid := [1; 2; 840; 113549; 1; 1; 10].
Definition id_mgf1 : oid := [1; 2; 840; 113549; 1; 1; 8].
Definition id_sha (bits : Z) : oid := [2; 16; 840; 1; 101; 3; 4; 2; if bits =? 256 then 1 else if bits =? 384 then 2 else 3].
Inductive plain_algorithm : oid -> Z -> Prop :=
| pa_md2_rsa : plain_algorithm [1; 2; 840; 113549; 1; 1; 2] 1
| pa_md5_rsa : plain_algorithm [1; 2; 840; 113549; 1; 1; 4] 2
| pa_sha1_rsa : plain_algorithm [1; 2; 840; 113549; 1; 1; 5] 3
| pa_sha1_rsa_iso : plain_algorithm [1; 3; 14; 3; 2; 29] 3
| pa_sha256_rsa : plain_algorithm [1; 2; 840; 113549; 1; 1; 11] 4
| pa_sha384_rsa : plain_algorithm [1; 2; 840; 113549; 1; 1; 12] 5
| pa_sha512_rsa : plain_algorithm [1; 2; 840; 113549; 1; 1; 13] 6
| pa_dsa_sha1 : plain_algorithm [1; 2; 840; 10040; 4; 3] 7
| pa_dsa_sha256 : plain_algorithm [2; 16; 840; 1; 101; 3; 4; 3; 2] 8
| pa_ecdsa_sha1 : plain_algorithm [1; 2; 840; 10045; 4; 1] 9
| pa_ecdsa_sha256 : plain_algorithm [1; 2; 840; 10045; 4; 3; 2] 10
| pa_ecdsa_sha384 : plain_algorithm [1; 2; 840; 10045; 4; 3; 3] 11
| pa_ecdsa_sha512 : plain_algorithm [1; 2; 840; 10045; 4; 3; 4] 12.
(** RSASSA-PSS parameters, with all of them present except maybe the trailer field *)
Record pss_doc : Set := {
  pss_hash : oid * option bytes; pss_mgf : oid; pss_mgf_hash : oid * option bytes; pss_salt : Z; pss_trailer : option Z }.
Definition explicit (tag : Z) (inner f : bytes) : Prop := der_element 2 tag true inner f.
Definition int64_element (z : Z) (f : bytes) : Prop := - 2 ^ 63 <= z < 2 ^ 63 /\ integer_element z f.
Definition pss_der (d : pss_doc) (f : bytes) : Prop :=
  exists h he mh m me s se te,
    algorithm_der (pss_hash d) h /\ valid_oid (fst (pss_hash d)) /\ explicit 0 h he /\
    algorithm_der (pss_mgf_hash d) mh /\ valid_oid (fst (pss_mgf_hash d)) /\ algorithm_der (pss_mgf d, Some mh) m /\ valid_oid (pss_mgf d) /\ explicit 1 m me /\
    int64_element (pss_salt d) s /\ explicit 2 s se /\
    optional (fun t e => exists i, int64_element t i /\ explicit 3 i e) (pss_trailer d) te /\ seq_der [he; me; se; te] f.
Definition der_null : bytes := [x05; x00].
(** The three combinations that have a number. *)
Definition pss_kind (d : pss_doc) (n : Z) : Prop :=
  exists bits, (bits = 256 /\ n = 13 \/ bits = 384 /\ n = 14 \/ bits = 512 /\ n = 15) /\
    pss_hash d = (id_sha bits, Some der_null) /\ pss_mgf d = id_mgf1 /\ pss_mgf_hash d = (id_sha bits, Some der_null) /\ pss_salt d = bits / 8 /\
    (pss_trailer d = None \/ pss_trailer d = Some 1).

(** *** What crypto/x509/pkix.Name keeps of a name: of country, organization, organizational unit, locality, state, street address
    and postal code all the values, of common name and serial number the last one *)
Definition attribute_values (t : Z) (n : name_doc) : list bytes :=
  flat_map (flat_map (fun a => if list_eq_dec Z.eq_dec (fst a) [2; 5; 4; t] then [snd (snd a)] else [])) n.
Definition last_value (l : list bytes) : bytes := last l [].
Definition same_for_go (n n' : name_doc) : Prop :=
  (forall t, In t [6; 10; 11; 7; 8; 9; 17] -> attribute_values t n = attribute_values t n') /\
  (forall t, In t [3; 5] -> last_value (attribute_values t n) = last_value (attribute_values t n')).

(** *** What the decoder accepts as SubjectPublicKeyInfo (C79): lengths and tags need not be in their shortest form, and bytes may
    follow the last field of a SEQUENCE. *)
Definition oid_loose (o : oid) (f : bytes) : Prop :=
  exists a b r parts, o = a :: b :: r /\ 0 <= a <= 2 /\ 0 <= b /\ (a < 2 -> b < 40) /\
    Forall2 (fun n c => base128_octets c n /\ zlen c <= 5 /\ n <= max_int32) (a * 40 + b :: r) parts /\
    element 0 6 false (concat parts) f.
(** [params] is the encoding of the parameters, empty if there are none *)
Definition algorithm_loose (o : oid) (params f : bytes) : Prop :=
  exists oe junk, oid_loose o oe /\ element 0 16 true (oe ++ params ++ junk) f /\
    ((params = [] /\ junk = []) \/ exists class tag compound content, element class tag compound content params).
(** The bits of a BIT STRING, moved to the right end of the octets. *)
Definition bit_string_loose (key f : bytes) : Prop :=
  exists pad octets, 0 <= pad < 8 /\ element 0 3 false (z2b pad :: octets) f /\ zlen key = zlen octets /\ be_val octets = be_val key * 2 ^ pad /\ (octets = [] -> pad = 0).
Definition spki_loose (o : oid) (params key f : bytes) : Prop :=
  exists a bits junk, algorithm_loose o params a /\ bit_string_loose key bits /\ element 0 16 true (a ++ bits ++ junk) f.
(** The modulus used for an RSA key with this INTEGER as modulus. *)
Inductive modulus_used (octets : bytes) (n : Z) : Z -> Prop :=
| mu_positive : 0 < n -> modulus_used octets n n
| mu_zero : n = 0 -> modulus_used octets n 254
| mu_negative x t : n < 0 -> octets = x :: t -> x <> xff -> modulus_used octets n (be_val octets)
| mu_negative_ff t : n < 0 -> octets = xff :: t -> modulus_used octets n (be_val t).
Inductive key_loose (K : xenv) : gokey -> bytes -> Prop :=
| kl_rsa octets n n' e ni ei junk params key f : integer_octets octets n -> element 0 2 false octets ni -> modulus_used octets n n' ->
    loose_integer e ei -> 0 < e < 2 ^ 63 -> element 0 16 true (ni ++ ei ++ junk) key -> spki_loose id_rsa params key f -> key_loose K (GRsa n' e) f
| kl_dsa y p q g pi qi gi junk params key f : 0 < y -> 0 < p -> 0 < q -> 0 < g -> loose_integer p pi -> loose_integer q qi -> loose_integer g gi ->
    element 0 16 true (pi ++ qi ++ gi ++ junk) params -> loose_integer y key -> spki_loose id_dsa params key f -> key_loose K (GDsa y p q g) f
| kl_ec c bx by_ params f : k_point K c (be_val bx) (be_val by_) = true -> zlen bx = field_size c -> zlen by_ = field_size c ->
    oid_loose (curve_id c) params -> spki_loose id_ec params (x04 :: bx ++ by_) f -> key_loose K (GEcdsa c (be_val bx) (be_val by_)) f.

(** *** What the decoder accepts as certificate (C80) *)
Definition some_element (f : bytes) : Prop := exists class tag compound content, element class tag compound content f.
(** The header of the explicit tag [0] (whose length is not compared with what follows) and the version number; or nothing. *)
Definition version_loose (f : bytes) : Prop :=
  f = [] \/ exists id len n z fv, f = (id ++ len) ++ fv /\ identifier_octets 2 0 true id /\ definite_length n len /\ 0 < n /\ loose_integer z fv.
Definition time_loose (T : textenv) (t : Z) (f : bytes) : Prop :=
  exists content, (element 0 23 false content f /\ x_utc T content = Some t) \/ (element 0 24 false content f /\ x_generalized T content = Some t).
Definition key_in (K : xenv) (k : pubkey) (f : bytes) : Prop :=
  (exists g, key_loose K g f /\ k = pubkeyOf g) \/
  (k = KOther [] /\ exists o params key, spki_loose o params key f /\ o <> id_rsa /\ o <> id_dsa /\ o <> id_ec).
Record certificate_loose (K : xenv) (c : cert) (b : bytes) : Prop := {
  cl_parts : exists tbs alg sig junk version serial salg issuer validity subject spki more nb na vjunk,
    element 0 16 true (tbs ++ alg ++ sig ++ junk) b /\
    element 0 16 true (version ++ serial ++ salg ++ issuer ++ validity ++ subject ++ spki ++ more) tbs /\
    element 0 16 true (nb ++ na ++ vjunk) validity /\
    (exists o params, algorithm_loose o params alg) /\ (exists bits, bit_string_loose bits sig) /\
    version_loose version /\ loose_integer (c_serial c) serial /\ (exists o params, algorithm_loose o params salg) /\
    some_element issuer /\ some_element subject /\
    time_loose (k_text K) (c_not_before c) nb /\ time_loose (k_text K) (c_not_after c) na /\
    key_in K (c_key c) spki
}.
