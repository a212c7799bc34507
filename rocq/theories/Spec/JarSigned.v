(** What a JAR-signed (v1) APK is: digests in manifest sections, signature files that bind the
    manifest, PKCS#7 signatures over signature files, certificate chains. *)
From Coq Require Import String.
From Verif.Model Require Import Bytes Env Manifest PkixName.

(** ** Digest attributes of a section *)

(** The digest algorithms of JAR manifests and their hash functions, strongest first. *)
Definition jar_hashes : list (bytes * hash_id) :=
  [(s2b "sha-512", HSha512); (s2b "sha-384", HSha384); (s2b "sha-256", HSha256); (s2b "sha1", HSha1)].
Definition jar_hash (algo : bytes) (h : hash_id) : Prop := In (algo, h) jar_hashes.

(** The section has an attribute [algo]-Digest (or another suffix). *)
Definition has_digest (entry : attrs) (suffix algo : bytes) : Prop := exists v, sget (algo ++ suffix) entry = Some v.

(** [tok] is one of the space-separated words of [s]. *)
Definition token (s tok : bytes) : Prop :=
  exists l r, s = l ++ tok ++ r /\ ~ In x20 tok /\
    (l = [] \/ exists l', l = l' ++ [x20]) /\ (r = [] \/ exists r', r = x20 :: r').

(** Platforms before API 18 use the Digest-Algorithms list of the section (default "sha sha1"). *)
Definition listed (E : env) (entry : attrs) (tok : bytes) : Prop :=
  let v := match sget (s2b "digest-algorithms") entry with Some v => v | None => [] end in
  token (match e_to_lower E v with [] => s2b "sha sha1" | l => l end) tok.

(** [algo] is the strongest digest present. *)
Definition strongest_digest (entry : attrs) (suffix algo : bytes) : Prop :=
  exists l1 h l2, jar_hashes = l1 ++ (algo, h) :: l2 /\ has_digest entry suffix algo /\
    forall a h', In (a, h') l1 -> ~ has_digest entry suffix a.

(** The digests that devices with SDK levels minSdk..maxSdk look at. *)
Definition selected (E : env) (entry : attrs) (suffix : bytes) (minSdk maxSdk : Z) (algo : bytes) : Prop :=
  (minSdk < 18 /\ listed E entry algo /\ has_digest entry suffix algo /\
   (9 <= minSdk \/ (algo <> s2b "sha-384" /\ algo <> s2b "sha-512")))
  \/ (18 <= maxSdk /\ strongest_digest entry suffix algo).

(** Every digest looked at is one we know, and is accepted by [ok]; there is at least one. *)
Definition digests_ok (E : env) (entry : attrs) (suffix : bytes) (minSdk maxSdk : Z) (ok : bytes -> hash_id -> Prop) : Prop :=
  (exists algo, selected E entry suffix minSdk maxSdk algo) /\
  forall algo, selected E entry suffix minSdk maxSdk algo ->
    exists h v digest, jar_hash algo h /\ sget (algo ++ suffix) entry = Some v /\ e_base64 E v = Some digest /\ ok digest h.

(** The digests of these bytes / of one of the file's candidate streams. *)
Definition of_bytes (E : env) (data : bytes) (digest : bytes) (h : hash_id) : Prop := digest = e_hash E h data.
Definition of_file (E : env) (f : zfile) (digest : bytes) (h : hash_id) : Prop :=
  zf_open_ok f = true /\ exists data, In (Some data) (zf_streams f) /\ digest = e_hash E h data.

(** ** A signature file binds a manifest *)

Definition signtool (sm : manifest) : Prop :=
  exists v a b, sget (s2b "created-by") (m_main sm) = Some v /\ v = a ++ s2b "signtool" ++ b.

(** The digests of the manifest's main attributes in the signature file, if any, match - provided all the
    digests looked at use known hash functions (the code tolerates unknown ones here). *)
Definition main_attributes_bound (E : env) (sm man : manifest) (minSdk maxSdk : Z) : Prop :=
  let suffix := s2b "-digest-manifest-main-attributes" in
  0 < m_mainEnd sm -> ~ signtool sm ->
  (forall algo, selected E (m_main sm) suffix minSdk maxSdk algo -> exists h, jar_hash algo h) ->
  forall algo, selected E (m_main sm) suffix minSdk maxSdk algo ->
    exists h v digest, jar_hash algo h /\ sget (algo ++ suffix) (m_main sm) = Some v /\ e_base64 E v = Some digest /\
      of_bytes E (takeZ (m_mainEnd man) (m_rawData man)) digest h.

(** The bytes of a section that its digest covers (old signtool versions leave out the last line break). *)
Definition section_bytes (sm : manifest) (chunk data : bytes) : Prop :=
  data = chunk /\ (~ signtool sm \/ forall p, chunk <> p ++ [x0a; x0a])
  \/ signtool sm /\ exists p, chunk = p ++ [x0a; x0a] /\ data = p ++ [x0a].

Definition whole_manifest_bound (E : env) (sm man : manifest) (minSdk maxSdk : Z) : Prop :=
  exists suffix, (signtool sm /\ suffix = s2b "-digest" \/ ~ signtool sm /\ suffix = s2b "-digest-manifest") /\
    digests_ok E (m_main sm) suffix minSdk maxSdk (of_bytes E (m_rawData man)).
Definition sections_bound (E : env) (sm man : manifest) (minSdk maxSdk : Z) : Prop :=
  m_entries sm <> [] /\
  forall name entry, sget name (m_entries sm) = Some entry ->
    exists chunk data, sget name (m_chunks man) = Some chunk /\ section_bytes sm chunk data /\
      digests_ok E entry (s2b "-digest") minSdk maxSdk (of_bytes E data).

(** The signature file has a Signature-Version, its digest of the main attributes matches, and either its digest of the
    whole manifest matches or all its sections match the manifest's sections of the same name. *)
Definition binds (E : env) (sm man : manifest) (minSdk maxSdk : Z) : Prop :=
  (exists v, sget (s2b "signature-version") (m_main sm) = Some v) /\
      main_attributes_bound E sm man minSdk maxSdk /\
      (whole_manifest_bound E sm man minSdk maxSdk \/ sections_bound E sm man minSdk maxSdk).

(** X-Android-APK-Signed lists scheme 2: one of the comma-separated items is the number 2, with optional
    white space, plus sign and leading zeros. *)
Definition white_space : list bytes :=
  map (map z2b)
    [[9]; [10]; [11]; [12]; [13]; [32]; [0xC2; 0x85]; [0xC2; 0xA0]; [0xE1; 0x9A; 0x80];
     [0xE2; 0x80; 0x80]; [0xE2; 0x80; 0x81]; [0xE2; 0x80; 0x82]; [0xE2; 0x80; 0x83]; [0xE2; 0x80; 0x84];
     [0xE2; 0x80; 0x85]; [0xE2; 0x80; 0x86]; [0xE2; 0x80; 0x87]; [0xE2; 0x80; 0x88]; [0xE2; 0x80; 0x89];
     [0xE2; 0x80; 0x8A]; [0xE2; 0x80; 0xA8]; [0xE2; 0x80; 0xA9]; [0xE2; 0x80; 0xAF]; [0xE2; 0x81; 0x9F];
     [0xE3; 0x80; 0x80]].
Definition blank (s : bytes) : Prop := exists l, Forall (fun r => In r white_space) l /\ s = concat l.
Definition item_two (tok : bytes) : Prop :=
  exists w1 sign n w2, tok = w1 ++ sign ++ repeat "0"%byte n ++ ["2"%byte] ++ w2 /\ blank w1 /\ blank w2 /\
    (sign = [] \/ sign = ["+"%byte]).
Definition lists_two (idList : bytes) : Prop :=
  exists before tok after, idList = before ++ tok ++ after /\ item_two tok /\
    (before = [] \/ exists b, before = b ++ [","%byte]) /\ (after = [] \/ exists a, after = ","%byte :: a).
Definition declares_v2 (sm : manifest) : Prop :=
  exists idList, sget (s2b "x-android-apk-signed") (m_main sm) = Some idList /\ lists_two idList.

(** ** PKCS#7 signatures over signature files *)

(** crypto/x509 SignatureAlgorithm numbers; 65535.. are the package's own additions. *)
Definition v1_algorithms : list ((oid * oid) * Z) :=
  let sha1 := [1; 3; 14; 3; 2; 26] in
  let md5 := [1; 2; 840; 113549; 2; 5] in
  let sha k := [2; 16; 840; 1; 101; 3; 4; 2; k] in
  let rsa k := [1; 2; 840; 113549; 1; 1; k] in
  let dsa k := [1; 2; 840; 10040; 4; k] in
  let ec := [1; 2; 840; 10045; 2; 1] in
  let ecdsa k := [1; 2; 840; 10045; 4; 3; k] in
  [ (([], rsa 2), 1); (([1; 3; 14; 3; 2; 24], rsa 2), 1); (([1; 2; 840; 113549; 2; 2], rsa 1), 1);
    (([], rsa 4), 2); (([1; 3; 14; 3; 2; 25], rsa 4), 2); (([1; 3; 14; 3; 2; 3], rsa 4), 2); ((md5, rsa 1), 2); ((md5, rsa 4), 2);
    (([], rsa 5), 3); ((sha1, rsa 1), 3); (([1; 3; 14; 3; 2; 29], rsa 1), 3); ((sha1, rsa 5), 3);
    ((sha 4, rsa 1), 65535); ((sha 4, rsa 14), 65535);
    ((sha 1, rsa 1), 4); ((sha 1, rsa 11), 4);
    ((sha 2, rsa 1), 5); ((sha 2, rsa 12), 5);
    ((sha 3, rsa 1), 6); ((sha 3, rsa 13), 6);
    ((sha1, dsa 1), 7); (([], dsa 3), 7); ((sha1, dsa 3), 7);
    ((sha 4, dsa 1), 65536); ((sha 4, [2; 16; 840; 1; 101; 3; 4; 3; 1]), 65536);
    ((sha 1, dsa 1), 8); ((sha 1, [2; 16; 840; 1; 101; 3; 4; 3; 2]), 8);
    ((sha1, ec), 9); ((sha1, [1; 2; 840; 10045; 4; 1]), 9);
    ((sha 4, ec), 65537); ((sha 4, ecdsa 1), 65537);
    ((sha 1, ec), 10); ((sha 1, ecdsa 2), 10);
    ((sha 2, ec), 11); ((sha 2, ecdsa 3), 11);
    ((sha 3, ec), 12); ((sha 3, ecdsa 4), 12) ].

(** RSA signatures shorter than the modulus are padded with zeros on the left. *)
Definition padded (c : cert) (sig : bytes) : bytes :=
  match c_key c with
  | KRsa _ bits => zeros ((bits + 7) / 8 - zlen sig) ++ sig
  | _ => sig
  end.

(** [sig] is a signature of [data] under the certificate's key with the given algorithm. *)
Inductive v1_sig_ok (E : env) (c : cert) (data sig : bytes) : Z -> Prop :=
| OkMd5Rsa k bits : c_key c = KRsa k bits -> e_rsa_pkcs1 E k HMd5 (e_hash E HMd5 data) (padded c sig) = true ->
    v1_sig_ok E c data sig 2
| OkSha224Rsa k bits : c_key c = KRsa k bits -> e_rsa_pkcs1 E k HSha224 (e_hash E HSha224 data) (padded c sig) = true ->
    v1_sig_ok E c data sig 65535
| OkDsa algo h k qbits r s : In (algo, h) [(7, HSha1); (65536, HSha224); (8, HSha256)] -> c_key c = KDsa k qbits ->
    e_asn1_rs_andr E sig = Some (r, s, false) -> 0 < r -> 0 < s ->
    e_dsa E k (takeZ (Z.min (qbits / 8) (zlen (e_hash E h data))) (e_hash E h data)) r s = true ->
    v1_sig_ok E c data sig algo
| OkSha224Ecdsa k r s : c_key c = KEcdsa k ->
    e_asn1_rs_andr E sig = Some (r, s, false) -> 0 < r -> 0 < s -> e_ecdsa E k (e_hash E HSha224 data) r s = true ->
    v1_sig_ok E c data sig 65537
| OkX509 algo : 1 <= algo <= 12 -> ~ In algo [2; 7; 8] -> e_cert_check E c algo data (padded c sig) = true ->
    v1_sig_ok E c data sig algo.

(** Exactly one signed attribute of this type, with this (decoded) value. *)
Definition sole_attribute {A} (dec : bytes -> option A) (ty : oid) (l : list p7_attr) (v : A) : Prop :=
  exists l1 a l2, l = l1 ++ a :: l2 /\ pa_type a = ty /\ dec (pa_value a) = Some v /\
    forall b, In b (l1 ++ l2) -> pa_type b <> ty.

(** The bytes a SignerInfo signs for this signature file: the file itself, or the signed attributes, which must then
    contain the digest of the file (and the content type, from Android 7). *)
Inductive signs (E : env) (p : p7) (info : p7_signer) (raw : bytes) (maxSdk : Z) : bytes -> Prop :=
| SignsFile : ps_auth_attrs info = [] -> signs E p info raw maxSdk raw
| SignsAttributes data h :
    ps_auth_attrs info <> [] ->
    In (ps_digest_alg info, h) [([1; 3; 14; 3; 2; 26], HSha1); ([2; 16; 840; 1; 101; 3; 4; 2; 1], HSha256)] ->
    sole_attribute (e_asn1_octets E) [1; 2; 840; 113549; 1; 9; 4] (ps_auth_attrs info) (e_hash E h raw) ->
    (24 <= maxSdk -> sole_attribute (e_asn1_oid E) [1; 2; 840; 113549; 1; 9; 3] (ps_auth_attrs info) (p7_content_type p)) ->
    e_marshal_attrs E (ps_auth_attrs info) = Some data ->
    signs E p info raw maxSdk data.

Section Names.
  Variable E : env.
  Variable S : sched.
  (** Two names are considered equal. *)
  Definition same_name (a b : rdn_seq) : Prop := pkixCanonical E S a = pkixCanonical E S b.

  (** The SignerInfo's certificate [c] signed the signature file with contents [raw]. *)
  Definition signer_signed (p : p7) (info : p7_signer) (raw : bytes) (maxSdk : Z) (c : cert) : Prop :=
    In c (p7_certs p) /\ c_serial c = ps_serial info /\
    (exists issuer, ps_issuer info = Some issuer /\ same_name issuer (c_issuer c)) /\
    c_unhandled_critical c = false /\
    exists algo data, In ((ps_digest_alg info, ps_enc_alg info), algo) v1_algorithms /\
      signs E p info raw maxSdk data /\ v1_sig_ok E c data (ps_enc_digest info) algo.

  (** A chain of certificates from [l], each one's subject being the issuer of the previous one. *)
  Fixpoint issuer_chain (ch : list cert) : Prop :=
    match ch with
    | [] => True
    | c :: t => match t with
                | [] => True
                | d :: _ => same_name (c_issuer c) (c_subject d) /\ issuer_chain t
                end
    end.

  (** The chain stops at a self-issued certificate, or where no certificate has the issuer as its subject, or when it is
      already longer than the list of certificates. *)
  Definition chain_stops (certs ch : list cert) : Prop :=
    exists pre x, ch = pre ++ [x] /\
      (same_name (c_issuer x) (c_subject x) \/
       (forall d, In d certs -> ~ same_name (c_issuer x) (c_subject d)) \/
       zlen ch = zlen certs + 1).

  (** The PKCS#7 object verifies for this signature file, with this certificate chain: its head signed the file, as
      the first SignerInfo if devices before Android 7 count. *)
  Definition block_verified (p : p7) (raw : bytes) (minSdk maxSdk : Z) (ch : list cert) : Prop :=
    exists c t info, ch = c :: t /\ signer_signed p info raw maxSdk c /\
      (if minSdk <? 24 then exists rest, p7_signers p = info :: rest else In info (p7_signers p)) /\
      incl ch (p7_certs p) /\ zlen ch <= zlen (p7_certs p) + 1 /\ issuer_chain ch.
End Names.

(** ** Files of the APK *)

(** The main manifest: the only entry META-INF/MANIFEST.MF, one of whose candidate streams parses as [man]. *)
Definition main_manifest (apk : zip) (man : manifest) : Prop :=
  exists l1 f l2 data, z_ordered apk = l1 ++ f :: l2 /\ zf_name f = s2b "META-INF/MANIFEST.MF" /\ zf_open_ok f = true /\
    In (Some data) (zf_streams f) /\ parseBytes true data = Ret (inl man) /\
    forall g, In g (l1 ++ l2) -> zf_name g <> s2b "META-INF/MANIFEST.MF".
(** A signature: META-INF/X.RSA (.DSA, .EC) with PKCS#7 object [p] and META-INF/X.SF parsed as [sm]. *)
Definition signature_pair (E : env) (apk : zip) (p : p7) (sm : manifest) : Prop :=
  exists base ext block sf raw data,
    In ext [s2b ".RSA"; s2b ".DSA"; s2b ".EC"] /\
    In block (z_ordered apk) /\ zf_name block = base ++ ext /\ zf_open_ok block = true /\
    In (Some raw) (zf_streams block) /\ e_pkcs7 E raw = Ret (Some p) /\
    In sf (z_ordered apk) /\ zf_name sf = base ++ s2b ".SF" /\ zf_open_ok sf = true /\
    In (Some data) (zf_streams sf) /\ parseBytes false data = Ret (inl sm) /\ m_rawData sm = data /\
    exists x, base = s2b "META-INF/" ++ x.

(** Equal certificate chains (same certificate bytes), and equal sets of chains of the same size. *)
Definition same_chain (a b : list cert) : Prop := map c_raw a = map c_raw b.
Definition same_chains (a b : list (list cert)) : Prop :=
  length a = length b /\
  (forall x, In x a -> exists y, In y b /\ same_chain x y) /\
  (forall y, In y b -> exists x, In x a /\ same_chain x y).

(** A valid v1 signature of the APK: PKCS#7 object, signature file and certificate chain. *)
Definition jar_signature (E : env) (S : sched) (apk : zip) (man : manifest) (minSdk maxSdk : Z) (s : p7 * manifest * list cert) : Prop :=
  let '(p, sm, ch) := s in
  signature_pair E apk p sm /\ block_verified E S p (m_rawData sm) minSdk maxSdk ch /\ binds E sm man minSdk maxSdk.
(** The signature file has a section for this file. *)
Definition lists_file (path : bytes) (s : p7 * manifest * list cert) : bool :=
  match sget path (m_entries (snd (fst s))) with Some _ => true | None => false end.

(** Files that must be covered by the v1 signature, as the code defines them. *)
Definition regular_file (apk : zip) (path : bytes) (f : zfile) : Prop :=
  sget path (z_map apk) = Some f /\ zf_isdir f = false.
Definition covered_file (apk : zip) (path : bytes) (f : zfile) : Prop :=
  regular_file apk path f /\ path <> s2b "AndroidManifest.xml" /\ (forall x, path <> s2b "META-INF/" ++ x).
