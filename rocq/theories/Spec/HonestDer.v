(** An APK that has been JAR-signed by honest signers, down to the bytes of the PKCS#7 objects and the certificates (C78). *)
From Coq Require Import String.
From Verif.Model Require Import Bytes Env Manifest PkixName X509.
From Verif.Spec Require Import Ber Asn1 Pkcs7 X509 JarSigned HonestJar.

(** One signer: the name X of META-INF/X.SF and META-INF/X.RSA (.DSA, .EC), the two files, what the PKCS#7 object and its
    SignerInfo say, the certificates in it with their bytes, which of them is the signer's, and the parsed signature file. *)
Record doc_signer : Type := {
  ds_name : bytes; ds_ext : bytes; ds_block : zfile; ds_sf : zfile;
  ds_doc : signed_doc; ds_info : signer_doc;
  ds_certs : list (cert_doc * bytes); ds_cert : cert_doc * bytes;
  ds_sm : manifest
}.

(** Exactly one attribute of this type, with this element as its value. *)
Definition sole_doc (ty : oid) (l : list (oid * bytes)) (value : bytes) : Prop :=
  exists l1 l2, l = l1 ++ (ty, value) :: l2 /\ forall a, In a (l1 ++ l2) -> fst a <> ty.
Definition octets_element (b f : bytes) : Prop := der_element 0 4 false b f.

(** The bytes that are signed: the signature file, or the signed attributes as a SET, which contain the digest of the
    file and the content type. *)
Inductive doc_signs (E : env) (content_type : oid) (info : signer_doc) (raw : bytes) (maxSdk : Z) : bytes -> Prop :=
| DocFile : sd_attrs info = None -> doc_signs E content_type info raw maxSdk raw
| DocAttributes l h value digest c data :
    sd_attrs info = Some l ->
    In (fst (sd_digest info), h) [([1; 3; 14; 3; 2; 26], HSha1); ([2; 16; 840; 1; 101; 3; 4; 2; 1], HSha256)] ->
    sole_doc [1; 2; 840; 113549; 1; 9; 4] l value -> octets_element (e_hash E h raw) digest -> set_der [digest] value ->
    (24 <= maxSdk -> exists value' ctype, sole_doc [1; 2; 840; 113549; 1; 9; 3] l value' /\ oid_element content_type ctype /\ set_der [ctype] value') ->
    attributes_der l c -> der_element 0 17 true c data ->
    doc_signs E content_type info raw maxSdk data.

Definition good_certificate (K : xenv) (c : cert_doc * bytes) : Prop :=
  certificate_der K (fst c) (snd c) /\ forall l x, d_exts (fst c) = Some l -> In x l -> value_ok (x_critical x) (x_id x) (x_value x).

Section Honest.
  Variables (K : xenv) (E : env) (S : sched) (apk : zip) (man : manifest) (signed_v2 : bool) (minSdk maxSdk : Z).
  Let C := concrete K E.

  Record honest_documents (g : doc_signer) : Prop := {
    hd_name : ~ In "/"%byte (ds_name g);
    hd_ext : In (ds_ext g) block_suffixes;
    (** the block file is a DER-encoded PKCS#7 object with these certificates and one SignerInfo *)
    hd_block : exists raw o, plain_file apk (ds_block g) (s2b "META-INF/" ++ ds_name g ++ ds_ext g) raw /\
      signed_data_der (ds_doc g) raw /\ Forall valid_oid (doc_oids (ds_doc g)) /\ der o raw /\ zlen raw < 2 ^ 31;
    hd_certs : s_certs (ds_doc g) = Some (concat (map snd (ds_certs g))) /\ Forall (good_certificate K) (ds_certs g);
    hd_one : s_signers (ds_doc g) = [ds_info g];
    (** it names one of the certificates, which has no critical extension that is not understood *)
    hd_cert : In (ds_cert g) (ds_certs g) /\ sd_serial (ds_info g) = d_serial (fst (ds_cert g)) /\
      name_der (k_text K) (d_issuer (fst (ds_cert g))) (sd_issuer (ds_info g)) /\
      ~ (exists l x, d_exts (fst (ds_cert g)) = Some l /\ In x l /\ x_critical x = true /\ unhandled x);
    hd_unique : forall c, In c (ds_certs g) -> d_serial (fst c) = d_serial (fst (ds_cert g)) ->
      same_name E S (goName (name_text (d_issuer (fst (ds_cert g))))) (goName (name_text (d_issuer (fst c)))) -> c = ds_cert g;
    (** the signature file *)
    hd_sf : exists data, plain_file apk (ds_sf g) (s2b "META-INF/" ++ ds_name g ++ s2b ".SF") data /\ parseBytes false data = Ret (inl (ds_sm g));
    (** it is signed with the key of the certificate *)
    hd_signed : exists algo data, In ((fst (sd_digest (ds_info g)), fst (sd_enc (ds_info g))), algo) v1_algorithms /\
      doc_signs E (s_content_type (ds_doc g)) (ds_info g) (m_rawData (ds_sm g)) maxSdk data /\
      forall c, e_cert_andr C (snd (ds_cert g)) = Some c -> v1_sig_ok C c data (sd_signature (ds_info g)) algo;
    hd_binds : binds E (ds_sm g) man minSdk maxSdk;
    hd_main : main_attributes_ok E man minSdk maxSdk (ds_sm g);
    hd_v2 : signed_v2 = true \/ maxSdk < 24 \/ ~ declares_v2 (ds_sm g);
    hd_lists : forall path f, covered_file apk path f -> exists at_, sget path (m_entries (ds_sm g)) = Some at_
  }.

  Record honest_apk (signers : list doc_signer) : Prop := {
    ha_signers : signers <> [] /\ zlen signers <= 10;
    ha_distinct : NoDup (map ds_name signers);
    ha_zip : NoDup (map zf_name (z_ordered apk)) /\ z_map apk = map (fun f => (zf_name f, f)) (z_ordered apk);
    ha_all : Forall honest_documents signers;
    ha_blocks : forall f x ext, In f (z_ordered apk) -> zf_name f = s2b "META-INF/" ++ x ++ ext -> In ext block_suffixes ->
                exists g, In g signers /\ f = ds_block g;
    ha_manifest : exists f data, plain_file apk f (s2b "META-INF/MANIFEST.MF") data /\ parseBytes true data = Ret (inl man);
    ha_entries : forall name at_, sget name (m_entries man) = Some at_ -> exists f, sget name (z_map apk) = Some f;
    ha_files : forall path f, covered_file apk path f ->
      exists at_, sget path (m_entries man) = Some at_ /\ digests_ok E at_ (s2b "-digest") minSdk maxSdk (of_file E f);
    ha_apk : exists f, regular_file apk (s2b "AndroidManifest.xml") f
  }.
End Honest.
