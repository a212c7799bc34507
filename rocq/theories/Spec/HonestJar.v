(** An APK that has been JAR-signed by honest signers, file by file. *)
From Coq Require Import String.
From Verif.Model Require Import Bytes Env Manifest PkixName.
From Verif.Spec Require Import JarSigned.

(** One signer: the name X of META-INF/X.SF and META-INF/X.RSA (.DSA, .EC), the block file, the signature file,
    the PKCS#7 object and its only SignerInfo, the parsed signature file, and the signer's certificate. *)
Record jar_signer : Type := {
  jg_name : bytes; jg_ext : bytes;
  jg_block : zfile; jg_sf : zfile;
  jg_p7 : p7; jg_info : p7_signer; jg_cert : cert;
  jg_sm : manifest
}.

(** A ZIP entry with this name and these contents. *)
Definition plain_file (apk : zip) (f : zfile) (name data : bytes) : Prop :=
  In f (z_ordered apk) /\ zf_name f = name /\ zf_open_ok f = true /\ zf_streams f = [Some data].
Definition block_suffixes : list bytes := [s2b ".RSA"; s2b ".DSA"; s2b ".EC"].

(** [b] is the last component of the path [x]. *)
Definition base_name (x b : bytes) : Prop := ~ In "/"%byte b /\ (x = b \/ exists dir, x = dir ++ "/"%byte :: b).

Section Honest.
  Variables (E : env) (S : sched) (apk : zip) (man : manifest) (signed_v2 : bool) (minSdk maxSdk : Z).

  (** The digests of the main attributes: absent, or correct. *)
  Definition main_attributes_ok (sm : manifest) : Prop :=
    (forall algo, ~ selected E (m_main sm) (s2b "-digest-manifest-main-attributes") minSdk maxSdk algo) \/
    digests_ok E (m_main sm) (s2b "-digest-manifest-main-attributes") minSdk maxSdk
      (of_bytes E (takeZ (m_mainEnd man) (m_rawData man))).

  Record honest_signer (g : jar_signer) : Prop := {
    hj_name : ~ In "/"%byte (jg_name g);
    hj_ext : In (jg_ext g) block_suffixes;
    hj_block : exists raw, plain_file apk (jg_block g) (s2b "META-INF/" ++ jg_name g ++ jg_ext g) raw /\ e_pkcs7 E raw = Ret (Some (jg_p7 g));
    hj_sf : exists data, plain_file apk (jg_sf g) (s2b "META-INF/" ++ jg_name g ++ s2b ".SF") data /\ parseBytes false data = Ret (inl (jg_sm g));
    hj_one : p7_signers (jg_p7 g) = [jg_info g];
    hj_signed : signer_signed E S (jg_p7 g) (jg_info g) (m_rawData (jg_sm g)) maxSdk (jg_cert g);
    (** no other certificate in the object has the same serial number and issuer *)
    hj_unique : forall d, In d (p7_certs (jg_p7 g)) -> c_serial d = c_serial (jg_cert g) ->
                same_name E S (c_issuer (jg_cert g)) (c_issuer d) -> d = jg_cert g;
    hj_binds : binds E (jg_sm g) man minSdk maxSdk;
    hj_main : main_attributes_ok (jg_sm g);
    hj_v2 : signed_v2 = true \/ maxSdk < 24 \/ ~ declares_v2 (jg_sm g);
    (** the signature file has a section for every file *)
    hj_lists : forall path f, covered_file apk path f -> exists at_, sget path (m_entries (jg_sm g)) = Some at_
  }.

  Record honest_jar (signers : list jar_signer) : Prop := {
    hj_signers : signers <> [] /\ zlen signers <= 10;
    hj_distinct : NoDup (map jg_name signers);
    hj_zip : NoDup (map zf_name (z_ordered apk)) /\ z_map apk = map (fun f => (zf_name f, f)) (z_ordered apk);
    hj_all : Forall honest_signer signers;
    (** there are no other signature block files *)
    hj_blocks : forall f x ext, In f (z_ordered apk) -> zf_name f = s2b "META-INF/" ++ x ++ ext -> In ext block_suffixes ->
                exists g, In g signers /\ f = jg_block g;
    hj_manifest : exists f data, plain_file apk f (s2b "META-INF/MANIFEST.MF") data /\ parseBytes true data = Ret (inl man);
    (** manifest and files agree *)
    hj_entries : forall name at_, sget name (m_entries man) = Some at_ -> exists f, sget name (z_map apk) = Some f;
    hj_files : forall path f, covered_file apk path f ->
      exists at_, sget path (m_entries man) = Some at_ /\ digests_ok E at_ (s2b "-digest") minSdk maxSdk (of_file E f);
    hj_apk : exists f, regular_file apk (s2b "AndroidManifest.xml") f
  }.
End Honest.
