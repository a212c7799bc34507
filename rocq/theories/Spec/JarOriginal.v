(** What a signer published: the contents of the files of an APK, a manifest with their digests, and a signature file
    with the digests of the manifest. *)
From Coq Require Import String.
From Verif.Model Require Import Bytes Env Manifest.
From Verif.Spec Require Import JarSigned.

(** All the digests (of known algorithms) in the section are digests of these bytes. *)
Definition all_digests (E : env) (entry : attrs) (suffix data : bytes) : Prop :=
  forall algo h v, jar_hash algo h -> sget (algo ++ suffix) entry = Some v -> e_base64 E v = Some (e_hash E h data).

(** [content] gives the published contents by file name; [mf] and [sf] are the texts of manifest and signature file. *)
Record published (E : env) (content : bytes -> option bytes) (mf sf : bytes) (man sm : manifest) : Prop := {
  pub_man : parseBytes true mf = Ret (inl man);
  pub_sm : parseBytes false sf = Ret (inl sm);
  (** (manifests of old signtool versions, whose section digests leave out the last line break, have LF line ends) *)
  pub_lines : signtool sm -> ~ In x0d mf;
  (** sections of the manifest have digests of the files *)
  pub_files : forall name entry, sget name (m_entries man) = Some entry ->
    exists data, content name = Some data /\ all_digests E entry (s2b "-digest") data;
  (** the signature file's digest of the whole manifest, if any *)
  pub_whole : forall suffix, (signtool sm /\ suffix = s2b "-digest" \/ ~ signtool sm /\ suffix = s2b "-digest-manifest") ->
    all_digests E (m_main sm) suffix mf;
  (** and its digests of manifest sections *)
  pub_sections : forall name entry, sget name (m_entries sm) = Some entry ->
    exists chunk data, sget name (m_chunks man) = Some chunk /\ section_bytes sm chunk data /\
      all_digests E entry (s2b "-digest") data
}.

(** Two different byte strings, one of each kind, with the same hash. *)
Definition collide (E : env) (P Q : bytes -> Prop) : Prop :=
  exists h x y, P x /\ Q y /\ x <> y /\ e_hash E h x = e_hash E h y.
(** The bytes the signer hashed: contents of files, the manifest and its sections. *)
Definition signer_hashed (content : bytes -> option bytes) (mf : bytes) (man sm : manifest) (x : bytes) : Prop :=
  (exists name, content name = Some x) \/ x = mf \/
  exists name chunk, sget name (m_chunks man) = Some chunk /\ section_bytes sm chunk x.
(** The bytes of an APK that are hashed to verify it: contents of files, and its manifest and sections. *)
Definition apk_hashed (apk : zip) (sm : manifest) (y : bytes) : Prop :=
  (exists f, In (Some y) (zf_streams f) /\ exists name, sget name (z_map apk) = Some f) \/
  exists man, main_manifest apk man /\
    (y = m_rawData man \/ exists name chunk, sget name (m_chunks man) = Some chunk /\ section_bytes sm chunk y).

(** In this APK, whatever the certificate [victim] verifiably signed is the signature file [sf]. *)
Definition only_signed (E : env) (S : sched) (apk : zip) (minSdk maxSdk : Z) (victim sf : bytes) : Prop :=
  forall p sm c t, signature_pair E apk p sm -> block_verified E S p (m_rawData sm) minSdk maxSdk (c :: t) ->
    c_raw c = victim -> m_rawData sm = sf.
