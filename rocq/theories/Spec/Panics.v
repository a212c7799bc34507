(** When verification crashes instead of returning (C34). *)
From Coq Require Import String.
From Verif.Model Require Import Bytes Env GoStrings Manifest.
From Verif.Spec Require Import Encoding ApkLayout Digests Entries Frosting JarManifest JarSigned.

(** [part] occurs in [whole]. *)
Definition within (part whole : bytes) : Prop := exists a b, whole = a ++ part ++ b.

(** ** APK Signing Block *)
(** The key cannot be used with the signature algorithm, or the signature has too few numbers in it. *)
Inductive unusable (E : env) : pubkey -> Z -> bytes -> Prop :=
| WantsRsa key algo sig : In algo [0x0101; 0x0102; 0x0103; 0x0104; 0x0421] -> (forall k n, key <> KRsa k n) -> unusable E key algo sig
| WantsEcdsa key algo sig l : In algo [0x0201; 0x0202; 0x0423] -> e_asn1_ints E sig = Some l ->
    (forall k, key <> KEcdsa k) \/ zlen l < 2 -> unusable E key algo sig
| WantsDsa key algo sig l : In algo [0x0301; 0x0425] -> e_asn1_ints E sig = Some l ->
    (forall k q, key <> KDsa k q) \/ zlen l < 2 \/ (exists k q, key = KDsa k q /\ 32 < q / 8) -> unusable E key algo sig.
(** An entry of the APK Signing Block of a file. *)
Definition signing_entry (file : bytes) (id : Z) (payload : bytes) : Prop :=
  exists before pairs cd rec es rest, apk file before pairs cd rec /\ pairs = enc_entries es ++ rest /\ Forall entry_fits es /\
    In (id, payload) es.
(** A public key, or a certificate with it, occurs in [whole]. *)
Definition key_in (E : env) (whole : bytes) (key : pubkey) : Prop :=
  exists enc, within enc whole /\
    (e_pkix_andr E enc = Some key \/ exists c, c_key c = key /\ (e_cert_andr E enc = Some c \/ e_cert_std E enc = Some c)).
Definition bad_signature (E : env) (whole : bytes) : Prop :=
  exists key algo sig, key_in E whole key /\ within (le32 algo) whole /\ within sig whole /\ unusable E key algo sig.
(** An enabled record in a Google Play frosting block with a negative key index: the 'disabled' varint 0, then the
    key index. *)
Definition bad_frosting (payload : bytes) : Prop :=
  exists flag index v, within (flag ++ index) payload /\ varint32 0 flag /\ varint32 v index /\ v < 0.
Definition bad_block (E : env) (file : bytes) : Prop :=
  (exists id payload, In id [0x7109871a; 0xf05368c0; 0x1b93ad61; 0x6dff800d] /\ signing_entry file id payload /\ bad_signature E payload) \/
  (exists payload, signing_entry file 0x2146444e payload /\ bad_frosting payload).

(** ** JAR signature *)
Definition manifest_file (apk : zip) (f : zfile) : Prop :=
  In f (z_ordered apk) /\ (zf_name f = s2b "META-INF/MANIFEST.MF" \/ exists x, zf_name f = s2b "META-INF/" ++ x ++ s2b ".SF").
Definition block_file (apk : zip) (f : zfile) : Prop :=
  In f (z_ordered apk) /\ exists x ext, In ext [s2b ".RSA"; s2b ".DSA"; s2b ".EC"] /\ zf_name f = s2b "META-INF/" ++ x ++ ext.
(** A signer in a signature block, with a certificate for it. *)
Definition block_signer (E : env) (apk : zip) (info : p7_signer) (c : cert) : Prop :=
  exists f raw p, block_file apk f /\ In (Some raw) (zf_streams f) /\ e_pkcs7 E raw = Ret (Some p) /\ In info (p7_signers p) /\
    In c (p7_certs p) /\ c_serial c = ps_serial info.

Inductive bad_jar (E : env) (apk : zip) : Prop :=
| BadManifest f data : manifest_file apk f -> In (Some data) (zf_streams f) -> ends_with_colon data \/ empty_continuation data -> bad_jar E apk
| BadBlock f raw q : block_file apk f -> In (Some raw) (zf_streams f) -> e_pkcs7 E raw = Panic q -> bad_jar E apk
| UnknownAlgorithm info c : block_signer E apk info c ->
    (forall algo, ~ In ((ps_digest_alg info, ps_enc_alg info), algo) v1_algorithms) -> bad_jar E apk
| DsaWithoutDsaKey info c algo : block_signer E apk info c ->
    In ((ps_digest_alg info, ps_enc_alg info), algo) v1_algorithms -> In algo [7; 8; 65536] -> (forall k q, c_key c <> KDsa k q) -> bad_jar E apk.
