(** External code, as oracles.  The Go code calls the standard library (crypto, encoding/asn1,
    base64), vendored X.509 / PKCS#7 parsers and the apkparser ZIP/XML readers; here each is a
    field of [env], and every theorem is quantified over [env].  No behaviour is assumed unless a
    theorem states it as a hypothesis. *)
From Verif.Model Require Import Bytes.

(** Dynamic type of a Go crypto public key.  [k] is the key material (opaque). *)
Inductive pubkey : Set :=
| KRsa (k : bytes) (bitlen : Z)       (* rsa.PublicKey, N.BitLen() *)
| KDsa (k : bytes) (qbitlen : Z)      (* dsa.PublicKey, Q.BitLen() *)
| KEcdsa (k : bytes)                  (* ecdsa.PublicKey *)
| KOther (k : bytes).                 (* anything else *)

Definition oid := list Z.

(** Value of an X.501 attribute: a Go string or something printed with %v. *)
Inductive atav_value : Set := AvString (s : bytes) | AvOther (printed : bytes).
Record atav : Set := { at_type : oid; at_value : atav_value }.
(** Result of pkix.Name.ToRDNSequence(). *)
Definition rdn_seq := list (list atav).

(** The fields of x509.Certificate the code uses. *)
Record cert : Set := {
  c_raw : bytes;                  (* Raw *)
  c_spki : bytes;                 (* RawSubjectPublicKeyInfo *)
  c_key : pubkey;                 (* PublicKey *)
  c_issuer : rdn_seq;             (* Issuer.ToRDNSequence() *)
  c_subject : rdn_seq;            (* Subject.ToRDNSequence() *)
  c_serial : Z;                   (* SerialNumber *)
  c_sigalg : Z;                   (* SignatureAlgorithm *)
  c_not_before : Z;
  c_not_after : Z;
  c_unhandled_critical : bool     (* len(UnhandledCriticalExtensions) != 0 *)
}.

(** x509.Certificate.Equal: bytes.Equal on Raw (both non-nil here). *)
Definition cert_equal (a b : cert) : bool := bytes_eqb (c_raw a) (c_raw b).

(** PKCS#7 SignedData as seen by schemev1.go. *)
Record p7_attr : Set := { pa_type : oid; pa_value : bytes (* Value.Bytes *); pa_full : bytes (* Value.FullBytes *) }.
Record p7_signer : Set := {
  ps_issuer : option rdn_seq;     (* IssuerAndSerialNumber.IssuerName unmarshalled; None = error *)
  ps_serial : Z;
  ps_digest_alg : oid;
  ps_enc_alg : oid;
  ps_auth_attrs : list p7_attr;
  ps_enc_digest : bytes
}.
Record p7 : Set := {
  p7_certs : list cert;
  p7_signers : list p7_signer;
  p7_content_type : oid
}.

(** apkparser.ZipReaderFile: Open succeeds or not, then each Next() yields one candidate stream,
    which can be read completely (Some) or fails (None); ReadAll(limit) is separate. *)
Record zfile : Set := {
  zf_name : bytes;
  zf_isdir : bool;
  zf_open_ok : bool;
  zf_streams : list (option bytes);
  zf_readall : Z -> option bytes
}.
(** apkparser.ZipReader: FilesOrdered and the File map. *)
Record zip : Set := {
  z_ordered : list zfile;
  z_map : list (bytes * zfile)
}.

(** XML start element: local name and attributes (local name, value). *)
Record xml_start : Set := { xs_name : bytes; xs_attrs : list (bytes * bytes) }.

Inductive hash_id : Set := HMd5 | HSha1 | HSha224 | HSha256 | HSha384 | HSha512.

Record env : Set := {
  e_hash : hash_id -> bytes -> bytes;
  (* crypto/rsa VerifyPSS(pub, hash, digest, sig, salt), VerifyPKCS1v15; crypto/ecdsa, crypto/dsa Verify *)
  e_rsa_pss : bytes -> hash_id -> Z -> bytes -> bytes -> bool;
  e_rsa_pkcs1 : bytes -> hash_id -> bytes -> bytes -> bool;
  e_ecdsa : bytes -> bytes -> Z -> Z -> bool;
  e_dsa : bytes -> bytes -> Z -> Z -> bool;
  (* encoding/asn1.Unmarshal(sig, &[]*big.Int), rest ignored *)
  e_asn1_ints : bytes -> option (list Z);
  (* asn1 Unmarshal into struct{R,S}; the bool says whether trailing data remained *)
  e_asn1_rs_std : bytes -> option (Z * Z * bool);
  e_asn1_rs_andr : bytes -> option (Z * Z * bool);
  (* x509andr.ParsePKIXPublicKey, x509.ParsePKIXPublicKey *)
  e_pkix_andr : bytes -> option pubkey;
  e_pkix_std : bytes -> option pubkey;
  (* x509andr.ParseCertificateForGo, x509.ParseCertificate *)
  e_cert_andr : bytes -> option cert;
  e_cert_std : bytes -> option cert;
  (* pkcs7.Parse; None = error; it can panic (fullsailor/pkcs7/ber.go) *)
  e_pkcs7 : bytes -> outcome (option p7);
  (* asn1andr.Unmarshal into an OBJECT IDENTIFIER / OCTET STRING *)
  e_asn1_oid : bytes -> option oid;
  e_asn1_octets : bytes -> option bytes;
  (* SignerInfo.MarshalAuthenticatedAttributes *)
  e_marshal_attrs : list p7_attr -> option bytes;
  (* x509.Certificate.CheckSignature(algo, signed, signature) == nil *)
  e_cert_check : cert -> Z -> bytes -> bytes -> bool;
  (* base64.StdEncoding.DecodeString *)
  e_base64 : bytes -> option bytes;
  (* apkparser.ParseXml: the start elements handed to the encoder, if the encoder never stops it, and whether
     ParseXml then returns nil.  The argument is a candidate stream, None = reading it fails at some point. *)
  e_parse_xml : option bytes -> list xml_start * bool;
  (* strings.ToLower on arbitrary (possibly non-ASCII) strings *)
  e_to_lower : bytes -> bytes
}.

(** Digest sizes of the Go hash functions (hash.Hash.Size()). *)
Definition hash_size (h : hash_id) : Z :=
  match h with HMd5 => 16 | HSha1 => 20 | HSha224 => 28 | HSha256 => 32 | HSha384 => 48 | HSha512 => 64 end.

(** Run-time nondeterminism: [ord site k] is the order in which [range] visits the bindings of a Go
    map in the [k]-th execution of loop [site]; [srt] is sort.Slice / sort.Sort (not stable, so the
    order of equal elements is unknown). *)
Record sched : Type := {
  ord : forall A : Type, nat -> nat -> list A -> list A;
  srt : forall A : Type, (A -> A -> bool) -> list A -> list A
}.
