(** Concrete certificates, read by the model of x509andr, and an APK signed with one. *)
From Coq Require Import String.
From Verif.Model Require Import Bytes Env GoStrings Asn1 Pkcs7 X509.
From Verif.Spec Require Import Encoding Entries X509.
From Verif.Examples Require Import Toy ToyApk ToyPkcs7.

Definition toy_k : xenv := {|
  k_text := {| x_utc := fun s => Some (zlen s); x_generalized := fun s => Some (100 + zlen s); x_utf8 := fun _ => true; x_utf16 := fun _ => [] |};
  k_point := fun _ x y => x <? y;
  k_print := fun _ => [] |}.
Definition bits (b : bytes) : bytes := tlv x03 (x00 :: b).
Definition int (l : list byte) : bytes := tlv x02 l.
Definition x_name : bytes := seq [set [seq [tlv x06 [x55; x04; x06]; tlv x13 (s2b "CZ")]]; set [seq [tlv x06 [x55; x04; x03]; tlv x0c (s2b "Signer")]]].
Definition x_mail (m : string) : bytes := seq [set [seq [pkcs [x09; x01]; tlv x16 (s2b m)]]; set [seq [tlv x06 [x55; x04; x03]; tlv x0c (s2b "Signer")]]].
Definition x_times : bytes := seq [tlv x17 (s2b "200101000000Z"); tlv x18 (s2b "20500101000000Z")].
Definition x_rsa (n : list byte) : bytes := seq [seq [pkcs [x01; x01]; e_null]; bits (seq [int n; int [x03]])].
Definition x_ec : bytes := seq [seq [tlv x06 [x2a; x86; x48; xce; x3d; x02; x01]; tlv x06 [x2a; x86; x48; xce; x3d; x03; x01; x07]]; bits (x04 :: repeat x01 32 ++ repeat x02 32)].
Definition x_dsa : bytes := seq [seq [tlv x06 [x2a; x86; x48; xce; x38; x04; x01]; seq [int [x0b]; int [x05]; int [x02]]]; bits (int [x07])].
Definition x_sigalg : bytes := seq [pkcs [x01; x0b]; e_null].
(** subjectKeyIdentifier, and an unknown extension *)
Definition x_ski : bytes := seq [tlv x06 [x55; x1d; x0e]; tlv x04 (tlv x04 (s2b "id"))].
Definition x_usage : bytes := seq [tlv x06 [x55; x1d; x0f]; tlv x01 [xff]; tlv x04 (tlv x03 [x07; x80])].
Definition x_san (tag : byte) : bytes := seq [tlv x06 [x55; x1d; x11]; tlv x01 [xff]; tlv x04 (seq [tlv tag (s2b "x")])].
Definition x_unknown (crit : bool) : bytes := seq [tlv x06 [x2a; x03]; if crit then tlv x01 [xff] else []; tlv x04 (s2b "??")].
Definition x_cert (spki : bytes) (exts : list bytes) : bytes :=
  seq [seq [tlv xa0 (int [x02]); int [x2a]; x_sigalg; x_name; x_times; x_name; spki; tlv xa3 (seq exts)]; x_sigalg; bits (s2b "signature")].

(** One v2 signer with this certificate and public key, "signed" with the key material. *)
Definition x_signer2 (cert pk key digest : bytes) : bytes :=
  let sd := lp (toy_rec 0x0103 digest) ++ lp (lp cert) ++ lp [] in
  lp sd ++ lp (toy_rec 0x0103 (toy_sign key sd)) ++ lp pk.
Definition x_modulus : list byte := [x00; xf1; x23].
Definition x_key : bytes := keyMaterial [61731; 3].
Definition x_v2 : bytes := toy_file [(id_v2, toy_block [x_signer2 (x_cert (x_rsa x_modulus) [x_ski]) (x_rsa x_modulus) x_key toy_digest])].
Definition x_env : env := withX509 toy_k toy_env.
