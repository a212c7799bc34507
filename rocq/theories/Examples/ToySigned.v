(** Concrete SignedData objects with content, read by the model of pkcs7.Parse with certificates of ToyX509. *)
From Coq Require Import String.
From Verif.Model Require Import Bytes Env GoStrings Asn1 Pkcs7 X509 Pkcs7Verify.
From Verif.Spec Require Import Pkcs7 Pkcs7Verify.
From Verif.Examples Require Import Toy ToyPkcs7 ToyX509.

Definition s_cert : bytes := x_cert (x_rsa x_modulus) [x_ski].
Definition s_digest (content : bytes) : bytes := set [tlv x04 (toy_hash HSha1 content)].
(** Attributes as (type, value) and the signer that has them; the signature is one byte. *)
Definition s_attr (a : list byte * bytes) : bytes := seq [pkcs (fst a); snd a].
Definition s_signer (attrs : list (list byte * bytes)) : bytes :=
  seq [int [x01]; seq [x_name; int [x2a]]; seq [e_sha1]; tlv xa0 (concat (map s_attr attrs)); seq [pkcs [x01; x05]]; tlv x04 ["!"%byte]].
Definition s_file (content : bytes) (attrs : list (list byte * bytes)) : bytes :=
  seq [pkcs [x07; x02]; tlv xa0 (seq [int [x01]; set [seq [e_sha1]]; seq [pkcs [x07; x01]; tlv xa0 (tlv x04 content)]; tlv xa0 s_cert; set [s_signer attrs]])].
Definition s_type : list byte * bytes := ([x09; x03], set [pkcs [x07; x01]]).
Definition s_md (content : bytes) : list byte * bytes := ([x09; x04], s_digest content).
(** The certificate's key has signed exactly the message [m], with SHA1WithRSA. *)
Definition s_env (m : bytes) : env := {|
  e_hash := toy_hash; e_rsa_pss := fun _ _ _ _ _ => false; e_rsa_pkcs1 := fun _ _ _ _ => false; e_ecdsa := fun _ _ _ _ => false; e_dsa := fun _ _ _ _ => false;
  e_asn1_ints := fun _ => None; e_asn1_rs_std := fun _ => None; e_asn1_rs_andr := fun _ => None; e_pkix_andr := fun _ => None; e_pkix_std := fun _ => None;
  e_cert_andr := fun _ => None; e_cert_std := fun _ => None; e_pkcs7 := fun _ => Ret None; e_asn1_oid := fun _ => None; e_asn1_octets := fun _ => None;
  e_marshal_attrs := fun _ => None; e_cert_check := fun _ a x s => (a =? 3) && bytes_eqb x m && bytes_eqb s ["!"%byte];
  e_base64 := fun _ => None; e_parse_xml := e_parse_xml toy_env; e_to_lower := e_to_lower toy_env |}.
Definition s_decoder : stdDecoder := {| d_pss := fun _ => None; d_algorithm := fun _ => None |}.
