(** A concrete JAR-signed APK over toy oracles (see Toy.v). *)
From Coq Require Import String.
From Verif.Model Require Import Bytes Env GoStrings Manifest PkixName SchemeV1.
From Verif.Examples Require Import Toy.

Definition unhex_digit (c : byte) : Z := if b2z c <? 58 then b2z c - 48 else b2z c - 87.
Fixpoint unhex (b : bytes) : bytes :=
  match b with x :: y :: t => z2b (16 * unhex_digit x + unhex_digit y) :: unhex t | _ => [] end.

Definition cn (s : string) : rdn_seq := [[{| at_type := [2; 5; 4; 3]; at_value := AvString (s2b s) |}]].
(** Certificate of key [k], with the given serial number, issuer and subject names. *)
Definition jcert (k : byte) (serial : Z) (issuer subject : string) : cert :=
  {| c_raw := [k]; c_spki := [k]; c_key := KOther [k]; c_issuer := cn issuer; c_subject := cn subject; c_serial := serial;
     c_sigalg := 3; c_not_before := 0; c_not_after := 1; c_unhandled_critical := false |}.
(** A PKCS#7 "object" is the key byte followed by the signature; it contains a leaf certificate and its issuer. *)
Definition jp7 (k : byte) (sig : bytes) : p7 :=
  {| p7_certs := [jcert "R"%byte 7 "root" "root"; jcert k 1 "Root" "leaf"];
     p7_signers := [{| ps_issuer := Some (cn "ROOT"); ps_serial := 1; ps_digest_alg := [1; 3; 14; 3; 2; 26];
                       ps_enc_alg := [1; 2; 840; 113549; 1; 1; 1]; ps_auth_attrs := []; ps_enc_digest := sig |}];
     p7_content_type := [1; 2; 840; 113549; 1; 7; 1] |}.
Definition jsign (k : byte) (data : bytes) : bytes := k :: k :: toy_hash HSha1 data.

Definition jar_env : env := {|
  e_hash := toy_hash;
  e_rsa_pss := e_rsa_pss toy_env; e_rsa_pkcs1 := e_rsa_pkcs1 toy_env; e_ecdsa := e_ecdsa toy_env; e_dsa := e_dsa toy_env;
  e_asn1_ints := e_asn1_ints toy_env; e_asn1_rs_std := e_asn1_rs_std toy_env; e_asn1_rs_andr := e_asn1_rs_andr toy_env;
  e_pkix_andr := e_pkix_andr toy_env; e_pkix_std := e_pkix_std toy_env; e_cert_andr := e_cert_andr toy_env; e_cert_std := e_cert_std toy_env;
  e_pkcs7 := fun raw => match raw with k :: sig => Ret (Some (jp7 k sig)) | [] => Ret None end;
  e_asn1_oid := e_asn1_oid toy_env; e_asn1_octets := e_asn1_octets toy_env; e_marshal_attrs := e_marshal_attrs toy_env;
  e_cert_check := fun c _ data sig => bytes_eqb sig (c_raw c ++ toy_hash HSha1 data);
  e_base64 := fun b => Some (unhex b);
  e_parse_xml := e_parse_xml toy_env;
  e_to_lower := e_to_lower toy_env
|}.

Definition nl : bytes := [x0a].
Definition dig (h : hash_id) (data : bytes) : bytes := hex_encode (toy_hash h data).
Definition jfile (name : string) (data : bytes) : zfile :=
  {| zf_name := s2b name; zf_isdir := false; zf_open_ok := true; zf_streams := [Some data]; zf_readall := fun _ => Some data |}.

Definition a_txt : bytes := s2b "hello".
Definition the_manifest_xml : bytes := s2b "<manifest/>".
(** Sections of MANIFEST.MF *)
Definition mf_main : bytes := s2b "Manifest-Version: 1.0" ++ nl ++ nl.
Definition mf_section (name : string) (data : bytes) : bytes :=
  s2b "Name: " ++ s2b name ++ nl ++ s2b "SHA-256-Digest: " ++ dig HSha256 data ++ nl ++ nl.
Definition mf : bytes := mf_main ++ mf_section "AndroidManifest.xml" the_manifest_xml ++ mf_section "a.txt" a_txt.
(** A signature file that covers the whole manifest *)
Definition sf_with (extra : bytes) : bytes :=
  s2b "Signature-Version: 1.0" ++ nl ++ extra ++ s2b "SHA-256-Digest-Manifest: " ++ dig HSha256 mf ++ nl ++ nl
  ++ mf_section "a.txt" (mf_section "a.txt" a_txt).
Definition sf : bytes := sf_with [].

Definition jar (mfdata sfdata : bytes) (sig : bytes) (xml txt : bytes) : zip :=
  let files := [jfile "META-INF/MANIFEST.MF" mfdata; jfile "META-INF/A.SF" sfdata; jfile "META-INF/A.RSA" sig;
                jfile "AndroidManifest.xml" xml; jfile "a.txt" txt] in
  {| z_ordered := files; z_map := map (fun f => (zf_name f, f)) files |}.
Definition good_jar : zip := jar mf sf (jsign "K"%byte sf) the_manifest_xml a_txt.
