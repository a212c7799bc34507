(** Concrete PKCS#7 block files, read by the model of pkcs7.Parse, and an APK signed with one. *)
From Coq Require Import String.
From Verif.Model Require Import Bytes Env GoStrings Manifest PkixName SchemeV1 Ber Asn1 Pkcs7.
From Verif.Spec Require Import Pkcs7.
From Verif.Examples Require Import Toy ToyJar.

Definition tlv (t : byte) (c : bytes) : bytes :=
  t :: (if zlen c <? 128 then [z2b (zlen c)] else if zlen c <? 256 then [x81; z2b (zlen c)] else [x82; z2b (zlen c / 256); z2b (zlen c)]) ++ c.
Definition seq (l : list bytes) : bytes := tlv x30 (concat l).
Definition set (l : list bytes) : bytes := tlv x31 (concat l).
Definition pkcs (l : list byte) : bytes := tlv x06 ([x2a; x86; x48; x86; xf7; x0d; x01] ++ l).
Definition e_sha1 : bytes := tlv x06 [x2b; x0e; x03; x02; x1a].
Definition e_name : bytes := seq [set [seq [tlv x06 [x55; x04; x03]; tlv x13 (s2b "ROOT")]]].
Definition e_null : bytes := [x05; x00].
(** The attributes contentType and messageDigest of a signature file; [junk] goes at the end of the first SEQUENCE. *)
Definition e_attrs (junk sfdata : bytes) : bytes :=
  seq [pkcs [x09; x03]; set [pkcs [x07; x01]]; junk] ++ seq [pkcs [x09; x04]; set [tlv x04 (toy_hash HSha1 sfdata)]].
Definition e_signer (attrs sig : bytes) : bytes :=
  seq [tlv x02 [x01]; seq [e_name; tlv x02 [x01]]; seq [e_sha1; e_null]; tlv xa0 attrs; seq [pkcs [x01; x01]; e_null]; tlv x04 sig].
Definition e_block (k : byte) (attrs sig : bytes) : bytes :=
  seq [pkcs [x07; x02]; tlv xa0 (seq [tlv x02 [x01]; set [seq [e_sha1; e_null]]; seq [pkcs [x07; x01]]; tlv xa0 (tlv x04 [k]); set [e_signer attrs sig]])].
(** Key [k] signs the re-encoded attributes. *)
Definition psign (k : byte) (sfdata : bytes) : bytes := k :: toy_hash HSha1 (tlv x31 (e_attrs [] sfdata)).

Definition toy_q : p7env := {|
  q_text := {| x_utc := fun _ => None; x_generalized := fun _ => None; x_utf8 := fun _ => true; x_utf16 := fun _ => [] |};
  q_certs := fun raw => match raw with [_; _; k] => Some [jcert "R"%byte 7 "root" "root"; jcert k 1 "Root" "leaf"] | _ => None end;
  q_name := fun n => n;
  q_print := fun _ => [] |}.
Definition p7_env : env := withPkcs7 toy_q jar_env.
Definition block (junk : bytes) : bytes := e_block "K"%byte (e_attrs junk sf) (psign "K"%byte sf).
Definition p7_jar (junk : bytes) : zip := jar mf sf (block junk) the_manifest_xml a_txt.

Definition block_signer : signer_doc := {|
  sd_version := 1; sd_issuer := e_name; sd_serial := 1; sd_digest := ([1; 3; 14; 3; 2; 26], Some e_null);
  sd_attrs := Some [([1; 2; 840; 113549; 1; 9; 3], set [pkcs [x07; x01]]); ([1; 2; 840; 113549; 1; 9; 4], set [tlv x04 (toy_hash HSha1 sf)])];
  sd_enc := ([1; 2; 840; 113549; 1; 1; 1], Some e_null); sd_signature := psign "K"%byte sf; sd_unauth := None |}.
Definition block_doc : signed_doc := {|
  s_version := 1; s_digests := [([1; 3; 14; 3; 2; 26], Some e_null)]; s_content_type := [1; 2; 840; 113549; 1; 7; 1];
  s_certs := Some (tlv x04 ["K"%byte]); s_signers := [block_signer] |}.
