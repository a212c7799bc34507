(** A concrete instance of the oracles, used only to show that the hypotheses of the theorems can be
    met and to exhibit counterexamples.  Nothing is proved from these definitions being realistic:
    "hashes" have the right sizes, "signatures" are key ++ digest. *)
From Coq Require Import Permutation Sorted Lia.
From Verif.Model Require Import Bytes Env SigBlock.
From Verif.Spec Require Import Encoding ApkLayout Nondet Digests.

Definition toy_hash (h : hash_id) (m : bytes) : bytes :=
  le_enc (Z.to_nat (hash_size h)) (le_dec m + 1000003 * zlen m + 17).

Definition toy_cert (enc : bytes) : cert :=
  {| c_raw := enc; c_spki := enc; c_key := KRsa enc 2048; c_issuer := []; c_subject := []; c_serial := 1;
     c_sigalg := 4; c_not_before := 0; c_not_after := 1; c_unhandled_critical := false |}.

Definition toy_env : env := {|
  e_hash := toy_hash;
  e_rsa_pss := fun k _ _ d s => bytes_eqb s (k ++ d);
  e_rsa_pkcs1 := fun k _ d s => bytes_eqb s (k ++ d);
  e_ecdsa := fun _ _ _ _ => false;
  e_dsa := fun _ _ _ _ => false;
  e_asn1_ints := fun _ => None;
  e_asn1_rs_std := fun _ => None;
  e_asn1_rs_andr := fun _ => None;
  e_pkix_andr := fun k => Some (KRsa k 2048);
  e_pkix_std := fun k => Some (KRsa k 2048);
  e_cert_andr := fun enc => Some (toy_cert enc);
  e_cert_std := fun enc => Some (toy_cert enc);
  e_pkcs7 := fun _ => Ret None;
  e_asn1_oid := fun _ => None;
  e_asn1_octets := fun _ => None;
  e_marshal_attrs := fun _ => None;
  e_cert_check := fun _ _ _ _ => false;
  e_base64 := fun b => Some b;
  e_parse_xml := fun _ => ([], false);
  e_to_lower := map (fun c => if (65 <=? b2z c) && (b2z c <=? 90) then z2b (b2z c + 32) else c)
|}.

Lemma toy_hash_sizes : hash_sizes_ok toy_env.
Proof.
  intros h m. cbn [e_hash toy_env]. unfold toy_hash, zlen.
  assert (L : forall n z, length (le_enc n z) = n) by (induction n; intro; cbn [le_enc length]; congruence).
  rewrite L. destruct h; reflexivity.
Qed.

(** map iteration in insertion order, insertion sort *)
Definition toy_sched : sched := {| ord := fun _ _ _ l => l; srt := fun _ less l => isort less l |}.

(** An APK: contents, signing block, central directory, EOCD with a comment. *)
Definition toy_eocd (cdSize cdOff : Z) (comment : bytes) : bytes :=
  le32 0x06054b50 ++ zeros 8 ++ le32 cdSize ++ le32 cdOff ++ le_enc 2 (zlen comment) ++ comment.
Definition toy_apk (before pairs cd comment : bytes) : bytes :=
  before ++ signing_block pairs ++ cd ++ toy_eocd (zlen cd) (zlen before + zlen (signing_block pairs)) comment.
Definition toy_before : bytes := map z2b [80;75;3;4;1;2;3;4;5;6;7].
Definition toy_cd : bytes := map z2b [80;75;1;2;9;9;9].
