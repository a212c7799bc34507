(** C34: when verification crashes instead of returning *)
From Coq Require Import String.
From Coq Require Import Lia.
From Verif.Model Require Import Bytes Env ApiLevel GoStrings Manifest PkixName SchemeV1 Verify ApkVerifier Ber Asn1 Pkcs7.
From Verif.Spec Require Import Encoding ApkLayout Nondet Digests Entries Frosting JarManifest JarSigned Panics.
From Verif.Proofs Require Import BytesFacts PanicBlock PanicV1.
From Verif.Examples Require Import Toy ToyApk ToyJar ToyPkcs7.

(** Verification panics only for the listed contents of the APK; whatever else is in the file, it returns. *)
Theorem C34_verify_partial E S file oz minSdk maxSdk q : hash_sizes_ok E -> sched_ok S ->
  verifyWithSdk E S file oz minSdk maxSdk = Panic q -> bad_block E file \/ exists z, oz = Some z /\ bad_jar E z.
Proof.
  intros HS SO Hp. assert (Hs : safe (bad_block E file \/ exists z, oz = Some z /\ bad_jar E z) (verifyWithSdk E S file oz minSdk maxSdk) any); [|now rewrite Hp in Hs].
  unfold verifyWithSdk. destruct oz as [z|]; [|exact I]. cbv zeta. destruct (_ <? _); [exact I|].
  apply (safe_bind _ _ _ _ any).
  { match goal with |- context [verifySigningBlock E S file ?a ?b ?c] => pose proof (verifySigningBlock_safe E HS S SO file a b c) as H;
      unfold safe in *; destruct (verifySigningBlock E S file a b c) end; [exact I | now left]. }
  intros vr _ _. match goal with |- context [SupportsSigV2 ?m] => destruct (SupportsSigV2 m) end;
    destruct (vr_err vr) as [e|]; try (generalize (isNotFound (Some e)); intros []); try (generalize (isNotFound None); intros []); try exact I;
    (apply (safe_bind _ _ _ _ any); [|intros [? ?] _ _; exact I]);
    (match goal with |- context [verifySchemeV1 E S z ?h ?a ?b] => pose proof (verifySchemeV1_safe E S SO z h a b) as H;
     unfold safe in *; destruct (verifySchemeV1 E S z h a b) end; [exact I | right; exists z; auto]).
Qed.

Theorem C34_extract_certs_partial E S file oz q : hash_sizes_ok E -> sched_ok S ->
  extractCerts E S file oz = Panic q -> bad_block E file \/ exists z, oz = Some z /\ bad_jar E z.
Proof.
  intros HS SO. unfold extractCerts. destruct oz as [z|]; [|discriminate].
  pose proof (extractCertsReader_safe E HS file V_AnyMin V_AnyMax) as HB. unfold obind, safe in *.
  destruct (extractCertsReader E file V_AnyMin V_AnyMax) as [[cs be]|q'] eqn:EB; [|intros _; left; exact HB].
  destruct (negb (isNotFound be)); [discriminate|].
  pose proof (extractCertsSchemeV1_safe E S SO z V_AnyMin V_AnyMax) as HV. unfold safe in HV.
  destruct (extractCertsSchemeV1 E S z V_AnyMin V_AnyMax) as [[c1 e1]|q''] eqn:E1; [discriminate|].
  intros _. right. exists z. auto.
Qed.

(** Contents of every listed kind do make verification panic, so C34 as stated is false. *)
Definition crashes (E : env) (file : bytes) (z : zip) (minSdk maxSdk : Z) : Prop :=
  hash_sizes_ok E /\ exists q, verifyWithSdk E toy_sched file (Some z) minSdk maxSdk = Panic q.
Definition plain : bytes := s2b "PK no signing block here".

(** A manifest that ends in ':'; one with an empty continuation line. *)
Theorem C34_manifest_refuted :
  crashes jar_env plain (jar (s2b "Manifest-Version: 1.0" ++ [x0a] ++ s2b "X:") sf (jsign "K"%byte sf) the_manifest_xml a_txt) 9 33 /\
  crashes jar_env plain (jar (s2b "Manifest-Version: 1.0" ++ [x0a; x20; x0a; x20; x0a]) sf (jsign "K"%byte sf) the_manifest_xml a_txt) 9 33.
Proof. split; (split; [exact toy_hash_sizes | eexists; vm_compute; reflexivity]). Qed.

(** A PKCS#7 file of one byte; digest algorithm 1.3.14.3.2.27, which nobody knows; DSA with SHA-1, with a key of another kind. *)
Definition odd_block (digest enc : bytes) : bytes :=
  let signer := seq [tlv x02 [x01]; seq [e_name; tlv x02 [x01]]; seq [digest; e_null]; tlv xa0 (e_attrs [] sf); seq [enc; e_null]; tlv x04 [x00]] in
  seq [pkcs [x07; x02]; tlv xa0 (seq [tlv x02 [x01]; set [seq [digest; e_null]]; seq [pkcs [x07; x01]]; tlv xa0 (tlv x04 ["K"%byte]); set [signer]])].
Definition jar_of (block : bytes) : zip := jar mf sf block the_manifest_xml a_txt.
Theorem C34_block_file_refuted :
  crashes p7_env plain (jar_of [x30]) 9 33 /\
  crashes p7_env plain (jar_of (odd_block (tlv x06 [x2b; x0e; x03; x02; x1b]) (pkcs [x01; x01]))) 9 33 /\
  crashes p7_env plain (jar_of (odd_block e_sha1 (tlv x06 [x2a; x86; x48; xce; x38; x04; x01]))) 9 33.
Proof. split; [|split]; (split; [exact toy_hash_sizes | eexists; vm_compute; reflexivity]). Qed.

(** v2: an elliptic-curve key with an RSA algorithm; a signature that is a SEQUENCE of one number. *)
Definition with_key (key : pubkey) (ints : list Z) : env := {|
  e_hash := e_hash toy_env; e_rsa_pss := e_rsa_pss toy_env; e_rsa_pkcs1 := e_rsa_pkcs1 toy_env; e_ecdsa := e_ecdsa toy_env; e_dsa := e_dsa toy_env;
  e_asn1_ints := fun _ => Some ints; e_asn1_rs_std := e_asn1_rs_std toy_env; e_asn1_rs_andr := e_asn1_rs_andr toy_env;
  e_pkix_andr := fun _ => Some key; e_pkix_std := e_pkix_std toy_env; e_cert_andr := e_cert_andr toy_env; e_cert_std := e_cert_std toy_env;
  e_pkcs7 := e_pkcs7 toy_env; e_asn1_oid := e_asn1_oid toy_env; e_asn1_octets := e_asn1_octets toy_env; e_marshal_attrs := e_marshal_attrs toy_env;
  e_cert_check := e_cert_check toy_env; e_base64 := e_base64 toy_env; e_parse_xml := e_parse_xml toy_env; e_to_lower := e_to_lower toy_env |}.
Definition signer_of (algo : Z) : bytes :=
  let sd := lp (toy_rec algo toy_digest) ++ lp (lp kA) ++ lp [] in lp sd ++ lp (toy_rec algo (toy_sign kA sd)) ++ lp kA.
Theorem C34_signature_refuted :
  crashes (with_key (KEcdsa kA) [1; 1]) (toy_file [(id_v2, toy_block [signer_of 0x0103])]) toy_zip 24 33 /\
  crashes (with_key (KRsa kA 2048) [1; 1]) (toy_file [(id_v2, toy_block [signer_of 0x0201])]) toy_zip 24 33 /\
  crashes (with_key (KEcdsa kA) [1]) (toy_file [(id_v2, toy_block [signer_of 0x0201])]) toy_zip 24 33 /\
  crashes (with_key (KDsa kA 512) [1; 1]) (toy_file [(id_v2, toy_block [signer_of 0x0301])]) toy_zip 24 33.
Proof. repeat split; try exact toy_hash_sizes; eexists; vm_compute; reflexivity. Qed.

(** Frosting: key index -1. *)
Definition bad_meta : bytes := let e := [x00] ++ [xff; xff; xff; xff; x0f] ++ zeros 32 in [z2b (zlen e)] ++ e.
Definition bad_fr : bytes := let sd := [x01; x2a] ++ [z2b (zlen bad_meta)] ++ bad_meta in
  [z2b (zlen sd)] ++ sd ++ [x02; x01; x00].
Theorem C34_frosting_refuted :
  crashes toy_env (toy_file [(id_v2, toy_block [toy_signer2 kA toy_digest []]); (id_frosting, bad_fr)]) toy_zip 24 33.
Proof. split; [exact toy_hash_sizes | eexists; vm_compute; reflexivity]. Qed.

(** An ordinary APK has none of the listed contents. *)
Fixpoint contains (p s : bytes) : bool :=
  bytes_eqb p (firstn (List.length p) s) || match s with [] => false | _ :: t => contains p t end.
Lemma contains_app p b : contains p (p ++ b) = true.
Proof.
  assert (H : bytes_eqb p (firstn (List.length p) (p ++ b)) = true).
  { rewrite firstn_app, Nat.sub_diag, firstn_O, app_nil_r, firstn_all. apply bytes_eqb_refl. }
  destruct (p ++ b); cbn [contains]; rewrite H; reflexivity.
Qed.
Lemma contains_spec p a : forall s b, s = a ++ p ++ b -> contains p s = true.
Proof.
  induction a as [|x a IH]; intros s b ->; [exact (contains_app p b)|]. cbn [app contains]. rewrite (IH _ b eq_refl). apply orb_true_r.
Qed.
Lemma entry_contains file id p : signing_entry file id p -> contains (le32 id) file = true.
Proof.
  intros (before & pairs & cd & rec & es & rest & (-> & _) & -> & _ & Hin).
  apply in_split in Hin as (e1 & e2 & ->). unfold signing_block. set (n := zlen _ + 24). clearbody n.
  apply (contains_spec _ (before ++ le64 n ++ enc_entries e1 ++ le64 (4 + zlen p)) _ (p ++ enc_entries e2 ++ rest ++ le64 n ++ apk_sig_block_magic ++ cd ++ rec)).
  unfold enc_entries. rewrite flat_map_app. cbn [flat_map]. unfold enc_entry. cbn [fst snd]. rewrite <- !app_assoc. reflexivity.
Qed.
Example C34_nonvacuous : ~ bad_block jar_env toy_v2 /\ ~ bad_jar jar_env good_jar /\
  (exists r, verifyWithSdk jar_env toy_sched toy_v2 (Some good_jar) 9 25 = Ret (r, None)).
Proof.
  split; [|split; [|eexists; vm_compute; reflexivity]].
  - intros [(id & p & _ & _ & (key & algo & sig & (enc & _ & Hk) & _ & _ & Hu)) | (p & Hs & _)].
    + assert (exists k n, key = KRsa k n) as (k & n & ->).
      { cbn [jar_env e_pkix_andr e_cert_andr e_cert_std toy_env] in Hk. destruct Hk as [Hk | (c & Hc & [Hk | Hk])].
        - exists enc, 2048. congruence.
        - assert (c = toy_cert enc) as -> by congruence. eexists _, _. symmetry. exact Hc.
        - assert (c = toy_cert enc) as -> by congruence. eexists _, _. symmetry. exact Hc. }
      inversion Hu; subst; [|discriminate|discriminate]. match goal with H : forall k n, _ |- _ => now apply (H k n) end.
    + apply entry_contains in Hs. vm_compute in Hs. discriminate.
  - assert (HN : forall f, block_file good_jar f -> f = jfile "META-INF/A.RSA" (jsign "K"%byte sf)).
    { intros f (Hin & x & ext & He & Hn). assert (Hl : exists y, zf_name f = s2b "META-INF/" ++ y /\ forall z, y <> z ++ s2b ".SF" /\ y <> z ++ s2b ".MF").
      { exists (x ++ ext). split; [exact Hn|]. intros z.
        split; intros HH; apply (f_equal (@rev byte)) in HH; rewrite !rev_app_distr in HH; destruct He as [<- | [<- | [<- | []]]]; vm_compute in HH; congruence. }
      destruct Hl as (y & Hy & HS). repeat (destruct Hin as [<- | Hin]); try destruct Hin.
      - exfalso. apply (proj2 (HS (s2b "MANIFEST"))). change (zf_name _) with (s2b "META-INF/" ++ s2b "MANIFEST.MF") in Hy. apply app_inv_head in Hy. rewrite <- Hy. reflexivity.
      - exfalso. apply (proj1 (HS (s2b "A"))). change (zf_name _) with (s2b "META-INF/" ++ s2b "A.SF") in Hy. apply app_inv_head in Hy. rewrite <- Hy. reflexivity.
      - reflexivity.
      - vm_compute in Hy. discriminate.
      - vm_compute in Hy. discriminate. }
    intros H. destruct H as [f data (Hin & Hn) Hd Hb | f raw q Hf Hr Hp | info c (f & raw & p & Hf & Hr & Hp & Hi & _) Ha
      | info c algo (f & raw & p & Hf & Hr & Hp & Hi & _) Ha Ho _].
    + assert (HD : data = mf \/ data = sf).
      { repeat (destruct Hin as [<- | Hin]); try destruct Hin; cbn [zf_streams jfile] in Hd; (destruct Hd as [Hd | []]); try (left; congruence); try (right; congruence);
          exfalso; destruct Hn as [Hn | (x & Hn)]; try (vm_compute in Hn; discriminate);
          apply (f_equal (@rev byte)) in Hn; rewrite !rev_app_distr in Hn; vm_compute in Hn; discriminate. }
      destruct Hb as [(x & Hb) | (x & b & lbs & t & Hb & Hlb & _)].
      * apply (f_equal (@rev byte)) in Hb. rewrite rev_app_distr in Hb. destruct HD as [-> | ->]; vm_compute in Hb; discriminate.
      * pose proof (contains_spec [b; x20] x data (lbs ++ x20 :: t) Hb) as HC.
        destruct HD as [-> | ->]; (destruct Hlb as [-> | ->]; vm_compute in HC; discriminate).
    + rewrite (HN f Hf) in Hr. destruct Hr as [Hr | []]. assert (raw = jsign "K"%byte sf) as -> by congruence. unfold jsign in Hp. cbn [jar_env e_pkcs7] in Hp. congruence.
    + rewrite (HN f Hf) in Hr. destruct Hr as [Hr | []]. assert (raw = jsign "K"%byte sf) as -> by congruence.
      assert (p = jp7 "K"%byte ("K"%byte :: toy_hash HSha1 sf)) as -> by (unfold jsign in Hp; cbn [jar_env e_pkcs7] in Hp; congruence).
      destruct Hi as [<- | []]. apply (Ha 3). vm_compute. tauto.
    + rewrite (HN f Hf) in Hr. destruct Hr as [Hr | []]. assert (raw = jsign "K"%byte sf) as -> by congruence.
      assert (p = jp7 "K"%byte ("K"%byte :: toy_hash HSha1 sf)) as -> by (unfold jsign in Hp; cbn [jar_env e_pkcs7] in Hp; congruence).
      destruct Hi as [<- | []]. destruct Ho as [<- | [<- | [<- | []]]]; vm_compute in Ha; repeat (destruct Ha as [Ha | Ha]; [discriminate|]); destruct Ha.
Qed.
Print Assumptions C34_verify_partial.
Print Assumptions C34_extract_certs_partial.
