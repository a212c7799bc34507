(** C89-C91: PKCS#7 enveloped data - Encrypt, Parse, Decrypt. *)
From Coq Require Import String Lia Permutation.
From Verif.Model Require Import Bytes Env GoStrings Ber Asn1 Pkcs7 X509 Pkcs7Verify Pkcs7Sign Pkcs7Envelope.
From Verif.Spec Require Import Ber Asn1 Asn1Value Pkcs7 Pkcs7Verify Pkcs7Sign Pkcs7Envelope.
From Verif.Proofs Require Import BytesFacts BerFacts Asn1Codec Asn1Header Asn1Value Asn1Decode DerFacts DerSize Pkcs7Facts Pkcs7VerifyFacts Pkcs7Doc X509Honest Pkcs7SignFacts Pkcs7Made Pkcs7EnvFacts Pkcs7EnvDoc Pkcs7EnvMade.
From Verif.Examples Require Import Toy ToyPkcs7 ToyX509 ToySigned DerToy.
From Verif.Props Require Import Ber Pkcs7 Pkcs7Verify Pkcs7Sign.

Lemma doc_parse K d f rest : envelope_der d f -> Forall valid_oid (envelope_oids d) -> tree f -> zlen f < 2 ^ 31 ->
  exists p e, p7Parse K (f ++ rest) = Ret (Some p) /\ po_envelope p = Some e /\ en_recipients e = map read_recipient (ed_recipients d) /\ en_alg e = fst (ed_alg d) /\
    params_content (snd (ed_alg d)) (en_params e) /\ cyphertext (k_text K) e = sealed_bytes (ed_sealed d).
Proof.
  intros HE HV (o & HT) HL. assert (HB : forall rest, ber2der (f ++ rest) = BRet f) by (intros r; exact (C40_der_unchanged o f r HT HL)).
  pose proof (HB []) as HB0. rewrite app_nil_r in HB0. destruct (envelope_parse K d f HE HV HL HB0) as (p & e & HP & H). exists p, e. split; [|exact H].
  rewrite <- HP. unfold p7Parse. rewrite HB, HB0. destruct f as [|x f0]; [cbn in HB0; discriminate|]. reflexivity.
Qed.
Lemma decrypt_iff K C d p e c k pt : po_envelope p = Some e -> en_recipients e = map read_recipient (ed_recipients d) -> en_alg e = fst (ed_alg d) ->
  params_content (snd (ed_alg d)) (en_params e) -> cyphertext (k_text K) e = sealed_bytes (ed_sealed d) ->
  (p7Decrypt (k_text K) C p c (DRsa k) = Ret (Some pt) <-> decrypts loosely_padded C d c k pt).
Proof.
  intros E1 E2 E3 E4 E5. unfold p7Decrypt. rewrite E1, E2. split.
  - destruct (selectRecipient _ c) as [r|] eqn:ES; [|discriminate]. apply select_iff in ES as (rd & HF & ->). cbn [rc_key read_recipient].
    destruct (ci_rsa_decrypt C k (rd_key rd)) as [ck|] eqn:ER; [|discriminate]. intros H. apply decryptContent_iff in H. rewrite E3, E5 in H. exists rd, ck, (en_params e). auto.
  - intros (rd & ck & params & HF & HR & HP & HO). assert (ES : selectRecipient (map read_recipient (ed_recipients d)) c = Some (read_recipient rd)) by (apply select_iff; eauto). rewrite ES. cbn [rc_key read_recipient]. rewrite HR.
    apply decryptContent_iff. rewrite E3, E5. rewrite (params_unique K _ _ _ E4 HP). exact HO.
Qed.

(** C90.  Decrypt of a document that was parsed returns the plaintext the recipient's key gives, and nothing else - up to the
    padding of the CBC modes, which is checked less strictly than it is defined. *)
Theorem C90_decrypt_partial : forall K C d f rest, envelope_der d f -> Forall valid_oid (envelope_oids d) -> tree f -> zlen f < 2 ^ 31 ->
  exists p, p7Parse K (f ++ rest) = Ret (Some p) /\
    (forall c k pt, p7Decrypt (k_text K) C p c (DRsa k) = Ret (Some pt) <-> decrypts loosely_padded C d c k pt) /\
    (forall c k pt, decrypts padded C d c k pt -> p7Decrypt (k_text K) C p c (DRsa k) = Ret (Some pt)).
Proof.
  intros K C d f rest HE HV HT HL. destruct (doc_parse K d f rest HE HV HT HL) as (p & e & HP & E1 & E2 & E3 & E4 & E5). exists p. split; [exact HP|].
  pose proof (decrypt_iff K C d p e) as HD. split; [intros c k pt; apply HD; assumption|]. intros c k pt (r & ck & params & H1 & H2 & H3 & H4). apply HD; try assumption.
  exists r, ck, params. split; [exact H1|]. split; [exact H2|]. split; [exact H3|]. destruct H4 as [ci A1 A2 A3 A4 A5|nonce A1 A2 A3 A4 A5].
  - eapply by_cbc; try eassumption. apply strict_loose; [destruct ci; cbn; lia|exact A5].
  - eapply by_gcm; eassumption.
Qed.
Print Assumptions C90_decrypt_partial.
(** Another certificate's key, and an encrypted content that does not open, give an error or a panic, never a text. *)

(** C91.  Exactly when Decrypt panics *)
Lemma decryptContent_panic K C e key : (exists p, decryptContent (k_text K) C e key = Panic p) <->
  exists ci, In (en_alg e, ci) cbc_algorithms /\ In (zlen key) (key_lengths ci) /\ zlen (en_params e) = block_length ci /\
    (zlen (cyphertext (k_text K) e) mod block_length ci <> 0 \/
     exists text, text = ci_cbc_decrypt C ci key (en_params e) (cyphertext (k_text K) e) /\ text <> [] /\ zlen text mod block_length ci = 0 /\ zlen text < b2z (last text x00)) .
Proof.
  unfold decryptContent. split.
  - intros (q & H). revert H. destruct (contentCipher (en_alg e)) as [[c cbc]|] eqn:EC; [|discriminate]. destruct (keyFits c key) eqn:EK; [|discriminate]. cbn [negb]. apply key_fits in EK. destruct cbc.
    + apply cipher_cbc in EC. destruct (Z.eqb_spec (zlen (en_params e)) (blockSize c)) as [EP|]; [|discriminate]. cbn [negb]. rewrite block_size in *. intros H. exists c. split; [exact EC|]. split; [exact EK|]. split; [exact EP|].
      destruct (Z.eqb_spec (zlen (cyphertext (k_text K) e) mod block_length c) 0) as [EM|EM]; [right|left; exact EM]. cbn [negb] in H.
      destruct (proj1 (unpad_panic _ (block_length c) ltac:(destruct c; cbn; lia)) (ex_intro _ q H)) as (A1 & A2 & A3). eexists. split; [reflexivity|]. auto.
    + destruct (unmarshal _ tyGcmParams (en_params e)) as [v [r|]]; [|discriminate]. destruct (negb _); [discriminate|]. destruct (negb _); discriminate.
  - intros (c & HA & HK & HP & H). apply cipher_cbc in HA. rewrite HA. apply key_fits in HK. rewrite HK. cbn [negb]. rewrite block_size, HP, Z.eqb_refl. cbn [negb].
    destruct H as [H|(text & -> & A1 & A2 & A3)]; [apply Z.eqb_neq in H; rewrite H; eexists; reflexivity|].
    destruct (Z.eqb_spec (zlen (cyphertext (k_text K) e) mod block_length c) 0) as [EM|EM]; cbn [negb]; [|eexists; reflexivity]. apply unpad_panic; [destruct c; cbn; lia|auto].
Qed.
Theorem C91_panics_exactly_partial : forall K C d f rest, envelope_der d f -> Forall valid_oid (envelope_oids d) -> tree f -> zlen f < 2 ^ 31 ->
  exists p, p7Parse K (f ++ rest) = Ret (Some p) /\ forall c key, (exists q, p7Decrypt (k_text K) C p c key = Panic q) <-> decrypt_panics C d c key.
Proof.
  intros K C d f rest HE HV HT HL. destruct (doc_parse K d f rest HE HV HT HL) as (p & e & HP & E1 & E2 & E3 & E4 & E5). exists p. split; [exact HP|]. intros c key.
  unfold p7Decrypt. rewrite E1, E2. split.
  - intros (q & H). destruct (selectRecipient _ c) as [r|] eqn:ES; [|discriminate]. apply select_iff in ES as (rd & HF & ->). cbn [rc_key read_recipient] in H. exists rd. split; [exact HF|].
    destruct key as [k| |]; [|discriminate|left; reflexivity]. right. destruct (ci_rsa_decrypt C k (rd_key rd)) as [ck|] eqn:ER; [|discriminate].
    destruct (proj1 (decryptContent_panic K C e ck) (ex_intro _ q H)) as (ci & A1 & A2 & A3 & A4). rewrite E3 in A1. rewrite E5 in A4. exists k, ck, (en_params e), ci. auto 8.
  - intros (rd & HF & H). assert (ES : selectRecipient (map read_recipient (ed_recipients d)) c = Some (read_recipient rd)) by (apply select_iff; eauto). rewrite ES. cbn [rc_key read_recipient].
    destruct H as [->|(k & ck & params & ci & -> & HR & HPa & A1 & A2 & A3 & A4)]; [eexists; reflexivity|]. rewrite HR. rewrite (params_unique K _ _ _ HPa E4) in A3, A4. apply decryptContent_panic. exists ci. rewrite E3, E5. auto.
Qed.
Print Assumptions C91_panics_exactly_partial.

(** C89.  Whatever is encrypted, for however many recipients with RSA keys, Encrypt succeeds; what it returns is read by
    Parse, and every recipient's key decrypts it to the content. *)
Definition alg_oid (a : contentAlg) : oid := match a with DesCbc => oidDesCbc | _ => oidAes128Gcm end.
Lemma encrypted K C rsaEncrypt alg key iv content l : sizes_fit alg key iv -> (forall t, In t l -> is_element (sc_issuer (t_cert t)) /\ t_rsa t = true) ->
  (forall m t, In t l -> exists ek, rsaEncrypt m (t_cert t) key = Some ek) ->
  exists rs oc tag params ct, p7Encrypt (k_text K) C rsaEncrypt alg key iv content l = Ret (Some (envfile_enc rs (eci_enc oc (el 0 tag false params) ct))) /\
    Forall2 (fun t (r : rk) => fst r = t_cert t /\ exists m, rsaEncrypt m (t_cert t) key = Some (snd r)) l rs /\ encodeOid (alg_oid alg) = Some oc /\ 0 < tag < 31 /\
    (small params -> ciphers_invert C -> opens loosely_padded C (alg_oid alg) params ct key content).
Proof.
  intros HZ HR HE. destruct (recipientVals_all rsaEncrypt key l 0%nat (fun t H => proj2 (HR t H)) HE) as (rs & EQ & HF).
  assert (HO : Forall rk_ok rs). { apply Forall_forall. intros r Hr. destruct (Forall2_In_r _ _ _ _ HF Hr) as (t & Ht & E & _). unfold rk_ok. rewrite E. apply HR. exact Ht. }
  unfold p7Encrypt. destruct alg; cbn [sizes_fit] in HZ; [| |contradiction]; destruct HZ as (Z1 & Z2).
  - unfold encryptDes. destruct (pad_padded content 8 ltac:(lia)) as (text & EP & HP). rewrite EP, EQ.
    exists rs, [x2b; x0e; x03; x02; x07], 4, iv, (ci_cbc_encrypt C Des key iv text). rewrite (write_envfile (k_text K) rs oidDesCbc [x2b; x0e; x03; x02; x07] 4 iv _ HO eq_refl) by discriminate.
    split; [reflexivity|]. split; [exact HF|]. split; [reflexivity|]. split; [lia|]. intros _ (I1 & I2 & _). pose proof HP as (n & _ & _ & HM).
    eapply (by_cbc _ _ _ _ _ _ _ Des); [left; reflexivity|left; symmetry; exact Z1|exact Z2|rewrite I2; exact HM|]. rewrite I1 by exact HM. apply strict_loose; [cbn; lia|exact HP].
  - unfold encryptGcm. rewrite write_gcm, EQ.
    exists rs, [x60; x86; x48; x01; x65; x03; x04; x01; x06], 16, (gcm_enc iv), (ci_gcm_seal C key iv content). rewrite (write_envfile (k_text K) rs oidAes128Gcm [x60; x86; x48; x01; x65; x03; x04; x01; x06] 16 (gcm_enc iv) _ HO eq_refl) by discriminate.
    split; [reflexivity|]. split; [exact HF|]. split; [reflexivity|]. split; [lia|]. intros HS (_ & _ & I3). unfold gcm_enc in HS. smalls.
    eapply (by_gcm _ _ _ _ _ _ _ iv); [reflexivity|left; symmetry; exact Z1| |exact Z2|apply I3].
    exists (gcm_enc iv), [], (el 2 4 false iv ++ el 0 2 false [x10]), (el 2 4 false iv), (el 0 2 false [x10]), []. split; [rewrite app_nil_r; reflexivity|].
    split; [unfold gcm_enc; apply header_element; [lia|unfold max_int32; lia|assumption]|]. split; [rewrite app_nil_r; reflexivity|]. split; [apply header_element; [lia|unfold max_int32; lia|assumption]|].
    exists [x10]. split; [apply header_element; [lia|unfold max_int32; lia|assumption]|]. apply parseBigInt_iff. reflexivity.
Qed.
Lemma valid_alg alg : valid_oid (alg_oid alg).
Proof. destruct alg; cbn; [exists 1, 3, [14; 3; 2; 7]|exists 2, 16, [840; 1; 101; 3; 4; 1; 6]|exists 2, 16, [840; 1; 101; 3; 4; 1; 6]]; unfold max_int32; (repeat split; try lia); repeat constructor; lia. Qed.
Theorem C89_round_trip : forall K C rsaEncrypt alg key iv content l,
  sizes_fit alg key iv -> ciphers_invert C -> distinct (map t_cert l) ->
  (forall t, In t l -> t_rsa t = true /\ tree (sc_issuer (t_cert t)) /\ is_element (sc_issuer (t_cert t)) /\ forall m, exists ek, rsaEncrypt m (t_cert t) key = Some ek) ->
  exists b, p7Encrypt (k_text K) C rsaEncrypt alg key iv content l = Ret (Some b) /\ (zlen b < 2 ^ 31 ->
    exists p, p7Parse K b = Ret (Some p) /\
      forall t private, In t l -> key_of C rsaEncrypt (t_cert t) private -> p7Decrypt (k_text K) C p (t_cert t) (DRsa private) = Ret (Some content)).
Proof.
  intros K C rsaEncrypt alg key iv content l HZ HC HD HR.
  destruct (encrypted K C rsaEncrypt alg key iv content l HZ) as (rs & oc & tag & params & ct & EE & HF & EO & HT & HO).
  { intros t Ht. destruct (HR t Ht) as (A & _ & B & _). auto. } { intros m t Ht. apply HR. exact Ht. }
  eexists. split; [exact EE|]. intros HL.
  assert (HOK : Forall rk_ok rs). { apply Forall_forall. intros r Hr. destruct (Forall2_In_r _ _ _ _ HF Hr) as (t & Ht & E & _). unfold rk_ok. rewrite E. apply HR. exact Ht. }
  pose proof (envfile_der rs (alg_oid alg) oc tag params ct HOK (valid_alg alg) EO ltac:(lia) HL) as HDER.
  assert (HTR : tree (envfile_enc rs (eci_enc oc (el 0 tag false params) ct))).
  { apply envfile_tree; [lia|exact HL|]. apply Forall_forall. intros r Hr. destruct (Forall2_In_r _ _ _ _ HF Hr) as (t & Ht & E & _). rewrite E. apply HR. exact Ht. }
  assert (HV : Forall valid_oid (envelope_oids (edoc rs (alg_oid alg) (el 0 tag false params) ct))).
  { unfold envelope_oids. cbn [edoc ed_type ed_alg ed_recipients fst]. constructor; [exact valid_data|]. constructor; [apply valid_alg|]. rewrite map_map. apply Forall_map, Forall_forall. intros r _. exact valid_rsa. }
  assert (HP : small params). { unfold envfile_enc, env_enc, eci_enc in HL. fold (small (el 0 16 true (el 0 6 false oid_enveloped ++ el 2 0 true (el 0 16 true (el 0 2 false [x00] ++ el 0 17 true (concat (map renc (isort rless rs))) ++ el 0 16 true (el 0 6 false oid_data ++ el 0 16 true (el 0 6 false oc ++ el 0 tag false params) ++ el 2 0 true (el 0 4 false ct))))))) in HL. smalls. assumption. }
  destruct (doc_parse K _ _ [] HDER HV HTR HL) as (p & e & HPa & E1 & E2 & E3 & E4 & E5). rewrite app_nil_r in HPa. exists p. split; [exact HPa|]. intros t private Ht HK.
  apply (decrypt_iff K C _ p e _ _ _ E1 E2 E3 E4 E5). cbn [edoc ed_alg ed_sealed ed_recipients fst snd sealed_bytes concat] in *.
  (* the recipient that is found *)
  assert (HS : exists r, In r rs /\ fst r = t_cert t /\ first_recipient (t_cert t) (map rdoc (isort rless rs)) (rdoc r)).
  { destruct (Forall2_In_l _ _ _ _ HF Ht) as (r0 & Hr0 & EF & _). assert (HI : In r0 (isort rless rs)) by (eapply Permutation_in; [apply isort_perm|exact Hr0]).
    assert (HSub : forall r, In r (isort rless rs) -> In r rs) by (intros r; apply Permutation_in, Permutation_sym, isort_perm).
    assert (HX : exists r, In r (isort rless rs) /\ first_recipient (t_cert t) (map rdoc (isort rless rs)) (rdoc r)).
    { assert (HX0 : In r0 (isort rless rs)) by exact HI. clear -HI EF. induction (isort rless rs) as [|x q IH]; [destruct HI|].
      destruct (Z.eq_dec (sc_serial (fst x)) (sc_serial (t_cert t))) as [ES|ES]; [destruct (bytes_eqb (sc_issuer (fst x)) (sc_issuer (t_cert t))) eqn:EI|].
      - apply bytes_eqb_eq in EI. exists x. split; [left; reflexivity|]. exists [], (map rdoc q). repeat split; [exact EI|exact ES|intros y []].
      - destruct HI as [->|HI]; [rewrite EF, (proj2 (bytes_eqb_eq _ _) eq_refl) in EI; discriminate|]. destruct (IH HI) as (r & Hr & l1 & l2 & EL & B1 & B2 & B3). exists r. split; [right; exact Hr|].
        exists (rdoc x :: l1), l2. split; [cbn [map app]; rewrite EL; reflexivity|]. repeat split; [exact B1|exact B2|]. intros y [<-|Hy]; [|exact (B3 y Hy)]. cbn [rdoc rd_issuer rd_serial]. intros (C1 & _). rewrite C1, (proj2 (bytes_eqb_eq _ _) eq_refl) in EI. discriminate.
      - destruct HI as [->|HI]; [rewrite EF in ES; contradiction|]. destruct (IH HI) as (r & Hr & l1 & l2 & EL & B1 & B2 & B3). exists r. split; [right; exact Hr|].
        exists (rdoc x :: l1), l2. split; [cbn [map app]; rewrite EL; reflexivity|]. repeat split; [exact B1|exact B2|]. intros y [<-|Hy]; [|exact (B3 y Hy)]. cbn [rdoc rd_issuer rd_serial]. intros (_ & C1). contradiction. }
    destruct HX as (r & Hr & HX). exists r. split; [apply HSub; exact Hr|]. split; [|exact HX]. destruct HX as (_ & _ & _ & B1 & B2 & _). cbn [rdoc rd_issuer rd_serial] in B1, B2.
    destruct (Forall2_In_r _ _ _ _ HF (HSub r Hr)) as (t' & Ht' & ET & _). apply HD; [rewrite ET; apply in_map; exact Ht'|apply in_map; exact Ht|exact B1|exact B2]. }
  destruct HS as (r & Hr & EC & HFR). destruct (Forall2_In_r _ _ _ _ HF Hr) as (t' & _ & ET & m & EM). rewrite <- ET, EC in EM.
  exists (rdoc r), key, params. split; [exact HFR|]. split; [cbn [rdoc rd_key]; exact (HK m key _ EM)|]. split.
  - cbn [params_content]. exists 0, tag, false. apply header_element; [lia|unfold max_int32; lia|exact HP].
  - cbn [edoc ed_alg ed_sealed fst snd sealed_bytes concat]. rewrite app_nil_r. exact (HO HP HC).
Qed.
Print Assumptions C89_round_trip.

(** *** Cases *)
(** Toy ciphers: RSA with the private key "k" and CBC change nothing, GCM puts the nonce before the text. *)
Definition q_ciphers : ciphers := {|
  ci_rsa_decrypt := fun k m => if bytes_eqb k (s2b "k") then Some m else None;
  ci_cbc_encrypt := fun _ _ _ t => t; ci_cbc_decrypt := fun _ _ _ t => t;
  ci_gcm_seal := fun _ n t => n ++ t;
  ci_gcm_open := fun _ n t => if bytes_eqb (takeZ (zlen n) t) n then Some (dropZ (zlen n) t) else None |}.
Definition q_rsa (n : nat) (c : scert) (m : bytes) : option bytes := Some m.
Definition q_cert2 : scert := {| sc_raw := []; sc_issuer := x_name; sc_serial := 43 |}.
Definition q_targets : list target := [{| t_cert := g_cert; t_rsa := true |}; {| t_cert := q_cert2; t_rsa := true |}].
Lemma q_invert : ciphers_invert q_ciphers.
Proof.
  split; [reflexivity|]. split; [reflexivity|]. intros key nonce text. cbn [q_ciphers ci_gcm_open ci_gcm_seal]. rewrite takeZ_app, dropZ_app by reflexivity. rewrite (proj2 (bytes_eqb_eq _ _) eq_refl). reflexivity.
Qed.
Lemma name_element : is_element x_name.
Proof. exists 0, 16, true. eexists. apply der_small; [|vm_compute; reflexivity]. unfold x_name, seq. apply (tlv_der 0 16 true); [lia|lia|reflexivity|vm_compute; reflexivity]. Qed.
Example C89_nonvacuous : sizes_fit DesCbc (s2b "8 octets") (s2b "iv iv iv") /\ sizes_fit Aes128Gcm (s2b "16 octets of key") (s2b "twelve bytes") /\ ciphers_invert q_ciphers /\ distinct (map t_cert q_targets) /\
  (forall key t, In t q_targets -> t_rsa t = true /\ tree (sc_issuer (t_cert t)) /\ is_element (sc_issuer (t_cert t)) /\ forall m, exists ek, q_rsa m (t_cert t) key = Some ek) /\
  (forall t, In t q_targets -> key_of q_ciphers q_rsa (t_cert t) (s2b "k")) /\
  (exists b, p7Encrypt (k_text toy_k) q_ciphers q_rsa DesCbc (s2b "8 octets") (s2b "iv iv iv") (s2b "secret") q_targets = Ret (Some b) /\ zlen b < 2 ^ 31) /\
  (exists b, p7Encrypt (k_text toy_k) q_ciphers q_rsa Aes128Gcm (s2b "16 octets of key") (s2b "twelve bytes") (s2b "secret") q_targets = Ret (Some b) /\ zlen b < 2 ^ 31).
Proof.
  split; [split; reflexivity|]. split; [split; reflexivity|]. split; [exact q_invert|]. split.
  { intros c c' [<-|[<-|[]]] [<-|[<-|[]]] _ H; try reflexivity; discriminate. }
  split. { intros key t [<-|[<-|[]]]; (split; [reflexivity|]); (split; [exact name_tree|]); (split; [exact name_element|]); intros m; eexists; reflexivity. }
  split. { intros t _ n m ek H. injection H as <-. reflexivity. }
  split; eexists; (split; [vm_compute; reflexivity|vm_compute; reflexivity]).
Qed.

(** A document with one recipient, DES in CBC mode and this content *)
Definition q_doc (ct : bytes) : envelope_doc := edoc [(g_cert, s2b "8 octets")] oidDesCbc (el 0 4 false (s2b "iv iv iv")) ct.
Definition q_file (ct : bytes) : bytes := envfile_enc [(g_cert, s2b "8 octets")] (eci_enc [x2b; x0e; x03; x02; x07] (el 0 4 false (s2b "iv iv iv")) ct).
Lemma q_tag : 0 <= 4 < 31. Proof. lia. Qed.
Opaque el.
Lemma q_good ct : zlen (q_file ct) < 2 ^ 31 -> envelope_der (q_doc ct) (q_file ct) /\ Forall valid_oid (envelope_oids (q_doc ct)) /\ tree (q_file ct).
Proof.
  intros H. split; [apply envfile_der; [constructor; [exact name_element|constructor]|apply (valid_alg DesCbc)|reflexivity|lia|exact H]|]. split.
  - unfold envelope_oids. constructor; [exact valid_data|]. constructor; [apply (valid_alg DesCbc)|]. cbn. constructor; [exact valid_rsa|constructor].
  - unfold q_file in *. refine (envfile_tree _ _ _ _ _ q_tag H _). constructor; [exact name_tree|constructor].
Qed.
Example C90_nonvacuous : zlen (q_file (s2b "secret" ++ [x02; x02])) < 2 ^ 31 /\ decrypts padded q_ciphers (q_doc (s2b "secret" ++ [x02; x02])) g_cert (s2b "k") (s2b "secret") /\
  forall pt, ~ decrypts loosely_padded q_ciphers (q_doc (s2b "secret" ++ [x02; x02])) q_cert2 (s2b "k") pt.
Proof.
  split; [vm_compute; reflexivity|]. split.
  - exists (rdoc (g_cert, s2b "8 octets")), (s2b "8 octets"), (s2b "iv iv iv"). split; [exists [], []; repeat split; intros y []|]. split; [reflexivity|]. split.
    + exists 0, 4, false. apply header_element; [lia|unfold max_int32; lia|vm_compute; reflexivity].
    + eapply (by_cbc _ _ _ _ _ _ _ Des); [left; reflexivity|left; reflexivity|reflexivity|reflexivity|]. exists 2. split; [cbn; lia|]. split; reflexivity.
  - intros pt (r & ck & params & (l1 & l2 & E & _ & HS & _) & _). assert (HI : In r [rdoc (g_cert, s2b "8 octets")]) by (change [rdoc (g_cert, s2b "8 octets")] with (ed_recipients (q_doc (s2b "secret" ++ [x02; x02]))); rewrite E; apply in_elt).
    destruct HI as [<-|[]]. discriminate.
Qed.

Lemma q_strict ck params : opens padded q_ciphers oidDesCbc params (repeat x00 8 ++ []) ck (repeat x00 8) -> False.
Proof.
  intros [ci A1 A2 A3 A4 (n & Hn & E & _)|nonce A1 _ _ _ _]; [|discriminate A1].
  assert (HZ : zlen (ci_cbc_decrypt q_ciphers ci ck params (repeat x00 8 ++ [])) = 8) by reflexivity. rewrite E, zlen_app, zlen_padding in HZ by lia. change (zlen (repeat x00 8)) with 8 in HZ. lia.
Qed.
(** The strict rule is not what is checked: a text that ends with a zero octet, and one that ends with sixteen octets of
    value 16 (two blocks), are accepted. *)
Theorem C90_strict_refuted : ~ (forall K C d f p c k pt, envelope_der d f -> Forall valid_oid (envelope_oids d) -> tree f -> zlen f < 2 ^ 31 -> same_length C ->
  p7Parse K f = Ret (Some p) -> p7Decrypt (k_text K) C p c (DRsa k) = Ret (Some pt) -> decrypts padded C d c k pt).
Proof.
  intros H. set (ct := repeat x00 8). assert (HL : zlen (q_file ct) < 2 ^ 31) by (vm_compute; reflexivity). destruct (q_good ct HL) as (H1 & H2 & H3).
  destruct (C90_decrypt_partial toy_k q_ciphers (q_doc ct) (q_file ct) [] H1 H2 H3 HL) as (p & HP & HD & _). rewrite app_nil_r in HP.
  assert (HX : p7Decrypt (k_text toy_k) q_ciphers p g_cert (DRsa (s2b "k")) = Ret (Some ct)).
  { apply HD. exists (rdoc (g_cert, s2b "8 octets")), (s2b "8 octets"), (s2b "iv iv iv"). split; [exists [], []; repeat split; intros y []|]. split; [reflexivity|]. split.
    - exists 0, 4, false. apply header_element; [lia|unfold max_int32; lia|vm_compute; reflexivity].
    - eapply (by_cbc _ _ _ _ _ _ _ Des); [left; reflexivity|left; reflexivity|reflexivity|reflexivity|]. exists 0. split; [lia|]. split; [reflexivity|]. split; [reflexivity|]. exists (repeat x00 7). reflexivity. }
  specialize (H toy_k q_ciphers (q_doc ct) (q_file ct) p g_cert (s2b "k") ct H1 H2 H3 HL ltac:(intros c key iv t; reflexivity) HP HX).
  destruct H as (r & ck & params & _ & _ & _ & HO). exact (q_strict ck params HO).
Qed.
Print Assumptions C90_strict_refuted.
Example C90_long_padding : exists p, p7Parse toy_k (q_file (repeat x10 16)) = Ret (Some p) /\ p7Decrypt (k_text toy_k) q_ciphers p g_cert (DRsa (s2b "k")) = Ret (Some []).
Proof. eexists. split; [vm_compute; reflexivity|vm_compute; reflexivity]. Qed.

(** Decrypt can panic, with an RSA key, on documents Parse accepts; Encrypt panics for a certificate with another key. *)
Theorem C91_no_panic_refuted : ~ (forall K C d f p c k q, envelope_der d f -> Forall valid_oid (envelope_oids d) -> tree f -> zlen f < 2 ^ 31 -> same_length C ->
  p7Parse K f = Ret (Some p) -> p7Decrypt (k_text K) C p c (DRsa k) <> Panic q).
Proof.
  intros H. set (ct := repeat xff 8). assert (HL : zlen (q_file ct) < 2 ^ 31) by (vm_compute; reflexivity). destruct (q_good ct HL) as (H1 & H2 & H3).
  assert (HP : exists p, p7Parse toy_k (q_file ct) = Ret (Some p) /\ p7Decrypt (k_text toy_k) q_ciphers p g_cert (DRsa (s2b "k")) = Panic PSlice) by (eexists; split; [vm_compute; reflexivity|vm_compute; reflexivity]).
  destruct HP as (p & HP & HX). exact (H toy_k q_ciphers (q_doc ct) (q_file ct) p g_cert (s2b "k") PSlice H1 H2 H3 HL ltac:(intros c key iv t; reflexivity) HP HX).
Qed.
Print Assumptions C91_no_panic_refuted.
Example C91_partial_block : exists p, p7Parse toy_k (q_file (repeat x01 9)) = Ret (Some p) /\ p7Decrypt (k_text toy_k) q_ciphers p g_cert (DRsa (s2b "k")) = Panic PExplicit.
Proof. eexists. split; [vm_compute; reflexivity|vm_compute; reflexivity]. Qed.
Theorem C91_encrypt_panics : forall K C rsaEncrypt alg key iv content l,
  sizes_fit alg key iv -> (forall m t, In t l -> exists ek, rsaEncrypt m (t_cert t) key = Some ek) ->
  (exists q, p7Encrypt (k_text K) C rsaEncrypt alg key iv content l = Panic q) <-> exists t, In t l /\ t_rsa t = false.
Proof.
  intros K C rsaEncrypt alg key iv content l HZ HE. assert (HS : exists eci, match alg with DesCbc => encryptDes (k_text K) C key iv content | Aes128Gcm => encryptGcm (k_text K) C key iv content | OtherAlg => None end = Some eci).
  { destruct alg; cbn [sizes_fit] in HZ; [| |contradiction].
    - unfold encryptDes. destruct (pad_padded content 8 ltac:(lia)) as (text & -> & _). eexists. reflexivity.
    - unfold encryptGcm. rewrite write_gcm. eexists. reflexivity. }
  destruct HS as (eci & HS). unfold p7Encrypt. rewrite HS. split.
  - intros (q & H). destruct (existsb (fun t => negb (t_rsa t)) l) eqn:EX.
    + apply existsb_exists in EX as (t & Ht & Et). exists t. split; [exact Ht|]. destruct (t_rsa t); [discriminate|reflexivity].
    + exfalso. destruct (recipientVals_all rsaEncrypt key l 0%nat) as (rs & EQ & _); [|exact HE|rewrite EQ in H; discriminate]. intros t Ht. destruct (t_rsa t) eqn:ET; [reflexivity|]. exfalso.
      assert (C1 : existsb (fun t => negb (t_rsa t)) l = true) by (apply existsb_exists; exists t; rewrite ET; auto). congruence.
  - intros HX. rewrite (recipientVals_panic rsaEncrypt key l 0%nat HE HX). eexists. reflexivity.
Qed.
Print Assumptions C91_encrypt_panics.
Example C91_nonvacuous : decrypt_panics q_ciphers (q_doc (repeat xff 8)) g_cert (DRsa (s2b "k")) /\ decrypt_panics q_ciphers (q_doc []) g_cert DOther.
Proof.
  split.
  - exists (rdoc (g_cert, s2b "8 octets")). split; [exists [], []; repeat split; intros y []|]. right. exists (s2b "k"), (s2b "8 octets"), (s2b "iv iv iv"), Des. split; [reflexivity|]. split; [reflexivity|]. split.
    { exists 0, 4, false. apply header_element; [lia|unfold max_int32; lia|vm_compute; reflexivity]. }
    split; [left; reflexivity|]. split; [left; reflexivity|]. split; [reflexivity|]. right. eexists. split; [reflexivity|]. split; [discriminate|]. split; reflexivity.
  - exists (rdoc (g_cert, s2b "8 octets")). split; [exists [], []; repeat split; intros y []|]. left. reflexivity.
Qed.
