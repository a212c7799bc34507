(** Enveloped data *)
From Coq Require Import Lia.
From Verif.Model Require Import Bytes Env Ber Asn1 Pkcs7 X509 Pkcs7Verify Pkcs7Sign Pkcs7Envelope.
From Verif.Spec Require Import Ber Asn1 Asn1Value Pkcs7 Pkcs7Envelope.
From Verif.Proofs Require Import BytesFacts BerFacts Asn1Codec Asn1Header Asn1Value Asn1Decode DerFacts DerSize Pkcs7Facts Pkcs7Parse Pkcs7Honest X509Facts X509Honest Pkcs7VerifyFacts Pkcs7Doc.

(** *** Padding *)
Lemma last_app_one {A} (l : list A) x d : last (l ++ [x]) d = x.
Proof. induction l as [|y l IH]; [reflexivity|]. cbn [app]. destruct (l ++ [x]) as [|z t] eqn:E; [destruct l; discriminate|]. cbn [last] in *. exact IH. Qed.
Lemma zlen_padding n : 0 <= n -> zlen (padding n) = n.
Proof. intros H. unfold padding, zlen. rewrite repeat_length, Z2Nat.id by exact H. reflexivity. Qed.
Lemma all_padding n l : 0 <= n < 256 -> forallb (fun b => b2z b =? n) l = true <-> l = repeat (z2b n) (List.length l).
Proof.
  intros H. induction l as [|x l IH]; [split; reflexivity|]. cbn [forallb List.length repeat]. rewrite andb_true_iff, IH, Z.eqb_eq. split.
  - intros (<- & E). rewrite z2b_b2z. rewrite z2b_b2z in E. rewrite <- E. reflexivity.
  - intros E. assert (E1 : x = z2b n) by congruence. assert (E2 : l = repeat (z2b n) (List.length l)) by congruence. split; [|exact E2]. rewrite E1, b2z_z2b, Z.mod_small by lia. reflexivity.
Qed.
Lemma unpad_iff text block pt : 1 <= block -> (unpad text block = Ret (Some pt) <-> loosely_padded block pt text).
Proof.
  intros HB. unfold unpad. destruct (Z.ltb_spec block 1); [lia|]. split.
  - destruct (Z.eqb_spec (zlen text mod block) 0) as [EM|]; [|discriminate]. destruct (Z.eqb_spec (zlen text) 0) as [|EN]; [discriminate|]. cbn [negb orb].
    assert (HN : text <> []) by (intros ->; apply EN; reflexivity). destruct (exists_last HN) as (start & x & ->). rewrite last_app_one. pose proof (b2z_range x) as HX.
    destruct (Z.ltb_spec (zlen (start ++ [x])) (b2z x)) as [|HL]; [discriminate|]. set (text := start ++ [x]) in *. destruct (forallb _ _) eqn:EF; [|discriminate]. intros E.
    assert (E' : takeZ (zlen text - b2z x) text = pt) by congruence. clear E. apply (proj1 (all_padding (b2z x) _ HX)) in EF.
    assert (EL : List.length (dropZ (zlen text - b2z x) text) = Z.to_nat (b2z x)). { pose proof (zlen_dropZ (zlen text - b2z x) text) as Z1. unfold zlen at 1 in Z1. lia. }
    rewrite EL, z2b_b2z in EF. exists (b2z x). split; [exact HX|]. unfold padding. rewrite z2b_b2z. split; [rewrite <- E', <- EF; symmetry; apply take_drop|]. split; [exact EM|]. exists start. reflexivity.
  - intros (n & Hn & E & EM & start & ES). rewrite EM. change (0 =? 0) with true. assert (HZ : zlen text <> 0) by (rewrite ES, zlen_app; change (zlen [z2b n]) with 1; pose proof (zlen_nonneg start); lia).
    destruct (Z.eqb_spec (zlen text) 0); [contradiction|]. cbn [negb orb]. assert (EL : last text x00 = z2b n) by (rewrite ES; apply last_app_one). rewrite EL, b2z_z2b, (Z.mod_small n 256) by lia. pose proof (zlen_padding n ltac:(lia)) as ZP.
    assert (ZL : zlen text = zlen pt + n) by (rewrite E, zlen_app, ZP; reflexivity). pose proof (zlen_nonneg pt). destruct (Z.ltb_spec (zlen text) n); [lia|].
    replace (zlen text - n) with (zlen pt) by lia. replace (dropZ (zlen pt) text) with (padding n) by (rewrite E, dropZ_app; reflexivity). replace (takeZ (zlen pt) text) with pt by (rewrite E, takeZ_app; reflexivity).
    rewrite (proj2 (all_padding n (padding n) Hn)); [reflexivity|]. unfold padding at 2. rewrite repeat_length. reflexivity.
Qed.
Lemma unpad_panic text block : 1 <= block -> (exists p, unpad text block = Panic p) <-> text <> [] /\ zlen text mod block = 0 /\ zlen text < b2z (last text x00).
Proof.
  intros HB. unfold unpad. destruct (Z.ltb_spec block 1); [lia|]. destruct (Z.eqb_spec (zlen text mod block) 0) as [EM|EM]; cbn [negb orb].
  - destruct (Z.eqb_spec (zlen text) 0) as [EN|EN].
    + split; [intros (p & C); discriminate|]. intros (HN & _). destruct text; [congruence|]. rewrite zlen_cons in EN. pose proof (zlen_nonneg text). lia.
    + destruct (Z.ltb_spec (zlen text) (b2z (last text x00))) as [L|L].
      * split; [|intros _; eauto]. intros _. split; [intros ->; apply EN; reflexivity|]. auto.
      * split; [intros (p & C); destruct (forallb _ _); discriminate|]. intros (_ & _ & C). lia.
  - split; [intros (p & C); discriminate|]. intros (_ & C & _). contradiction.
Qed.
Lemma strict_loose block pt text : 1 <= block < 256 -> padded block pt text -> loosely_padded block pt text.
Proof.
  intros HB (n & Hn & E & EM). exists n. split; [lia|]. split; [exact E|]. split; [exact EM|]. exists (pt ++ repeat (z2b n) (Z.to_nat (n - 1))). rewrite E, <- app_assoc. f_equal.
  unfold padding. replace (Z.to_nat n) with (Z.to_nat (n - 1) + 1)%nat by lia. rewrite repeat_app. reflexivity.
Qed.
Lemma pad_padded data block : 1 <= block < 256 -> exists text, pad data block = Some text /\ padded block data text.
Proof.
  intros HB. unfold pad. destruct (Z.ltb_spec block 1); [lia|]. pose proof (Z.mod_pos_bound (zlen data) block ltac:(lia)) as HM. set (n := block - zlen data mod block) in *.
  eexists. split; [reflexivity|]. exists n. split; [lia|]. split; [reflexivity|]. rewrite zlen_app. change (repeat (z2b n) (Z.to_nat n)) with (padding n). rewrite zlen_padding by lia.
  pose proof (Z.div_mod (zlen data) block ltac:(lia)) as HD. replace (zlen data + n) with ((zlen data / block + 1) * block) by lia. apply Z.mod_mul. lia.
Qed.

(** *** Algorithms *)
Lemma block_size c : blockSize c = block_length c. Proof. destruct c; reflexivity. Qed.
Lemma key_fits c key : keyFits c key = true <-> In (zlen key) (key_lengths c).
Proof.
  destruct c; cbn [keyFits key_lengths In]; rewrite ?orb_true_iff, ?Z.eqb_eq; intuition congruence.
Qed.
Lemma cipher_cbc o c : contentCipher o = Some (c, true) <-> In (o, c) cbc_algorithms.
Proof.
  unfold contentCipher, cbc_algorithms. cbn [In]. split.
  - destruct (oidEqual o oidDesCbc) eqn:E1; [apply oidEqual_iff in E1 as ->; intros H; left; injection H as <-; reflexivity|].
    destruct (oidEqual o oidDesEde3Cbc) eqn:E2; [apply oidEqual_iff in E2 as ->; intros H; right; left; injection H as <-; reflexivity|].
    destruct (oidEqual o oidAes256Cbc) eqn:E3; [apply oidEqual_iff in E3 as ->; intros H; right; right; left; injection H as <-; reflexivity|].
    destruct (oidEqual o oidAes128Gcm) eqn:E4; [discriminate|].
    destruct (oidEqual o oidAes128Cbc) eqn:E5; [apply oidEqual_iff in E5 as ->; intros H; right; right; right; left; injection H as <-; reflexivity|discriminate].
  - intros [E|[E|[E|[E|[]]]]]; injection E as <- <-; reflexivity.
Qed.
Lemma cipher_gcm o c : contentCipher o = Some (c, false) <-> o = gcm_algorithm /\ c = Aes.
Proof.
  unfold contentCipher. split; [|intros (-> & ->); reflexivity].
  destruct (oidEqual o oidDesCbc); [discriminate|]. destruct (oidEqual o oidDesEde3Cbc); [discriminate|]. destruct (oidEqual o oidAes256Cbc); [discriminate|].
  destruct (oidEqual o oidAes128Gcm) eqn:E4; [|destruct (oidEqual o oidAes128Cbc); discriminate]. apply oidEqual_iff in E4 as ->. intros H. split; [reflexivity|congruence].
Qed.

Section P.
  Variable X : textenv.
  Variable C : ciphers.

  Lemma int_noparams old z oc f r : element 0 2 false oc f -> integer_octets oc z -> zlen oc <= 8 -> parseField X TyInt noParams old (f ++ r) = (VInt z, Some r).
  Proof.
    intros HE HO HZ. rewrite (field_parse X TyInt noParams old 0 2 false oc f r false TagInteger false); try assumption; try reflexivity; try discriminate; try (right; auto; fail).
    cbn [parseContent]. rewrite (proj2 (parseInt64_iff oc z) (conj HO HZ)). reflexivity.
  Qed.
  Lemma int_plain old z f r : integer_element z f -> - 2 ^ 63 <= z < 2 ^ 63 -> zlen f < 2 ^ 31 -> parseField X TyInt noParams old (f ++ r) = (VInt z, Some r).
  Proof.
    intros (oc & HO & HD) HR HL. pose proof (der_element_size _ _ _ _ _ HD). apply der_element_element in HD; [|lia]. apply (int_noparams old z oc); [exact HD|exact HO|].
    rewrite (integer_octets_unique _ _ _ HO (proj1 (encodeInt64_octets z HR))). apply (proj1 (parseInt64_iff _ z)). apply parse_encode_int64. exact HR.
  Qed.
  Lemma sixteen oc : integer_octets oc 16 -> zlen oc <= 8.
  Proof. intros H. assert (E : parseBigInt [x10] = Some 16) by reflexivity. apply parseBigInt_iff in E. rewrite (integer_octets_unique _ _ _ H E). change (zlen [x10]) with 1. lia. Qed.
  Lemma tagged_bytes t old b f r : element 2 t false b f -> parseField X TyBytes (pTag t) old (f ++ r) = (VBytes b, Some r).
  Proof.
    intros HE. rewrite (field_parse X TyBytes (pTag t) old 2 t false b f r false TagOctetString false); try assumption; try reflexivity; try discriminate; right; auto.
  Qed.
  Lemma fields_split p t fs olds s l : parseFields X (FCons p t fs) olds s = (l, true) ->
    exists v s1 l', parseField X t p (match olds with o :: _ => o | [] => zeroVal t end) s = (v, Some s1) /\ parseFields X fs (tl olds) s1 = (l', true) /\ l = v :: l'.
  Proof.
    rewrite parseFields_cons. destruct (parseField X t p _ s) as [v [s1|]]; [|congruence]. destruct (parseFields X fs (tl olds) s1) as [l' ok] eqn:E.
    intros H. assert (ok = true) as -> by congruence. exists v, s1, l'. repeat split; [exact E|congruence].
  Qed.
  Lemma gcm_iff params nonce icv : (exists rest, unmarshal X tyGcmParams params = (VStruct [] [VBytes nonce; VInt icv], Some rest)) /\ icv = 16 <-> gcm_params params nonce icv /\ icv = 16.
  Proof.
    split.
    - intros ((rest & E) & ->). split; [|reflexivity]. unfold unmarshal, tyGcmParams in E. apply parseField_mandatory in E; [|discriminate|reflexivity|reflexivity]. destruct E as (t & u & inner & _ & HH & HC).
      apply (parseHeader_universal _ _ _ _ _ _ TagSequence true) in HH; [|reflexivity|discriminate|discriminate]. destruct HH as (full & E & HE). cbn [parseContent] in HC.
      destruct (parseFields X _ _ inner) as [l ok] eqn:EF. destruct ok; [|discriminate]. assert (l = [VBytes nonce; VInt 16]) as -> by congruence.
      apply fields_split in EF as (v & s1 & l' & E1 & EF & EL). assert (v = VBytes nonce /\ l' = [VInt 16]) as (-> & ->) by (split; congruence).
      apply fields_split in EF as (v & s2 & l'' & E2 & EF & EL'). assert (v = VInt 16) as -> by congruence.
      apply parseField_mandatory in E1; [|discriminate|reflexivity|reflexivity]. destruct E1 as (t1 & u1 & in1 & _ & HH1 & HC1). apply parseHeader_inv in HH1 as (pre & f1 & -> & HE1 & Hp1 & any & ut & comp & HU & -> & Hk & Ht). rewrite Hp1 in * by (left; reflexivity).
      cbn [parseContent] in HC1. assert (in1 = nonce) as -> by congruence. cbn [getUniversalType] in HU. injection HU as <- <- <-. cbn [expected fp_tag fp_explicit fp_private fp_application pTag] in Ht. destruct (Ht eq_refl) as (T1 & T2). rewrite T1, T2, (Hk eq_refl) in HE1.
      apply parseField_mandatory in E2; [|discriminate|reflexivity|reflexivity]. destruct E2 as (t2 & u2 & in2 & _ & HH2 & HC2). apply (parseHeader_universal _ _ _ _ _ _ TagInteger false) in HH2; [|reflexivity|discriminate|discriminate]. destruct HH2 as (f2 & -> & HE2).
      cbn [parseContent] in HC2. unfold leafValue in HC2. destruct (parseInt64 in2) as [z|] eqn:EI; [|discriminate]. assert (z = 16) as -> by congruence. apply parseInt64_iff in EI as (HI & _).
      exists full, rest, (f1 ++ f2 ++ s2), f1, f2, s2. cbn [app] in *. split; [exact E|]. split; [exact HE|]. split; [reflexivity|]. split; [exact HE1|]. exists in2. split; [exact HE2|exact HI].
    - intros ((f & rest & c & n & i & more & -> & HE & -> & HN & oc & HI & HO) & ->). split; [|reflexivity]. exists rest. unfold unmarshal, tyGcmParams.
      rewrite (field_parse X _ noParams _ 0 16 true (n ++ i ++ more) f rest false TagSequence true); try assumption; try reflexivity; try discriminate; try (right; auto; fail).
      cbn [parseContent]. rewrite parseFields_cons, (tagged_bytes 4 _ nonce n _ HN), parseFields_cons, (int_noparams _ 16 oc i more HI HO (sixteen oc HO)). reflexivity.
  Qed.
  Lemma gcm_shape params v rest : unmarshal X tyGcmParams params = (v, Some rest) -> exists nonce icv, v = VStruct [] [VBytes nonce; VInt icv].
  Proof.
    intros E. unfold unmarshal, tyGcmParams in E. apply parseField_mandatory in E; [|discriminate|reflexivity|reflexivity]. destruct E as (t & u & inner & _ & _ & HC). cbn [parseContent] in HC.
    destruct (parseFields X _ _ inner) as [l ok] eqn:EF. destruct ok; [|discriminate]. assert (v = VStruct [] l) as -> by congruence.
    apply fields_split in EF as (v1 & s1 & l' & E1 & EF & ->). apply fields_split in EF as (v2 & s2 & l'' & E2 & EF & ->). cbn [parseFields] in EF. assert (l'' = []) as -> by congruence.
    apply parseField_mandatory in E1; [|discriminate|reflexivity|reflexivity]. destruct E1 as (? & ? & in1 & _ & _ & HC1). cbn [parseContent] in HC1. assert (v1 = VBytes in1) as -> by congruence.
    apply parseField_mandatory in E2; [|discriminate|reflexivity|reflexivity]. destruct E2 as (? & ? & in2 & _ & _ & HC2). cbn [parseContent] in HC2. unfold leafValue in HC2. destruct (parseInt64 in2) as [z|]; [|discriminate]. assert (v2 = VInt z) as -> by congruence.
    eauto.
  Qed.

  Lemma decryptContent_iff e key pt : (decryptContent X C e key = Ret (Some pt) <-> opens loosely_padded C (en_alg e) (en_params e) (cyphertext X e) key pt).
  Proof.
    unfold decryptContent. split.
    - destruct (contentCipher (en_alg e)) as [[c cbc]|] eqn:EC; [|discriminate]. destruct (keyFits c key) eqn:EK; [|discriminate]. cbn [negb]. apply key_fits in EK. destruct cbc.
      + apply cipher_cbc in EC. destruct (Z.eqb_spec (zlen (en_params e)) (blockSize c)) as [EP|]; [|discriminate]. cbn [negb]. destruct (Z.eqb_spec (zlen (cyphertext X e) mod blockSize c) 0) as [EM|]; [|discriminate]. cbn [negb].
        rewrite block_size in *. intros H. apply unpad_iff in H; [|destruct c; cbn; lia]. eapply by_cbc; eassumption.
      + apply cipher_gcm in EC as (EA & ->). destruct (unmarshal X tyGcmParams (en_params e)) as [v [rest|]] eqn:EU; [|discriminate]. destruct (gcm_shape _ _ _ EU) as (nonce & icv & ->).
        cbn [field nth asBytes asInt]. destruct (Z.eqb_spec (zlen nonce) 12) as [EN|]; [|discriminate]. cbn [negb]. destruct (Z.eqb_spec icv 16) as [EI|]; [|discriminate]. cbn [negb]. intros H.
        eapply (by_gcm _ _ _ _ _ _ _ nonce); [exact EA|exact EK| |exact EN|congruence]. subst icv. apply (proj1 (gcm_iff (en_params e) nonce 16)). split; [eauto|reflexivity].
    - intros [c HA HK HP HM HR|nonce HA HK HG HN HO].
      + apply cipher_cbc in HA. rewrite HA. apply key_fits in HK. rewrite HK. cbn [negb]. rewrite block_size, HP, Z.eqb_refl, HM. change (0 =? 0) with true. cbn [negb]. apply unpad_iff; [destruct c; cbn; lia|exact HR].
      + rewrite (proj2 (cipher_gcm (en_alg e) Aes)) by auto. apply key_fits in HK. rewrite HK. cbn [negb]. destruct (proj2 (gcm_iff (en_params e) nonce 16) (conj HG eq_refl)) as ((rest & EU) & _). rewrite EU. cbn [field nth asBytes asInt].
        rewrite HN. change (12 =? 12) with true. change (16 =? 16) with true. cbn [negb]. rewrite HO. reflexivity.
  Qed.

  (** *** The octet strings in a content *)
  Lemma octets_one b f r : der_element 0 4 false b f -> zlen f < 2 ^ 31 -> unmarshal X TyBytes (f ++ r) = (VBytes b, Some r).
  Proof. intros HD HL. unfold unmarshal. apply (bytes_field X); assumption. Qed.
  Lemma octetParts_all l : forall fs fuel, Forall2 (der_element 0 4 false) l fs -> Forall (fun f => zlen f < 2 ^ 31) fs -> (List.length (concat fs) <= fuel)%nat -> octetParts X fuel (concat fs) = concat l.
  Proof.
    intros fs fuel H. revert fuel. induction H as [|b f l fs H F IH]; intros fuel HS HL.
    - cbn [concat]. destruct fuel; reflexivity.
    - inversion HS as [|? ? S1 S2]; subst. cbn [concat] in *. rewrite app_length in HL. pose proof (der_element_size _ _ _ _ _ H) as HZ. pose proof (zlen_nonneg b). assert (1 <= List.length f)%nat by (unfold zlen in *; lia).
      destruct fuel as [|fuel]; [lia|]. cbn [octetParts]. rewrite (octets_one b f _ H S1). cbn [asBytes]. f_equal. apply IH; [exact S2|lia].
  Qed.
End P.
