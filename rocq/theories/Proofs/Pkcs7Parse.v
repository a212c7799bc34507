(** pkcs7.Parse: what the signers of a parsed object look like *)
From Coq Require Import Lia.
From Verif.Model Require Import Bytes Env Ber Asn1 Pkcs7.
From Verif.Spec Require Import Ber Asn1 Asn1Value Pkcs7.
From Verif.Proofs Require Import BytesFacts BerFacts Asn1Codec Asn1Header Asn1Value Asn1Decode DerFacts DerSize Pkcs7Facts.

Lemma parseElems_each X elem n : forall s vs, parseElems X elem n s = Some vs ->
  Forall (fun v => exists s r, parseField X elem noParams (zeroVal elem) s = (v, Some r)) vs.
Proof.
  induction n as [|n IH]; intros s vs H.
  - assert (vs = []) as -> by (cbn in H; congruence). constructor.
  - cbn [parseElems] in H. fold (parseElems X elem) in H. destruct (parseField X elem noParams (zeroVal elem) s) as [v [r|]] eqn:E1; [|discriminate].
    destruct (parseElems X elem n r) as [l|] eqn:E2; [|discriminate]. assert (vs = v :: l) as -> by congruence. constructor; [eauto|]. eapply IH; exact E2.
Qed.
Lemma slice_fail X n e p old s v : parseField X (TySlice n e) p old s = (v, None) -> v = old.
Proof.
  destruct s as [|x xs].
  { cbn. destruct (setDefaultValue _ _ _); congruence. }
  intros H. destruct (parseHeader (TySlice n e) p (x :: xs)) as [| |rest|t u inner rest] eqn:EH.
  - cbn [parseField] in H. rewrite EH in H. congruence.
  - cbn [parseField] in H. rewrite EH in H. destruct (setDefaultValue _ _ _); congruence.
  - cbn [parseField] in H. rewrite EH in H. congruence.
  - rewrite (parseField_match X (TySlice n e) p old (x :: xs) t u inner rest ltac:(discriminate) ltac:(discriminate) EH) in H. cbn [parseContent] in H. unfold leafValue in H.
    destruct (countElements _ _ _); [|congruence]. destruct (parseElems _ _ _ _); congruence.
Qed.
Lemma slice_ok X n e p s v r : parseField X (TySlice n e) p VNil s = (v, Some r) ->
  (v = VNil /\ r = s /\ fp_optional p = true) \/ exists vs k t u inner, v = VSlice vs /\ parseHeader (TySlice n e) p s = HMatch t u inner r /\
    countElements (List.length inner) e inner = Some k /\ parseElems X e k inner = Some vs.
Proof.
  intros H. apply parseField_inv in H; [|discriminate]. destruct H as [(Ho & -> & Hd & _)|[(_ & _ & C)|(t & u & inner & _ & HH & HC)]].
  - left. unfold setDefaultValue in Hd. rewrite Ho in Hd. destruct (fp_default p); (split; [congruence|split; [reflexivity|exact Ho]]).
  - exfalso. unfold parseHeader in C. destruct (parseTagAndLength s) as [[t1 s1]|]; [|discriminate]. destruct (fp_explicit p); [|exact (matchBody_noflag _ _ _ _ _ C)].
    destruct s1; [discriminate|]. destruct (_ && _ && _); [|discriminate]. cbn [isRaw isFlag] in C. destruct (0 <? tl_length t1); [|discriminate].
    destruct (parseTagAndLength _) as [[? ?]|]; [|discriminate]. exact (matchBody_noflag _ _ _ _ _ C).
  - right. cbn [parseContent] in HC. unfold leafValue in HC. destruct (countElements _ _ _) as [k|] eqn:Ek; [|discriminate]. destruct (parseElems X e k inner) as [vs|] eqn:Ev; [|discriminate].
    exists vs, k, t, u, inner. repeat split; try assumption. congruence.
Qed.
Lemma parseFields_nil X olds s : parseFields X FNil olds s = ([], true). Proof. reflexivity. Qed.

Section P.
  Variable Q : p7env.
  Definition XX := q_text Q.

  (** A SignerInfo that was decoded *)
  Definition signer_decoded (v : goval) : Prop := exists s r, parseField XX tySignerInfo noParams (zeroVal tySignerInfo) s = (v, Some r).

  Lemma set_header c b : der_element 0 17 true c b -> zlen c < 2 ^ 32 -> zlen b <= zlen c + 6.
  Proof.
    intros (i & l & -> & ((_ & Hi) & Hs) & Hl) HL. apply der_length_size in Hl as (_ & _ & _ & _ & Hl); [|exact HL]. rewrite !zlen_app.
    assert (zlen i = 1); [|lia]. destruct Hi as [(_ & ->)|(x & _ & _ & _ & ->)]; [reflexivity|]. exfalso.
    destruct (Hs _ _ eq_refl) as (C & _); [|lia]. reflexivity.
  Qed.
  Lemma signer_attributes v : signer_decoded v -> Forall attribute_ok (ps_auth_attrs (signerInfoOf Q v)) /\
    exists c b, attributes_der (map said (ps_auth_attrs (signerInfoOf Q v))) c /\ der_element 0 17 true c b /\ zlen b < 2 ^ 31.
  Proof.
    intros (s & r & H). apply parseField_mandatory in H; [|discriminate|reflexivity|reflexivity]. destruct H as (t & u & inner & _ & HH & HC).
    apply (parseHeader_universal _ _ _ _ _ _ TagSequence true) in HH; [|reflexivity|discriminate|discriminate]. destruct HH as (full & -> & HE). apply element_len in HE.
    unfold tySignerInfo in HC. cbn [parseContent] in HC. destruct (parseFields XX _ _ inner) as [l ok] eqn:EF. destruct ok; [|discriminate]. assert (v = VStruct [] l) as -> by congruence. clear HC.
    cbn [zeroVal zeroFields fieldsOf] in EF.
    rewrite parseFields_cons in EF. destruct (parseField XX TyInt _ _ inner) as [v0 [s1|]] eqn:E0; [|discriminate].
    rewrite parseFields_cons in EF. destruct (parseField XX tyIssuerAndSerial _ _ s1) as [v1 [s2|]] eqn:E1; [|discriminate].
    rewrite parseFields_cons in EF. destruct (parseField XX tyAlgorithm _ _ s2) as [v2 [s3|]] eqn:E2; [|discriminate].
    rewrite parseFields_cons in EF. destruct (parseField XX tyAttributes _ _ s3) as [v3 [s4|]] eqn:E3; [|discriminate].
    destruct (parseFields XX _ _ s4) as [l4 ok4]. assert (l = v0 :: v1 :: v2 :: v3 :: l4) as -> by congruence. clear EF.
    unfold signerInfoOf. cbn [ps_auth_attrs field nth].
    apply parseField_consumes in E0 as (h0 & -> & L0). apply parseField_consumes in E1 as (h1 & -> & L1). apply parseField_consumes in E2 as (h2 & -> & L2).
    specialize (L0 eq_refl). specialize (L1 eq_refl). specialize (L2 eq_refl). rewrite !zlen_app in HE.
    cbn [tl zeroVal] in E3. apply slice_ok in E3 as [(-> & _ & _)|(vs & k & t3 & u3 & in3 & -> & HH3 & _ & EV)].
    - cbn [asSlice map]. split; [constructor|]. exists [], (appendTagAndLength (hd 0 17 (zlen ([] : bytes)) true) ++ []). split; [constructor|]. split; [apply append_der_element; [lia|unfold max_int32; lia|reflexivity]|vm_compute; reflexivity].
    - apply parseHeader_inv in HH3 as (pre & full3 & -> & HE3 & _). apply element_size in HE3. rewrite !zlen_app in HE. pose proof (zlen_nonneg pre). pose proof (zlen_nonneg s4).
      apply attributes_parsed in EV as (HF & c & HD & HL). cbn [asSlice]. split; [exact HF|]. exists c, (appendTagAndLength (hd 0 17 (zlen c) true) ++ c). split; [exact HD|].
      assert (HDE : der_element 0 17 true c (appendTagAndLength (hd 0 17 (zlen c) true) ++ c)) by (apply append_der_element; [lia|unfold max_int32; lia|lia]).
      split; [exact HDE|]. apply set_header in HDE; [lia|]. change (2 ^ 32) with (2 * 2 ^ 31). lia.
  Qed.

  (** All signers of a SignedData come from a complete decoding of it. *)
  Lemma signed_data_signers data : let sd := unmarshal XX tySignedData data in
    asSlice (field 5 (fst sd)) <> [] -> (exists r, snd sd = Some r) /\ Forall signer_decoded (asSlice (field 5 (fst sd))).
  Proof.
    cbv zeta. unfold unmarshal. intros HN. destruct (parseField XX tySignedData noParams (zeroVal tySignedData) data) as [v res] eqn:E. cbn [fst snd] in *.
    destruct data as [|x xs]; [exfalso; apply HN; change (parseField XX tySignedData noParams (zeroVal tySignedData) []) with (zeroVal tySignedData, None : option bytes) in E; assert (v = zeroVal tySignedData) as -> by congruence; reflexivity|].
    destruct (parseHeader tySignedData noParams (x :: xs)) as [| |rest|t u inner rest] eqn:EH.
    - exfalso. apply HN. assert (E2 : parseField XX tySignedData noParams (zeroVal tySignedData) (x :: xs) = (zeroVal tySignedData, None)) by (unfold tySignedData in EH |- *; cbn [parseField]; rewrite EH; reflexivity). rewrite E2 in E. assert (v = zeroVal tySignedData) as -> by congruence. reflexivity.
    - exfalso. apply HN. assert (E2 : parseField XX tySignedData noParams (zeroVal tySignedData) (x :: xs) = (zeroVal tySignedData, None)) by (unfold tySignedData in EH |- *; cbn [parseField]; rewrite EH; reflexivity). rewrite E2 in E. assert (v = zeroVal tySignedData) as -> by congruence. reflexivity.
    - exfalso. exact (implicit_noflag _ noParams _ _ eq_refl EH).
    - rewrite (parseField_match XX tySignedData noParams _ (x :: xs) t u inner rest ltac:(discriminate) ltac:(discriminate) EH) in E. unfold tySignedData in E. cbn [parseContent] in E.
      destruct (parseFields XX _ _ inner) as [l ok] eqn:EF. assert (v = VStruct [] l) as -> by congruence. assert (res = if ok then Some rest else None) as -> by congruence. clear E.
      cbn [zeroVal zeroFields fieldsOf] in EF. cbn [field] in *.
      rewrite parseFields_cons in EF. destruct (parseField XX TyInt _ _ inner) as [v0 [s1|]] eqn:E0; cbn [tl] in EF;
        [|exfalso; apply HN; match type of EF with (?x, _) = _ => assert (l = x) as -> by congruence end; reflexivity].
      rewrite parseFields_cons in EF. destruct (parseField XX _ _ _ s1) as [v1 [s2|]] eqn:E1; cbn [tl] in EF;
        [|exfalso; apply HN; match type of EF with (?x, _) = _ => assert (l = x) as -> by congruence end; reflexivity].
      rewrite parseFields_cons in EF. destruct (parseField XX _ _ _ s2) as [v2 [s3|]] eqn:E2; cbn [tl] in EF;
        [|exfalso; apply HN; match type of EF with (?x, _) = _ => assert (l = x) as -> by congruence end; reflexivity].
      rewrite parseFields_cons in EF. destruct (parseField XX _ _ _ s3) as [v3 [s4|]] eqn:E3; cbn [tl] in EF;
        [|exfalso; apply HN; match type of EF with (?x, _) = _ => assert (l = x) as -> by congruence end; reflexivity].
      rewrite parseFields_cons in EF. destruct (parseField XX _ _ _ s4) as [v4 [s5|]] eqn:E4; cbn [tl] in EF;
        [|exfalso; apply HN; match type of EF with (?x, _) = _ => assert (l = x) as -> by congruence end; reflexivity].
      rewrite parseFields_cons in EF. destruct (parseField XX _ _ _ s5) as [v5 [s6|]] eqn:E5; cbn [tl] in EF.
      + rewrite parseFields_nil in EF. cbv beta iota zeta in EF. assert (l = [v0; v1; v2; v3; v4; v5] /\ ok = true) as [-> ->] by (split; congruence).
        split; [eauto|]. cbn [nth] in *. apply slice_ok in E5 as [(-> & _)|(vs & k & t5 & u5 & in5 & -> & _ & _ & EV)]; [exfalso; apply HN; reflexivity|].
        cbn [asSlice]. exact (parseElems_each XX tySignerInfo k in5 vs EV).
      + apply slice_fail in E5. exfalso. apply HN. match type of EF with (?x, _) = _ => assert (l = x) as -> by congruence end. rewrite E5. reflexivity.
  Qed.

  Lemma parse_signers data p : pkcs7Parse Q data = Ret (Some p) -> p7_signers p <> [] ->
    exists der rest info sd, ber2der data = BRet der /\ unmarshal XX tyContentInfo der = (info, Some []) /\ asOid (field 0 info) = oidSignedData /\
      unmarshal XX tySignedData (rawBytes (field 1 info)) = (sd, Some rest) /\
      p7_signers p = map (signerInfoOf Q) (asSlice (field 5 sd)) /\ Forall signer_decoded (asSlice (field 5 sd)).
  Proof.
    unfold pkcs7Parse. change (X Q) with XX. intros H HN. destruct data as [|x xs]; [discriminate|]. destruct (ber2der (x :: xs)) as [der| | |] eqn:EB; try discriminate.
    destruct (unmarshal XX tyContentInfo der) as [info [[|y ys]|]] eqn:EU; try discriminate.
    destruct (oidEqual (asOid (field 0 info)) oidSignedData) eqn:EO.
    - assert (HS : parseSignedData Q (rawBytes (field 1 info)) = Some p) by congruence. clear H. unfold parseSignedData in HS. change (X Q) with XX in HS. set (d := rawBytes (field 1 info)) in *.
      destruct (unmarshal XX tySignedData d) as [sd res] eqn:ES. cbv zeta in HS. cbn [fst] in HS.
      assert (HP : p7_signers p = map (signerInfoOf Q) (asSlice (field 5 sd))).
      { destruct (parseRawCertificates Q _); [|discriminate]. match type of HS with match ?x with _ => _ end = _ => destruct x; [|discriminate] end.
        match type of HS with (if ?x then _ else _) = _ => destruct x; [discriminate|] end. assert (E : p7_signers p = p7_signers p) by reflexivity. revert E. injection HS as <-. reflexivity. }
      pose proof (signed_data_signers d) as HD. cbv zeta in HD. rewrite ES in HD. cbn [fst snd] in HD.
      destruct HD as ((r & ->) & HF). { intros C. apply HN. rewrite HP, C. reflexivity. }
      exists der, r, info, sd. repeat split; try assumption. clear -EO. revert EO. generalize (asOid (field 0 info)). generalize oidSignedData.
      induction o as [|a o IH]; intros [|b l]; cbn [oidEqual]; try discriminate; [reflexivity|]. intros H. apply andb_true_iff in H as [H1 H2]. apply Z.eqb_eq in H1. rewrite (IH l H2), H1. reflexivity.
    - exfalso. apply HN. destruct (oidEqual _ oidEnvelopedData); [|discriminate]. assert (HS : parseEnvelopedData Q (rawBytes (field 1 info)) = Some p) by congruence. unfold parseEnvelopedData in HS.
      destruct (unmarshal (X Q) tyEnvelopedData _) as [? [?|]]; [|discriminate]. injection HS as <-. reflexivity.
  Qed.
End P.
