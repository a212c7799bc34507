(** Strings and times read into an interface (C82, C83). *)
From Coq Require Import Lia ZifyBool.
From Verif.Model Require Import Bytes Env Asn1 GoTime GoUtf8.
From Verif.Spec Require Import Asn1 Asn1Value Time Text.
From Verif.Proofs Require Import BytesFacts Asn1Header Asn1Value Asn1Decode TimeFacts TextFacts.

Lemma parseAny_iff X s v rest : parseAny X VNil s = (VAny v, Some rest) <->
  exists tag content full, s = full ++ rest /\ element 0 tag false content full /\
    Some v = (if existsb (Z.eqb tag) [TagPrintableString; TagNumericString; TagIA5String; TagT61String; TagUTF8String; TagBMPString]
              then option_map VString (parseString X tag content)
              else if tag =? TagInteger then option_map VInt (parseInt64 content)
              else if tag =? TagBitString then option_map (fun p => VBits (fst p) (snd p)) (parseBitString content)
              else if tag =? TagOID then option_map VOid (parseObjectIdentifier content)
              else if tag =? TagUTCTime then option_map VTime (x_utc X content)
              else if tag =? TagGeneralizedTime then option_map VTime (x_generalized X content)
              else if tag =? TagOctetString then Some (VBytes content)
              else None).
Proof.
  unfold parseAny. split.
  - destruct (parseTagAndLength s) as [[t s1]|] eqn:E; [|discriminate].
    destruct (zlen s1 <? tl_length t) eqn:B; [discriminate|].
    destruct (parse_element _ _ _ E ltac:(lia)) as (full & Es & Hel).
    destruct (tl_compound t) eqn:Ec; [cbn [negb andb]; discriminate|]. cbn [negb andb].
    destruct (tl_class t =? ClassUniversal) eqn:El; [|discriminate]. assert (tl_class t = 0) as El' by (unfold ClassUniversal in El; lia). rewrite El' in Hel.
    intros H. exists (tl_tag t), (takeZ (tl_length t) s1), full.
    assert (rest = dropZ (tl_length t) s1 /\ Some v =
      (if existsb (Z.eqb (tl_tag t)) [TagPrintableString; TagNumericString; TagIA5String; TagT61String; TagUTF8String; TagBMPString]
       then option_map VString (parseString X (tl_tag t) (takeZ (tl_length t) s1))
       else if tl_tag t =? TagInteger then option_map VInt (parseInt64 (takeZ (tl_length t) s1))
       else if tl_tag t =? TagBitString then option_map (fun p => VBits (fst p) (snd p)) (parseBitString (takeZ (tl_length t) s1))
       else if tl_tag t =? TagOID then option_map VOid (parseObjectIdentifier (takeZ (tl_length t) s1))
       else if tl_tag t =? TagUTCTime then option_map VTime (x_utc X (takeZ (tl_length t) s1))
       else if tl_tag t =? TagGeneralizedTime then option_map VTime (x_generalized X (takeZ (tl_length t) s1))
       else if tl_tag t =? TagOctetString then Some (VBytes (takeZ (tl_length t) s1)) else None)) as [-> Hv].
    { revert H. cbv zeta.
      destruct (existsb _ _). { destruct (parseString X _ _); cbn [option_map]; intros H; [split; congruence | congruence]. }
      destruct (_ =? TagInteger). { destruct (parseInt64 _); cbn [option_map]; intros H; [split; congruence | congruence]. }
      destruct (_ =? TagBitString). { destruct (parseBitString _); cbn [option_map]; intros H; [split; congruence | congruence]. }
      destruct (_ =? TagOID). { destruct (parseObjectIdentifier _); cbn [option_map]; intros H; [split; congruence | congruence]. }
      destruct (_ =? TagUTCTime). { destruct (x_utc X _); cbn [option_map]; intros H; [split; congruence | congruence]. }
      destruct (_ =? TagGeneralizedTime). { destruct (x_generalized X _); cbn [option_map]; intros H; [split; congruence | congruence]. }
      destruct (_ =? TagOctetString); intros H; [split; congruence | congruence]. }
    auto.
  - intros (tag & content & full & -> & Hel & Hv).
    rewrite (element_parse _ _ _ _ _ rest Hel). unfold hd. cbn [tl_length tl_compound tl_class tl_tag].
    rewrite zlen_app. assert (zlen content + zlen rest <? zlen content = false) as -> by (pose proof (zlen_nonneg rest); lia).
    rewrite takeZ_app, dropZ_app by reflexivity. change (0 =? ClassUniversal) with true. cbn [negb andb]. cbv zeta. revert Hv.
    destruct (existsb _ _). { destruct (parseString X _ _); cbn [option_map]; intros H; congruence. }
    destruct (_ =? TagInteger). { destruct (parseInt64 _); cbn [option_map]; intros H; congruence. }
    destruct (_ =? TagBitString). { destruct (parseBitString _); cbn [option_map]; intros H; congruence. }
    destruct (_ =? TagOID). { destruct (parseObjectIdentifier _); cbn [option_map]; intros H; congruence. }
    destruct (_ =? TagUTCTime). { destruct (x_utc X _); cbn [option_map]; intros H; congruence. }
    destruct (_ =? TagGeneralizedTime). { destruct (x_generalized X _); cbn [option_map]; intros H; congruence. }
    destruct (_ =? TagOctetString); intros H; congruence.
Qed.

Lemma parseString_iff tag content s : In tag [19; 18; 22; 20; 12; 30] -> (parseString goText tag content = Some s <-> string_text tag content s).
Proof.
  intros Hin. unfold string_text. cbn [In] in Hin.
  destruct Hin as [<- | [<- | [<- | [<- | [<- | [<- | []]]]]]]; unfold parseString; cbn -[isNumeric utf8Valid utf16String uint16s stripTerminator forallb Z.modulo].
  - split; [intros H; left; split; [auto | congruence] |]. intros [[_ ->] | H]; [reflexivity | exfalso; lia].
  - destruct (forallb isNumeric content) eqn:E.
    + split; [|intros [H | [(_ & -> & _) | H]]; [exfalso; lia | reflexivity | exfalso; lia]].
      intros H. right; left. split; [reflexivity|]. split; [congruence|]. apply Forall_forall. intros c Hc. rewrite forallb_forall in E. specialize (E c Hc). unfold isNumeric in E. lia.
    + split; [discriminate|]. intros [H | [(_ & -> & H) | H]]; [exfalso; lia | | exfalso; lia]. exfalso.
      assert (forallb isNumeric content = true); [|congruence]. apply forallb_forall. intros c Hc. rewrite Forall_forall in H. specialize (H c Hc). unfold isNumeric. lia.
  - destruct (forallb (fun c => b2z c <? 128) content) eqn:E.
    + split; [|intros [H | [H | [(_ & -> & _) | H]]]; [exfalso; lia | exfalso; lia | reflexivity | exfalso; lia]].
      intros H. right; right; left. split; [reflexivity|]. split; [congruence|]. apply Forall_forall. intros c Hc. rewrite forallb_forall in E. specialize (E c Hc). cbn beta in E. lia.
    + split; [discriminate|]. intros [H | [H | [(_ & -> & H) | H]]]; [exfalso; lia | exfalso; lia | | exfalso; lia]. exfalso.
      assert (forallb (fun c => b2z c <? 128) content = true); [|congruence]. apply forallb_forall. intros c Hc. rewrite Forall_forall in H. specialize (H c Hc). cbn beta. lia.
  - split; [intros H; left; split; [auto | congruence] |]. intros [[_ ->] | H]; [reflexivity | exfalso; lia].
  - pose proof (utf8Valid_iff content) as HU. destruct (utf8Valid content) eqn:E.
    + split; [|intros [H | [H | [H | [(_ & -> & _) | H]]]]; [exfalso; lia | exfalso; lia | exfalso; lia | reflexivity | exfalso; lia]].
      intros H. right; right; right; left. split; [reflexivity|]. split; [congruence|]. apply HU. reflexivity.
    + split; [discriminate|]. intros [H | [H | [H | [(_ & -> & H) | H]]]]; [exfalso; lia | exfalso; lia | exfalso; lia | | exfalso; lia].
      apply HU in H. discriminate.
  - pose proof (bmp_iff content s) as HB. destruct (zlen content mod 2 =? 0) eqn:E.
    + split; [intros H; right; right; right; right; split; [reflexivity|]; apply HB; split; [lia | congruence]|].
      intros [H | [H | [H | [H | [_ H]]]]]; try (exfalso; lia). apply HB in H. destruct H as [_ ->]. reflexivity.
    + split; [discriminate|]. intros [H | [H | [H | [H | [_ H]]]]]; try (exfalso; lia). apply HB in H. exfalso; lia.
Qed.
