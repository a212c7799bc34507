(** Signed attributes: decoding and encoding them again *)
From Coq Require Import Lia.
From Verif.Model Require Import Bytes Env Ber Asn1 Pkcs7.
From Verif.Spec Require Import Ber Asn1 Asn1Value Pkcs7.
From Verif.Proofs Require Import BytesFacts BerFacts Asn1Codec Asn1Header Asn1Value Asn1Decode DerFacts DerSize.

Lemma parseOid_octets s o : parseObjectIdentifier s = Some o -> oid_octets o s /\ valid_oid o.
Proof.
  intros H. apply parseOid_iff in H as (a & b & r & bs & -> & Ha & Hb & Hab & <- & F).
  assert (G : forall l bs, Forall2 (fun n c => base128_octets c n /\ zlen c <= 5 /\ n <= max_int32) l bs -> numbers_octets l (concat bs) /\ Forall (fun n => 0 <= n <= max_int32) l).
  { clear. intros l bs F. induction F as [|n c l bs (H1 & H2 & H3) F (I1 & I2)]; [split; constructor|]. cbn [concat]. split; [constructor; assumption|].
    constructor; [|exact I2]. apply base128_octets_nonneg in H1. lia. }
  apply G in F as (F1 & F2). inversion F2 as [|? ? H0 F3]; subst. split; [exists a, b, r; auto|]. exists a, b, r. repeat split; try assumption; lia.
Qed.
Lemma matchBody_noflag ty p t s r : matchBody ty p t s <> HFlag r.
Proof. unfold matchBody. destruct (getUniversalType ty) as [[[any ut] comp]|]; [|discriminate]. destruct (expected _ _ _) as [[? ?] ?]. destruct (_ || _); [discriminate|]. destruct (_ <? _); discriminate. Qed.
Lemma implicit_noflag ty p s r : fp_explicit p = false -> parseHeader ty p s <> HFlag r.
Proof. intros H. unfold parseHeader. destruct (parseTagAndLength s) as [[t s1]|]; [|discriminate]. rewrite H. apply matchBody_noflag. Qed.

Section P.
  Variable X : textenv.

  (* a mandatory field without an explicit tag *)
  Lemma parseField_mandatory ty p old s v r : ty <> TyAny -> fp_optional p = false -> fp_explicit p = false -> parseField X ty p old s = (v, Some r) ->
    exists t u inner, s <> [] /\ parseHeader ty p s = HMatch t u inner r /\ parseContent X ty old t u (takeZ (zlen s - zlen r) s) inner r = (v, Some r).
  Proof.
    intros Hty Ho He H. apply parseField_inv in H; [|exact Hty]. destruct H as [(C & _)|[(_ & _ & C)|H]]; [congruence| |exact H]. exfalso. exact (implicit_noflag _ _ _ _ He C).
  Qed.
  Lemma oid_parsed old s v r : parseField X TyOid noParams old s = (v, Some r) ->
    exists o octets full, v = VOid o /\ s = full ++ r /\ element 0 6 false octets full /\ parseObjectIdentifier octets = Some o.
  Proof.
    intros H. apply parseField_mandatory in H; [|discriminate|reflexivity|reflexivity]. destruct H as (t & u & inner & _ & HH & HC).
    apply (parseHeader_universal _ _ _ _ _ _ TagOID false) in HH; [|reflexivity|discriminate|discriminate]. destruct HH as (full & E & HE).
    cbn [parseContent] in HC. destruct (parseObjectIdentifier inner) as [o|] eqn:Eo; [|discriminate]. exists o, inner, full. repeat split; try assumption. congruence.
  Qed.
  Lemma raw_parsed p old s v r : fp_optional p = false -> fp_explicit p = false -> fp_tag p = None -> parseField X TyRaw p old s = (v, Some r) ->
    exists class tag compound content full, v = VRaw class tag compound content full /\ s = full ++ r /\ element class tag compound content full.
  Proof.
    intros Ho He Ht H. apply parseField_mandatory in H; [|discriminate|exact Ho|exact He]. destruct H as (t & u & inner & _ & HH & HC).
    apply parseHeader_inv in HH as (pre & full & -> & HE & Hp & _). rewrite Hp in * by (left; exact He). cbn [app] in *. cbn [parseContent] in HC.
    rewrite zlen_app, Z.add_simpl_r, takeZ_app in HC by reflexivity. do 5 eexists. split; [|split; [reflexivity|exact HE]]. congruence.
  Qed.

  Lemma attribute_parsed s v r : parseField X tyAttribute noParams (zeroVal tyAttribute) s = (v, Some r) ->
    attribute_ok (signerAttribute v) /\ exists h f, s = h ++ r /\ attribute_der (said (signerAttribute v)) f /\ zlen f <= zlen h.
  Proof.
    intros H. apply parseField_mandatory in H; [|discriminate|reflexivity|reflexivity]. destruct H as (t & u & inner & _ & HH & HC).
    apply (parseHeader_universal _ _ _ _ _ _ TagSequence true) in HH; [|reflexivity|discriminate|discriminate]. destruct HH as (full & -> & HE).
    unfold tyAttribute in HC. cbn [parseContent] in HC. destruct (parseFields X _ _ inner) as [l ok] eqn:EF. destruct ok; [|discriminate]. assert (v = VStruct [] l) as -> by congruence. clear HC.
    rewrite parseFields_cons in EF. destruct (parseField X TyOid noParams _ inner) as [v1 [s2|]] eqn:E1; [|discriminate].
    rewrite parseFields_cons in EF. destruct (parseField X TyRaw pSet _ s2) as [v2 [s3|]] eqn:E2; [|discriminate]. cbn [parseFields] in EF. assert (l = [v1; v2]) as -> by congruence. clear EF.
    apply oid_parsed in E1 as (o & octets & f1 & -> & -> & HE1 & Ho). apply raw_parsed in E2; try reflexivity. destruct E2 as (class & tag & compound & content & f2 & -> & -> & HE2).
    apply parseOid_octets in Ho as (Ho1 & Ho2). unfold signerAttribute, attribute_ok, said. cbn [field nth asOid rawBytes rawFull pa_type pa_value pa_full]. split.
    { split; [exact Ho2|]. exists class, tag, compound. exact HE2. }
    destruct (encodeOid_der o Ho2) as (oct' & _ & HD). pose proof (oid_min _ _ _ HD Ho1) as HM.
    destruct (element_min _ _ _ _ _ oct' HE1 HM) as (f1' & HD1 & HM1 & _).
    destruct (element_min _ _ _ _ _ (f1' ++ f2) HE) as (f & HDf & HMf & _). { rewrite !zlen_app. pose proof (zlen_nonneg s3). lia. }
    exists full, f. split; [reflexivity|]. split; [|exact HMf]. exists oct', f1'. auto.
  Qed.
  Lemma attributes_parsed n : forall s vs, parseElems X tyAttribute n s = Some vs ->
    Forall attribute_ok (map signerAttribute vs) /\ exists c, attributes_der (map said (map signerAttribute vs)) c /\ zlen c <= zlen s.
  Proof.
    induction n as [|n IH]; intros s vs H.
    - assert (vs = []) as -> by (cbn in H; congruence). split; [constructor|]. exists []. split; [constructor|]. pose proof (zlen_nonneg s). change (zlen ([] : bytes)) with 0. lia.
    - cbn [parseElems] in H. fold (parseElems X tyAttribute) in H. destruct (parseField X tyAttribute noParams (zeroVal tyAttribute) s) as [v [r|]] eqn:E1; [|discriminate].
      destruct (parseElems X tyAttribute n r) as [l|] eqn:E2; [|discriminate]. assert (vs = v :: l) as -> by congruence.
      apply attribute_parsed in E1 as (H1 & h & f & -> & H2 & H3). apply IH in E2 as (H4 & c & H5 & H6). cbn [map]. split; [constructor; assumption|].
      exists (f ++ c). split; [constructor; assumption|]. rewrite !zlen_app. lia.
  Qed.

  (** Encoding *)
  Lemma makeAttribute a : attribute_ok a -> exists octets f, oid_der (pa_type a) octets /\
    makeField X tyAttribute noParams (attributeVal a) = Some f /\
    f = appendTagAndLength (hd 0 16 (zlen (appendTagAndLength (hd 0 6 (zlen octets) false) ++ octets ++ pa_full a)) true) ++ appendTagAndLength (hd 0 6 (zlen octets) false) ++ octets ++ pa_full a.
  Proof.
    intros (Ho & class & tag & compound & HE). destruct (encodeOid_der _ Ho) as (octets & E & HD). exists octets. eexists. split; [exact HD|]. split; [|reflexivity].
    assert (HN : (zlen (pa_full a) =? 0) = false). { apply Z.eqb_neq. apply element_size in HE. pose proof (zlen_nonneg (pa_value a)). lia. }
    destruct Ho as (a1 & a2 & r & Ho & _). unfold attributeVal, tyAttribute. cbn [makeField makeFields]. rewrite Ho in *.
    cbn [andb negb orb fp_omitEmpty fp_optional fp_set fp_stringType fp_default noParams pSet getUniversalType isZero]. change (0 =? 0) with true. cbn [andb negb orb]. rewrite E, HN. cbn [negb].
    change (TagOID =? TagSequence) with false. unfold wrapTags. cbn [fp_tag noParams]. change {| tl_class := ClassUniversal; tl_tag := TagOID; tl_length := zlen octets; tl_compound := false |} with (hd 0 6 (zlen octets) false).
    rewrite app_nil_r, <- app_assoc. reflexivity.
  Qed.
  Lemma makeAttribute_der a f f' : attribute_ok a -> makeField X tyAttribute noParams (attributeVal a) = Some f -> attribute_der (said a) f' -> zlen f' < 2 ^ 31 -> f = f'.
  Proof.
    intros Ha HM (oct' & te & HD' & Hte & Hf') HL. destruct (makeAttribute a Ha) as (oct & f0 & HD & HM' & E). rewrite HM' in HM. assert (f = f0) as -> by congruence. rewrite E.
    cbn [said fst snd] in *. rewrite (oid_der_unique _ _ _ HD' HD) in *. pose proof (der_element_size _ _ _ _ _ Hf'). rewrite zlen_app in H. pose proof (zlen_nonneg (pa_full a)). pose proof (der_element_size _ _ _ _ _ Hte). pose proof (zlen_nonneg te). pose proof (zlen_nonneg oct).
    pose proof (der_element_append _ _ _ _ _ Hte ltac:(unfold max_int32; lia) ltac:(lia)) as E1.
    pose proof (der_element_append _ _ _ _ _ Hf' ltac:(unfold max_int32; lia) ltac:(rewrite zlen_app; lia)) as E2.
    rewrite E1 in E2. rewrite <- !app_assoc in E2. symmetry. exact E2.
  Qed.
  Lemma makeAttributes l : Forall attribute_ok l -> exists fs, mapM (makeField X tyAttribute noParams) (map attributeVal l) = Some fs /\
    forall c, attributes_der (map said l) c -> zlen c < 2 ^ 31 -> concat fs = c.
  Proof.
    induction 1 as [|a l Ha Hl (fs & IH1 & IH2)].
    - exists []. split; [reflexivity|]. intros c Hc _. inversion Hc. reflexivity.
    - destruct (makeAttribute a Ha) as (oct & f & _ & HM & _). exists (f :: fs). cbn [map mapM]. rewrite HM. fold (mapM (makeField X tyAttribute noParams)). rewrite IH1. split; [reflexivity|].
      intros c Hc HL. inversion Hc as [|x f' y c' Hf Hc']; subst. rewrite zlen_app in HL. pose proof (zlen_nonneg f'). pose proof (zlen_nonneg c'). cbn [concat].
      rewrite (makeAttribute_der a f f' Ha HM Hf) by lia. rewrite (IH2 c' Hc') by lia. reflexivity.
  Qed.
  Lemma makeField_set elem l : makeField X (TySlice false elem) pSet (VSlice l) =
    match mapM (makeField X elem noParams) l with Some bs => Some (appendTagAndLength (hd 0 17 (zlen (concat bs)) true) ++ concat bs) | None => None end.
  Proof.
    destruct l as [|x l]; [reflexivity|]. unfold makeField; fold (makeField X). cbn [andb negb orb fp_omitEmpty fp_optional fp_set fp_stringType fp_default pSet getUniversalType isZero].
    destruct (mapM (makeField X elem noParams) (x :: l)); reflexivity.
  Qed.
  Lemma makeField_struct fs l : makeField X (TyStruct false fs) noParams (VStruct [] l) =
    match makeFields X fs l with Some b => Some (appendTagAndLength (hd 0 16 (zlen b) true) ++ b) | None => None end.
  Proof. reflexivity. Qed.
  Lemma raw_parse p old c t k b f r : fp_explicit p = false -> fp_tag p = None -> element c t k b f ->
    parseField X TyRaw p old (f ++ r) = (VRaw c t k b f, Some r).
  Proof.
    intros He Ht HE. pose proof (element_size _ _ _ _ _ HE) as HS. pose proof (zlen_nonneg b) as HB. pose proof (zlen_nonneg r) as HR.
    assert (HH : parseHeader TyRaw p (f ++ r) = HMatch (hd c t (zlen b) k) (adjustTag p (hd c t (zlen b) k) (-1)) b r).
    { unfold parseHeader. rewrite (element_parse _ _ _ _ _ r HE), He. unfold matchBody. cbn [getUniversalType hd tl_length tl_class tl_tag tl_compound].
      unfold expected. rewrite Ht. cbn [negb andb orb]. destruct (Z.ltb_spec (zlen (b ++ r)) (zlen b)) as [C|C]; [rewrite zlen_app in C; lia|].
      rewrite takeZ_app, dropZ_app by reflexivity. reflexivity. }
    rewrite (parseField_match X TyRaw p old (f ++ r) _ _ _ _ ltac:(intros C; apply app_eq_nil in C as [-> _]; change (zlen ([] : bytes)) with 0 in HS; lia) ltac:(discriminate) HH).
    cbn [parseContent hd tl_class tl_tag tl_compound]. rewrite zlen_app, Z.add_simpl_r, takeZ_app by reflexivity. reflexivity.
  Qed.
  Lemma marshal_attributes l c b : Forall attribute_ok l -> attributes_der (map said l) c -> der_element 0 17 true c b -> zlen b < 2 ^ 31 ->
    match marshal X tyAttributeSet (VStruct [] [VSlice (map attributeVal l)]) with
    | None => None
    | Some b => Some (rawBytes (fst (unmarshal X TyRaw b)))
    end = Some b.
  Proof.
    intros HF HA HB HL. destruct (makeAttributes l HF) as (fs & HM & HC). pose proof (der_element_size _ _ _ _ _ HB) as HS.
    specialize (HC c HA ltac:(lia)).
    assert (E : marshal X tyAttributeSet (VStruct [] [VSlice (map attributeVal l)]) = Some (appendTagAndLength (hd 0 16 (zlen b) true) ++ b)).
    { unfold marshal, tyAttributeSet. rewrite makeField_struct, makeFields_cons. unfold tyAttributes. rewrite makeField_set, HM, HC.
      rewrite <- (der_element_append _ _ _ _ _ HB) by (unfold max_int32; lia). change (makeFields X FNil []) with (Some ([] : bytes)). cbv iota. rewrite app_nil_r. reflexivity. }
    rewrite E. clear E. f_equal. pose proof (zlen_nonneg b).
    pose proof (header_element 0 16 true b ltac:(lia) ltac:(unfold max_int32; lia) HL) as HEl. set (w := appendTagAndLength (hd 0 16 (zlen b) true) ++ b) in *.
    pose proof (raw_parse noParams (zeroVal TyRaw) 0 16 true b w [] eq_refl eq_refl HEl) as HP.
    rewrite app_nil_r in HP. unfold unmarshal. rewrite HP. reflexivity.
  Qed.

  (** Reading the attributes off their DER encoding *)
  Lemma element_prefix c t k b f c' t' k' b' f' r r' : element c t k b f -> element c' t' k' b' f' -> f ++ r = f' ++ r' ->
    c = c' /\ t = t' /\ k = k' /\ b = b' /\ f = f' /\ r = r'.
  Proof.
    intros H1 H2 E. pose proof (element_parse _ _ _ _ _ r H1) as E1. pose proof (element_parse _ _ _ _ _ r' H2) as E2. rewrite E, E2 in E1.
    assert (c = c' /\ t = t' /\ k = k' /\ zlen b = zlen b' /\ b ++ r = b' ++ r') as (-> & -> & -> & EL & EB).
    { unfold hd in E1. set (x := b' ++ r') in *. set (y := b ++ r) in *. repeat split; congruence. }
    assert (b = b') as ->. { rewrite <- (takeZ_app b r (zlen b) eq_refl), EB, takeZ_app by exact EL. reflexivity. }
    apply app_inv_head in EB as ->. apply app_inv_tail in E as ->. auto 6.
  Qed.
  Lemma oid_der_octets o b : oid_der o b -> oid_octets o b.
  Proof.
    intros (x & y & r & -> & H1 & H2 & H3 & H). exists x, y, r. repeat split; try tauto. clear -H. induction H as [|n b l bs (Hb & _) H IH]; constructor; assumption.
  Qed.
  Lemma oid_der_inj o o' b : valid_oid o -> valid_oid o' -> oid_der o b -> oid_der o' b -> o = o'.
  Proof.
    intros V V' H H'. pose proof (oid_der_encode o b V H) as E. pose proof (oid_der_encode o' b V' H') as E'.
    apply parse_encode_oid in E; [|exact V]. apply parse_encode_oid in E'; [|exact V']. congruence.
  Qed.
  Lemma attribute_der_prefix a a' f f' r r' : attribute_ok a -> attribute_ok a' -> attribute_der (said a) f -> attribute_der (said a') f' ->
    zlen f < 2 ^ 31 -> zlen f' < 2 ^ 31 -> f ++ r = f' ++ r' -> said a = said a' /\ pa_value a = pa_value a' /\ r = r'.
  Proof.
    intros (V & c & t & k & HE) (V' & c' & t' & k' & HE') (oc & te & HO & HT & HF) (oc' & te' & HO' & HT' & HF') HL HL' E. cbn [said fst snd] in *.
    pose proof (der_element_size _ _ _ _ _ HF) as S1. pose proof (der_element_size _ _ _ _ _ HF') as S2. rewrite zlen_app in S1, S2.
    pose proof (der_element_size _ _ _ _ _ HT) as S3. pose proof (der_element_size _ _ _ _ _ HT') as S4. pose proof (zlen_nonneg (pa_full a)). pose proof (zlen_nonneg (pa_full a')).
    apply der_element_element in HF; [|rewrite zlen_app; lia]. apply der_element_element in HF'; [|rewrite zlen_app; lia]. apply der_element_element in HT; [|lia]. apply der_element_element in HT'; [|lia].
    destruct (element_prefix _ _ _ _ _ _ _ _ _ _ _ _ HF HF' E) as (_ & _ & _ & EB & _ & ->).
    destruct (element_prefix _ _ _ _ _ _ _ _ _ _ _ _ HT HT' EB) as (_ & _ & _ & -> & _ & EF).
    pose proof (oid_der_inj _ _ _ V V' HO HO') as EO. rewrite EF in HE. destruct (element_unique _ _ _ _ _ _ _ _ _ HE HE') as (_ & _ & _ & EV). unfold said. rewrite EF, EO. auto.
  Qed.
  Lemma attributes_der_inj l : forall l' c, Forall attribute_ok l -> Forall attribute_ok l' -> attributes_der (map said l) c -> attributes_der (map said l') c -> zlen c < 2 ^ 31 ->
    map said l = map said l' /\ map pa_value l = map pa_value l'.
  Proof.
    assert (NE : forall a f, attribute_der a f -> f <> []). { intros a f (oc & te & _ & _ & H) ->. apply der_element_size in H. change (zlen ([] : bytes)) with 0 in H. pose proof (zlen_nonneg (te ++ snd a)). lia. }
    induction l as [|a l IH]; intros [|a' l'] c F F' H H' HL.
    - auto.
    - exfalso. inversion H; subst. inversion H' as [|x f y fs Hf Hfs Ex Ec]. apply app_eq_nil in Ec as [-> _]. exact (NE _ _ Hf eq_refl).
    - exfalso. inversion H'; subst. inversion H as [|x f y fs Hf Hfs Ex Ec]. apply app_eq_nil in Ec as [-> _]. exact (NE _ _ Hf eq_refl).
    - inversion F; inversion F'; subst. cbn [map] in H, H'. inversion H as [|x f y fs Hf Hfs Ex Ec]. inversion H' as [|x' f' y' fs' Hf' Hfs' Ex' Ec']. subst. rewrite zlen_app in HL.
      assert (HL2 : zlen f' + zlen fs' < 2 ^ 31) by (rewrite <- zlen_app, Ec'; rewrite zlen_app; exact HL).
      pose proof (zlen_nonneg f). pose proof (zlen_nonneg fs). pose proof (zlen_nonneg f'). pose proof (zlen_nonneg fs').
      destruct (attribute_der_prefix a a' f f' fs fs') as (E1 & E2 & ->); try assumption; try lia; [congruence|].
      destruct (IH l' fs') as (E3 & E4); try assumption; try lia. cbn [map]. rewrite E1, E2, E3, E4. auto.
  Qed.
End P.
