(** What a successful decoding says about the input *)
From Coq Require Import Lia.
From Verif.Model Require Import Bytes Env Ber Asn1.
From Verif.Spec Require Import Ber Asn1 Asn1Value.
From Verif.Proofs Require Import BytesFacts BerFacts Asn1Codec Asn1Header Asn1Value.

Lemma parse_element s t s1 : parseTagAndLength s = Some (t, s1) -> tl_length t <= zlen s1 ->
  exists full, s = full ++ dropZ (tl_length t) s1 /\ element (tl_class t) (tl_tag t) (tl_compound t) (takeZ (tl_length t) s1) full.
Proof.
  intros H HL. pose proof (parseHeader_rest _ _ _ H) as (_ & _ & _ & H0 & _). apply parseTagAndLength_iff in H as (id & l & -> & HI & HD).
  exists (id ++ l ++ takeZ (tl_length t) s1). split; [rewrite <- !app_assoc, take_drop; reflexivity|]. exists id, l. split; [reflexivity|]. split; [exact HI|].
  rewrite zlen_takeZ. replace (Z.max 0 (Z.min (tl_length t) (zlen s1))) with (tl_length t) by lia. exact HD.
Qed.
Lemma element_size c t k b f : element c t k b f -> zlen b + 2 <= zlen f.
Proof.
  intros (i & l & -> & (_ & Hi) & Hl). rewrite !zlen_app.
  assert (1 <= zlen i) by (destruct Hi as [(_ & ->)|(x & _ & _ & _ & ->)]; rewrite zlen_cons; [change (zlen ([] : bytes)) with 0; lia|pose proof (zlen_nonneg x); lia]).
  assert (1 <= zlen l) by (destruct Hl as [(_ & ->)|(d & _ & -> & _)]; rewrite zlen_cons; [change (zlen ([] : bytes)) with 0; lia|pose proof (zlen_nonneg d); lia]). lia.
Qed.
Lemma element_len c t k b f : element c t k b f -> zlen b < 2 ^ 31.
Proof. intros (i & l & _ & _ & [(H & _)|(d & _ & _ & _ & H)]); [change (2 ^ 31) with 2147483648; lia|exact H]. Qed.

Lemma matchBody_inv ty p t s1 t' u inner r : matchBody ty p t s1 = HMatch t' u inner r ->
  t' = t /\ tl_length t <= zlen s1 /\ inner = takeZ (tl_length t) s1 /\ r = dropZ (tl_length t) s1 /\
  exists any ut comp, getUniversalType ty = Some (any, ut, comp) /\ u = adjustTag p t ut /\
    (any = false -> tl_compound t = comp) /\
    (let '(ec, et, anyTag) := expected p any u in anyTag = false -> tl_class t = ec /\ tl_tag t = et).
Proof.
  unfold matchBody. destruct (getUniversalType ty) as [[[any ut] comp]|] eqn:EU; [|discriminate]. destruct (expected p any (adjustTag p t ut)) as [[ec et] ea] eqn:EE.
  destruct (_ || _) eqn:EC; [discriminate|]. destruct (Z.ltb_spec (zlen s1) (tl_length t)); [discriminate|]. intros E.
  assert (t' = t /\ u = adjustTag p t ut /\ inner = takeZ (tl_length t) s1 /\ r = dropZ (tl_length t) s1) as (-> & -> & -> & ->) by (repeat split; congruence).
  apply orb_false_iff in EC as [E1 E2]. repeat split; try lia. exists any, ut, comp. repeat split.
  - intros ->. cbn [negb andb] in E2. apply negb_false_iff in E2. apply Bool.eqb_prop in E2. exact E2.
  - rewrite EE. intros ->. cbn [negb andb] in E1. apply orb_false_iff in E1 as [E3 E4]. apply negb_false_iff, Z.eqb_eq in E3. apply negb_false_iff, Z.eqb_eq in E4. auto.
Qed.

(** A header that matches stands before an element. *)
Lemma parseHeader_inv ty p s t u inner r : parseHeader ty p s = HMatch t u inner r ->
  exists pre full, s = pre ++ full ++ r /\ element (tl_class t) (tl_tag t) (tl_compound t) inner full /\ (fp_explicit p = false \/ isRaw ty = true -> pre = []) /\
  exists any ut comp, getUniversalType ty = Some (any, ut, comp) /\ u = adjustTag p t ut /\
    (any = false -> tl_compound t = comp) /\
    (let '(ec, et, anyTag) := expected p any u in anyTag = false -> tl_class t = ec /\ tl_tag t = et).
Proof.
  unfold parseHeader. destruct (parseTagAndLength s) as [[t1 s1]|] eqn:E1; [|discriminate].
  destruct (fp_explicit p) eqn:Ee.
  - destruct s1 as [|x xs]; [discriminate|]. destruct (_ && _ && _) eqn:Ec; [|discriminate]. destruct (isRaw ty) eqn:Er.
    + intros H. apply matchBody_inv in H as (-> & HL & -> & -> & HX). destruct (parse_element s t1 _ E1 HL) as (full & E & HE). exists [], full. split; [exact E|]. split; [exact HE|]. split; [reflexivity|exact HX].
    + destruct (0 <? tl_length t1); [|destruct (isFlag ty); discriminate].
      destruct (parseTagAndLength (x :: xs)) as [[t2 s2]|] eqn:E2; [|discriminate]. intros H. apply matchBody_inv in H as (-> & HL & -> & -> & HX).
      destruct (parse_element (x :: xs) t2 _ E2 HL) as (full & E & HE). destruct (parseHeader_rest _ _ _ E1) as (h & Eh & _). exists h, full. split; [congruence|]. split; [exact HE|]. split; [intuition discriminate|exact HX].
  - intros H. apply matchBody_inv in H as (-> & HL & -> & -> & HX). destruct (parse_element s t1 _ E1 HL) as (full & E & HE). exists [], full. split; [exact E|]. split; [exact HE|]. split; [reflexivity|exact HX].
Qed.
Lemma parseHeader_explicit ty p s t u inner r : fp_explicit p = true -> isRaw ty = false -> parseHeader ty p s = HMatch t u inner r ->
  exists id l n tg full, s = (id ++ l) ++ full ++ r /\ fp_tag p = Some tg /\ identifier_octets (if fp_application p then 1 else 2) tg true id /\ definite_length n l /\ 0 < n /\
  element (tl_class t) (tl_tag t) (tl_compound t) inner full /\
  exists any ut comp, getUniversalType ty = Some (any, ut, comp) /\ u = adjustTag p t ut /\
    (any = false -> tl_compound t = comp) /\
    (let '(ec, et, anyTag) := expected p any u in anyTag = false -> tl_class t = ec /\ tl_tag t = et).
Proof.
  intros Ee Er. unfold parseHeader. destruct (parseTagAndLength s) as [[t1 s1]|] eqn:E1; [|discriminate]. rewrite Ee, Er.
  destruct s1 as [|x xs]; [discriminate|]. destruct (_ && _ && _) eqn:Ec; [|discriminate].
  destruct (Z.ltb_spec 0 (tl_length t1)) as [Hn|]; [|destruct (isFlag ty); discriminate].
  destruct (parseTagAndLength (x :: xs)) as [[t2 s2]|] eqn:E2; [|discriminate]. intros H. apply matchBody_inv in H as (-> & HL & -> & -> & HX).
  destruct (parse_element (x :: xs) t2 _ E2 HL) as (full & E & HE). apply parseTagAndLength_iff in E1 as (id & l & -> & HI & HD).
  apply andb_true_iff in Ec as [Ec E3]. apply andb_true_iff in Ec as [E4 E5]. destruct (fp_tag p) as [tg|]; [|discriminate]. apply Z.eqb_eq in E4, E5.
  assert (tl_compound t1 = true) as EK by (apply orb_true_iff in E3 as [E3|E3]; [apply Z.eqb_eq in E3; lia|exact E3]).
  exists id, l, (tl_length t1), tg, full. rewrite EK, E5, E4 in HI. rewrite E, <- !app_assoc. split; [reflexivity|]. split; [reflexivity|]. split; [destruct (fp_application p); exact HI|].
  split; [exact HD|]. split; [exact Hn|]. split; [exact HE|exact HX].
Qed.
(** A field of a universal type with no tag of its own *)
Lemma parseHeader_universal ty s t u inner r ut comp : parseHeader ty noParams s = HMatch t u inner r -> getUniversalType ty = Some (false, ut, comp) ->
  ut <> TagPrintableString -> ut <> TagUTCTime -> exists full, s = full ++ r /\ element 0 ut comp inner full.
Proof.
  intros H HU N1 N2. apply parseHeader_inv in H as (pre & full & -> & HE & Hp & any & ut' & comp' & HU' & -> & Hk & Ht).
  rewrite Hp in * by (left; reflexivity). rewrite HU in HU'. injection HU' as <- <- <-.
  assert (HA : adjustTag noParams t ut = ut). { unfold adjustTag. cbn [noParams fp_set fp_stringType]. destruct (Z.eqb_spec ut TagPrintableString); [contradiction|]. destruct (Z.eqb_spec ut TagUTCTime); [contradiction|]. reflexivity. }
  rewrite HA in Ht. unfold expected in Ht. cbn [noParams fp_tag] in Ht. destruct (Ht eq_refl) as (E1 & E2). rewrite E1, E2, (Hk eq_refl) in HE. exists full. split; [reflexivity|exact HE].
Qed.

Section D.
  Variable X : textenv.

  Lemma parseContent_rest ty old t u full inner rest v r : parseContent X ty old t u full inner rest = (v, Some r) -> r = rest.
  Proof.
    unfold parseContent, leafValue. intros H. destruct ty; repeat match type of H with context [match ?x with _ => _ end] => destruct x end; congruence.
  Qed.
  Lemma parseField_inv ty p old s v r : ty <> TyAny -> parseField X ty p old s = (v, Some r) ->
    (fp_optional p = true /\ r = s /\ setDefaultValue ty p old = Some v /\ (s = [] \/ parseHeader ty p s = HMismatch)) \/
    (v = VBool true /\ s <> [] /\ parseHeader ty p s = HFlag r) \/
    exists t u inner, s <> [] /\ parseHeader ty p s = HMatch t u inner r /\ parseContent X ty old t u (takeZ (zlen s - zlen r) s) inner r = (v, Some r).
  Proof.
    intros Hty H.
    assert (HO : forall w, setDefaultValue ty p old = Some w -> fp_optional p = true) by (intros w; unfold setDefaultValue; destruct (fp_optional p); [reflexivity|discriminate]).
    destruct s as [|x xs].
    { left. assert (E : parseField X ty p old [] = match setDefaultValue ty p old with Some v => (v, Some []) | None => (old, None) end) by (destruct ty; reflexivity).
      rewrite E in H. destruct (setDefaultValue ty p old) as [w|] eqn:Ed; [|discriminate]. split; [eauto|]. repeat split; try congruence. left. reflexivity. }
    destruct (parseHeader ty p (x :: xs)) as [| |rest|t u inner rest] eqn:EH.
    - exfalso. destruct ty; try congruence; cbn [parseField] in H; rewrite EH in H; discriminate.
    - left. assert (E : match setDefaultValue ty p old with Some v => (v, Some (x :: xs)) | None => (old, None) end = (v, Some r)) by (destruct ty; try congruence; cbn [parseField] in H; rewrite EH in H; exact H).
      destruct (setDefaultValue ty p old) as [w|] eqn:Ed; [|discriminate]. split; [eauto|]. repeat split; try congruence. right. reflexivity.
    - right. left. assert (E : (VBool true, Some rest) = (v, Some r)) by (destruct ty; try congruence; cbn [parseField] in H; rewrite EH in H; exact H).
      repeat split; congruence.
    - right. right. rewrite (parseField_match X ty p old (x :: xs) t u inner rest ltac:(discriminate) Hty EH) in H.
      pose proof (parseContent_rest _ _ _ _ _ _ _ _ _ H) as ->. exists t, u, inner. repeat split; try assumption; try discriminate; reflexivity.
  Qed.

  Lemma parseField_consumes ty p old s v r : parseField X ty p old s = (v, Some r) -> exists h, s = h ++ r /\ (fp_optional p = false -> 2 <= zlen h).
  Proof.
    intros H. destruct (match ty with TyAny => true | _ => false end) eqn:Ety.
    - destruct ty; try discriminate. destruct s as [|x xs].
      + cbn in H. unfold setDefaultValue in H. destruct (fp_optional p); [|discriminate]. exists []. split; [cbn [app]; congruence|discriminate].
      + cbn [parseField] in H. unfold parseAny in H. destruct (parseTagAndLength (x :: xs)) as [[t s1]|] eqn:E1; [|discriminate].
        destruct (Z.ltb_spec (zlen s1) (tl_length t)); [discriminate|]. destruct (parse_element _ _ _ E1 ltac:(lia)) as (full & E & HE).
        cbv zeta in H. assert (r = dropZ (tl_length t) s1). { repeat match type of H with context [match ?x with _ => _ end] => destruct x end; congruence. }
        exists full. split; [congruence|]. intros _. apply element_size in HE. pose proof (zlen_nonneg (takeZ (tl_length t) s1)). lia.
    - apply parseField_inv in H; [|destruct ty; try discriminate; intros C; discriminate C]. destruct H as [(Ho & -> & _)|[(_ & _ & HF)|(t & u & inner & _ & HH & _)]].
      + exists []. split; [reflexivity|congruence].
      + unfold parseHeader in HF. destruct (parseTagAndLength s) as [[t1 s1]|] eqn:E1; [|discriminate].
        assert (r = s1). { destruct (fp_explicit p); [|exfalso; unfold matchBody in HF; repeat match type of HF with context [match ?x with _ => _ end] => destruct x end; discriminate].
          destruct s1 as [|y ys]; [discriminate|]. destruct (_ && _ && _); [|discriminate]. destruct (isRaw ty); [exfalso; unfold matchBody in HF; repeat match type of HF with context [match ?x with _ => _ end] => destruct x end; discriminate|].
          destruct (0 <? tl_length t1); [exfalso; unfold matchBody in HF; repeat match type of HF with context [match ?x with _ => _ end] => destruct x end; discriminate|]. destruct (isFlag ty); congruence. }
        subst s1. apply parseTagAndLength_iff in E1 as (i & l & -> & HI & HD). exists (i ++ l). split; [apply app_assoc|]. intros _.
        assert (HX : element (tl_class t1) (tl_tag t1) (tl_compound t1) (zeros (tl_length t1)) (i ++ l ++ zeros (tl_length t1))).
        { exists i, l. split; [reflexivity|]. split; [exact HI|]. assert (0 <= tl_length t1) by (destruct HD as [(Hd & _)|(d & _ & _ & -> & _)]; [lia|apply be_val_range]).
          replace (zlen (zeros (tl_length t1))) with (tl_length t1); [exact HD|]. unfold zeros, zlen. rewrite repeat_length. lia. }
        apply element_size in HX. rewrite !zlen_app in *. lia.
      + apply parseHeader_inv in HH as (pre & full & -> & HE & _). exists (pre ++ full). rewrite <- app_assoc. split; [reflexivity|]. intros _. apply element_size in HE. rewrite zlen_app. pose proof (zlen_nonneg pre). pose proof (zlen_nonneg inner). lia.
  Qed.
End D.
