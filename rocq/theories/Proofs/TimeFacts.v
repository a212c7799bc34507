(** UTCTime, GeneralizedTime and the calendar (C82). *)
From Coq Require Import Lia ZifyBool.
From Verif.Model Require Import Bytes Env GoStrings Asn1 GoTime.
From Verif.Spec Require Import Time.
From Verif.Proofs Require Import BytesFacts.

(** ** The calendar *)
Lemma isLeap_true y : isLeap y = true <-> leap_year y.
Proof. unfold isLeap, leap_year. lia. Qed.
Lemma isLeap_false y : isLeap y = false <-> ~ leap_year y.
Proof. unfold isLeap, leap_year. lia. Qed.

Lemma month_length_daysIn y m n : month_length y m n <-> 1 <= m <= 12 /\ n = daysIn m y.
Proof.
  unfold daysIn. split.
  - intros H. inversion H; subst; clear H.
    + cbn [In] in *. split; [lia|]. repeat (match goal with H : _ \/ _ |- _ => destruct H as [H | H] end); subst; try reflexivity; contradiction.
    + cbn [In] in *. split; [lia|]. repeat (match goal with H : _ \/ _ |- _ => destruct H as [H | H] end); subst; try reflexivity; contradiction.
    + split; [lia|]. apply isLeap_false in H0. cbn [Z.eqb Pos.eqb]. rewrite H0. reflexivity.
    + split; [lia|]. apply isLeap_true in H0. cbn [Z.eqb Pos.eqb]. rewrite H0. reflexivity.
  - intros [Hm ->].
    assert (m = 1 \/ m = 2 \/ m = 3 \/ m = 4 \/ m = 5 \/ m = 6 \/ m = 7 \/ m = 8 \/ m = 9 \/ m = 10 \/ m = 11 \/ m = 12) as Hc by lia.
    repeat (destruct Hc as [-> | Hc]); [..| subst m]; cbn [Z.eqb Pos.eqb orb];
      try (apply ml_31; cbn; tauto); try (apply ml_30; cbn; tauto).
    destruct (isLeap y) eqn:E; [apply ml_29, isLeap_true | apply ml_28, isLeap_false]; assumption.
Qed.
Lemma valid_date_iff y m d : valid_date y m d <-> 1 <= m <= 12 /\ 1 <= d <= daysIn m y.
Proof.
  unfold valid_date. split.
  - intros (n & H & Hd). apply month_length_daysIn in H. destruct H as [Hm ->]. tauto.
  - intros [Hm Hd]. exists (daysIn m y). split; [apply month_length_daysIn; tauto | assumption].
Qed.

Lemma daysSince_next y : daysSince (y + 1) = daysSince y + 365 + (if isLeap y then 1 else 0).
Proof.
  unfold daysSince, isLeap. cbv zeta. replace (y + 1 - 1) with y by lia.
  pose proof (Z.div_mod y 400 ltac:(lia)) as H1. pose proof (Z.mod_pos_bound y 400 ltac:(lia)) as H2.
  set (q := y / 400) in *. set (r := y mod 400) in *. clearbody q r.
  assert (y mod 4 = r mod 4) as -> by (subst y; replace (400 * q + r) with (r + (100 * q) * 4) by lia; apply Z.mod_add; lia).
  assert (y mod 100 = r mod 100) as -> by (subst y; replace (400 * q + r) with (r + (4 * q) * 100) by lia; apply Z.mod_add; lia).
  destruct (Z.eq_dec r 0) as [-> | Hr].
  - assert ((y - 1) / 400 = q - 1) as -> by (symmetry; apply (Z.div_unique _ _ _ 399); lia).
    assert ((y - 1) mod 400 = 399) as -> by (symmetry; apply (Z.mod_unique _ _ (q - 1)); lia).
    change (0 mod 4) with 0. change (0 mod 100) with 0. change (0 mod 400) with 0. change (0 / 100) with 0. change (0 / 4) with 0.
    change (399 mod 100) with 99. change (399 / 100) with 3. change (99 / 4) with 24. change (99 mod 4) with 3. change (0 =? 0) with true. cbn [negb orb andb]. change (0 mod 4) with 0. lia.
  - assert ((y - 1) / 400 = q) as -> by (symmetry; apply (Z.div_unique _ _ _ (r - 1)); lia).
    assert ((y - 1) mod 400 = r - 1) as -> by (symmetry; apply (Z.mod_unique _ _ q); lia).
    assert (r =? 0 = false) as -> by lia. rewrite orb_false_r.
    Ltac Zify.zify_post_hook ::= Z.div_mod_to_equations.
    destruct ((r mod 4 =? 0) && negb (r mod 100 =? 0)) eqn:E; lia.
    Ltac Zify.zify_post_hook ::= idtac.
Qed.

Lemma unixDay_day y m d : unixDay y m (d + 1) = unixDay y m d + 1.
Proof. unfold unixDay. lia. Qed.
Lemma unixDay_month y m : 1 <= m < 12 -> unixDay y (m + 1) 1 = unixDay y m (daysIn m y) + 1.
Proof.
  intros Hm. unfold unixDay, daysIn.
  assert (m = 1 \/ m = 2 \/ m = 3 \/ m = 4 \/ m = 5 \/ m = 6 \/ m = 7 \/ m = 8 \/ m = 9 \/ m = 10 \/ m = 11) as Hc by lia.
  generalize (daysSince y) as D. intros D. destruct (isLeap y);
    repeat (destruct Hc as [-> | Hc]); try subst m; unfold daysBefore; simpl; lia.
Qed.
Lemma unixDay_year y : unixDay (y + 1) 1 1 = unixDay y 12 31 + 1.
Proof.
  unfold unixDay. rewrite daysSince_next. unfold daysBefore. change (3 <=? 1) with false. change (3 <=? 12) with true.
  rewrite andb_false_r, andb_true_r. generalize (daysSince y) as D. intros D. destruct (isLeap y); simpl; lia.
Qed.

Lemma next_day_unix a b : next_day a b -> forall y m d y' m' d', a = (y, m, d) -> b = (y', m', d') -> unixDay y' m' d' = unixDay y m d + 1.
Proof.
  intros H. destruct H as [y m d n Hn Hd | y m n Hn Hm | y]; intros y0 m0 d0 y' m' d' Ha Hb; injection Ha as <- <- <-; injection Hb as <- <- <-.
  - apply unixDay_day.
  - apply month_length_daysIn in Hn. destruct Hn as [Hm1 ->]. apply unixDay_month. lia.
  - apply unixDay_year.
Qed.
Lemma day_number_unix a n : day_number a n -> forall y m d, a = (y, m, d) -> n = unixDay y m d.
Proof.
  induction 1 as [| [[y1 m1] d1] [[y2 m2] d2] n H IH Hn | [[y1 m1] d1] [[y2 m2] d2] n H IH Hn]; intros y m d E; injection E as <- <- <-.
  - vm_compute. reflexivity.
  - rewrite (next_day_unix _ _ Hn _ _ _ _ _ _ eq_refl eq_refl), <- (IH _ _ _ eq_refl). reflexivity.
  - pose proof (next_day_unix _ _ Hn _ _ _ _ _ _ eq_refl eq_refl) as E. rewrite <- (IH _ _ _ eq_refl) in E. lia.
Qed.

(** Every date has a number. *)
Definition numbered (y m d : Z) : Prop := exists n, day_number (y, m, d) n.
Lemma numbered_next y m d y' m' d' : next_day (y, m, d) (y', m', d') -> (numbered y m d <-> numbered y' m' d').
Proof.
  intros H. split; intros [n Hn]; eexists; [eapply dn_next | eapply dn_previous]; eassumption.
Qed.
Lemma numbered_in_month y m : 1 <= m <= 12 -> forall d, 1 <= d <= daysIn m y -> (numbered y m 1 <-> numbered y m d).
Proof.
  intros Hm d Hd. replace d with (1 + Z.of_nat (Z.to_nat (d - 1))) in * by lia.
  induction (Z.to_nat (d - 1)) as [|k IH]; [reflexivity|].
  rewrite IH by lia. replace (1 + Z.of_nat (Datatypes.S k)) with (1 + Z.of_nat k + 1) in * by lia.
  apply numbered_next. apply (nd_day _ _ _ (daysIn m y)); [apply month_length_daysIn; tauto | lia].
Qed.
Lemma daysIn_pos m y : 28 <= daysIn m y.
Proof. unfold daysIn. destruct (m =? 2), (isLeap y), ((m =? 4) || (m =? 6) || (m =? 9) || (m =? 11)); lia. Qed.
Lemma numbered_month y m : 1 <= m < 12 -> (numbered y m 1 <-> numbered y (m + 1) 1).
Proof.
  intros Hm. pose proof (daysIn_pos m y).
  rewrite (numbered_in_month y m ltac:(lia) (daysIn m y)) by lia.
  apply numbered_next. apply nd_month; [apply month_length_daysIn; split; [lia | reflexivity] | lia].
Qed.
Lemma numbered_months y m : 1 <= m <= 12 -> (numbered y 1 1 <-> numbered y m 1).
Proof.
  intros Hm. replace m with (1 + Z.of_nat (Z.to_nat (m - 1))) in * by lia.
  induction (Z.to_nat (m - 1)) as [|k IH]; [reflexivity|].
  rewrite IH by lia. replace (1 + Z.of_nat (Datatypes.S k)) with (1 + Z.of_nat k + 1) in * by lia.
  apply numbered_month. lia.
Qed.
Lemma numbered_year y : numbered y 1 1 <-> numbered (y + 1) 1 1.
Proof.
  rewrite (numbered_months y 12) by lia. rewrite (numbered_in_month y 12 ltac:(lia) 31) by (cbn; lia).
  apply numbered_next, nd_year.
Qed.
Lemma numbered_years y : numbered y 1 1.
Proof.
  assert (numbered 1970 1 1) as H0 by (exists 0; constructor).
  destruct (Z.le_gt_cases 1970 y).
  - replace y with (1970 + Z.of_nat (Z.to_nat (y - 1970))) by lia.
    induction (Z.to_nat (y - 1970)) as [|k IH]; [exact H0|].
    replace (1970 + Z.of_nat (Datatypes.S k)) with (1970 + Z.of_nat k + 1) by lia. apply (proj1 (numbered_year _)), IH.
  - replace y with (1970 - Z.of_nat (Z.to_nat (1970 - y))) by lia.
    induction (Z.to_nat (1970 - y)) as [|k IH]; [exact H0|].
    apply (proj2 (numbered_year _)). replace (1970 - Z.of_nat (Datatypes.S k) + 1) with (1970 - Z.of_nat k) by lia. apply IH.
Qed.
Theorem calendar y m d n : valid_date y m d -> (day_number (y, m, d) n <-> n = unixDay y m d).
Proof.
  intros H. apply valid_date_iff in H. destruct H as [Hm Hd]. split.
  - intros H. eapply day_number_unix; [eassumption | reflexivity].
  - intros ->. destruct (proj1 (numbered_in_month y m Hm d Hd) (proj1 (numbered_months y m Hm) (numbered_years y))) as [k Hk].
    rewrite <- (day_number_unix _ _ Hk _ _ _ eq_refl). exact Hk.
Qed.

(** ** The text *)
Lemma digit_byte k : 0 <= k <= 9 -> isDigit (z2b (48 + k)) = true /\ digitOf (z2b (48 + k)) = k.
Proof. intros H. unfold isDigit, digitOf. rewrite b2z_z2b, Z.mod_small by lia. lia. Qed.
Lemma tens v : 0 <= v <= 99 -> 0 <= v / 10 <= 9 /\ 0 <= v mod 10 <= 9 /\ v / 10 * 10 + v mod 10 = v.
Proof. intros H. pose proof (Z.div_mod v 10 ltac:(lia)). pose proof (Z.mod_pos_bound v 10 ltac:(lia)). lia. Qed.
Lemma getnum_two f v r : 0 <= v <= 99 -> getnum f (twoDigits v ++ r) = Some (v, r).
Proof.
  intros H. destruct (tens v H) as (H1 & H2 & H3). unfold twoDigits. cbn [app getnum].
  destruct (digit_byte _ H1) as [-> ->], (digit_byte _ H2) as [-> ->]. cbn [negb]. rewrite H3. reflexivity.
Qed.
Lemma isDigit_digitOf c : isDigit c = true -> 0 <= digitOf c <= 9.
Proof. unfold isDigit, digitOf. lia. Qed.
Lemma getnum_bound f s v r : getnum f s = Some (v, r) -> 0 <= v <= 99.
Proof.
  destruct s as [|a s]; [discriminate|]. cbn [getnum]. destruct (isDigit a) eqn:Ea; [|discriminate]. cbn [negb].
  apply isDigit_digitOf in Ea.
  destruct s as [|b s]; [destruct f; [discriminate|] |].
  - intros H. injection H as <- <-. lia.
  - destruct (isDigit b) eqn:Eb; [apply isDigit_digitOf in Eb | destruct f; [discriminate|]]; intros H; injection H as <- <-; lia.
Qed.

Lemma zone_bound s off r : parseZone s = Some (off, r) -> exists k, off = 60 * k /\ -1500 <= k <= 1500.
Proof.
  unfold parseZone. destruct s as [|z s]; [discriminate|].
  destruct (b2z z =? 90). { intros H. injection H as <- <-. exists 0. lia. }
  destruct s as [|h1 [|h2 [|m1 [|m2 r']]]]; try discriminate.
  destruct (getnum true [h1; h2]) as [[hr q1]|] eqn:E1; [|discriminate].
  destruct (getnum true [m1; m2]) as [[mm q2]|] eqn:E2; [|discriminate].
  apply getnum_bound in E1, E2.
  destruct ((24 <? hr) || (60 <? mm)) eqn:E; [discriminate|]. cbv zeta.
  destruct (b2z z =? 43); [|destruct (b2z z =? 45); [|discriminate]]; intros H; injection H as <- <-; [exists (hr * 60 + mm) | exists (- (hr * 60 + mm))]; lia.
Qed.

Lemma zone_text_format off s : zone_text off s -> formatZone off = s.
Proof.
  intros H. inversion H as [| sign h m sh sm Hh Hm Hs [Hh1 ->] [Hm1 ->]]; subst; [reflexivity|].
  assert (Hq : Z.quot (h * 3600 + m * 60) 60 = h * 60 + m).
  { replace (h * 3600 + m * 60) with ((h * 60 + m) * 60) by lia. apply Z.quot_mul. lia. }
  assert (Hd : (h * 60 + m) / 60 = h) by (symmetry; apply (Z.div_unique _ _ _ m); lia).
  assert (Hr : (h * 60 + m) mod 60 = m) by (symmetry; apply (Z.mod_unique _ _ h); lia).
  unfold formatZone. destruct sign.
  - assert (- (h * 3600 + m * 60) =? 0 = false) as -> by lia. rewrite Z.quot_opp_l, Hq, Z.abs_opp, Z.abs_eq by lia.
    assert (- (h * 60 + m) <? 0 = true) as -> by lia. rewrite Hd, Hr. reflexivity.
  - assert (h * 3600 + m * 60 =? 0 = false) as -> by lia. rewrite Hq, Z.abs_eq by lia.
    assert (h * 60 + m <? 0 = false) as -> by lia. rewrite Hd, Hr. reflexivity.
Qed.
Lemma zone_text_parse off s : zone_text off s -> parseZone s = Some (off, []).
Proof.
  intros H. inversion H as [| sign h m sh sm Hh Hm Hs [Hh1 ->] [Hm1 ->]]; subst; [reflexivity|].
  pose proof (getnum_two true h [] Hh1) as E1. pose proof (getnum_two true m [] Hm1) as E2. unfold twoDigits in E1, E2. cbn [app] in E1, E2.
  cbn [app]. unfold parseZone. rewrite E1, E2.
  assert ((24 <? h) || (60 <? m) = false) as -> by lia.
  destruct sign; cbv zeta; [change (b2z "-"%byte) with 45 | change (b2z "+"%byte) with 43]; cbn [Z.eqb Pos.eqb]; do 2 f_equal; lia.
Qed.
(** A zone that formats back to the text it was parsed from *)
Lemma zone_back off s r : parseZone s = Some (off, r) -> parseZone (formatZone off) = Some (off, []) -> zone_text off (formatZone off).
Proof.
  intros H1 H2. destruct (zone_bound _ _ _ H1) as (k & -> & Hk).
  destruct (Z.eq_dec k 0) as [-> | Nk]; [constructor|].
  unfold formatZone in *. assert (60 * k =? 0 = false) as E by lia. rewrite E in *. clear E. cbv zeta in *.
  assert (Z.quot (60 * k) 60 = k) as E by (rewrite Z.mul_comm; apply Z.quot_mul; lia). rewrite E in *. clear E.
  set (h := Z.abs k / 60) in *. set (m := Z.abs k mod 60) in *.
  assert (Hkhm : Z.abs k = 60 * h + m) by (apply Z.div_mod; lia).
  assert (Hm : 0 <= m < 60) by (apply Z.mod_pos_bound; lia).
  clearbody h m. assert (0 <= h <= 25) by lia.
  assert (h <= 24) as Hh.
  { pose proof (getnum_two true h [] ltac:(lia)) as E1. pose proof (getnum_two true m [] ltac:(lia)) as E2. unfold twoDigits in *. cbn [app] in *.
    unfold parseZone in H2. rewrite E1, E2 in H2. destruct (24 <? h) eqn:E; [|lia]. destruct (k <? 0); vm_compute in H2; discriminate. }
  destruct (k <? 0) eqn:E.
  - replace (60 * k) with (- (h * 3600 + m * 60)) by lia. apply (zt_offset true h m); try lia; split; try reflexivity; lia.
  - replace (60 * k) with (h * 3600 + m * 60) by lia. apply (zt_offset false h m); try lia; split; try reflexivity; lia.
Qed.

(** The fields of a parsed text *)
Record in_range (t : timeFields) : Prop := {
  ir_month : 1 <= tf_month t <= 12; ir_day : 1 <= tf_day t <= daysIn (tf_month t) (tf_year t);
  ir_hour : 0 <= tf_hour t <= 23; ir_min : 0 <= tf_min t <= 59; ir_sec : 0 <= tf_sec t <= 59;
  ir_zone : exists s r, parseZone s = Some (tf_offset t, r) }.
Lemma parseRest_range seconds y s t : parseRest seconds y s = Some t -> in_range t /\ tf_year t = y /\ tf_day t <= 99 /\ (seconds = false -> tf_sec t = 0).
Proof.
  unfold parseRest.
  destruct (getnum true s) as [[month s1]|] eqn:E1; [|discriminate].
  destruct ((month <=? 0) || (12 <? month)) eqn:B1; [discriminate|].
  destruct (getnum true s1) as [[day s2]|] eqn:E2; [|discriminate].
  destruct (getnum false s2) as [[hour s3]|] eqn:E3; [|discriminate].
  destruct (24 <=? hour) eqn:B3; [discriminate|].
  destruct (getnum true s3) as [[min s4]|] eqn:E4; [|discriminate].
  destruct (60 <=? min) eqn:B4; [discriminate|].
  destruct (if seconds then getnum true s4 else Some (0, s4)) as [[sec s5]|] eqn:E5; [|discriminate].
  destruct (60 <=? sec) eqn:B5; [discriminate|].
  destruct (parseZone (if seconds then skipFraction s5 else s5)) as [[off s6]|] eqn:E6; [|discriminate].
  destruct s6; [|discriminate].
  destruct ((day <? 1) || (daysIn month y <? day)) eqn:B2; [discriminate|].
  intros H. injection H as <-. apply getnum_bound in E1, E2, E3, E4.
  assert (0 <= sec <= 99 /\ (seconds = false -> sec = 0)) as [Hs1 Hs2].
  { destruct seconds; [apply getnum_bound in E5; split; [lia | discriminate] | injection E5 as <- <-; split; [lia | reflexivity]]. }
  split; [|cbn; split; [reflexivity | split; [lia | assumption]]].
  constructor; cbn; try lia. eauto.
Qed.
Lemma zone_head off s : zone_text off s -> exists c r, s = c :: r /\ isDigit c = false /\ b2z c <> 46 /\ b2z c <> 44.
Proof. intros H. inversion H; subst; [|destruct sign]; do 2 eexists; (split; [reflexivity|]); vm_compute; split; try reflexivity; split; discriminate. Qed.
Lemma daysIn_le m y : daysIn m y <= 31.
Proof. unfold daysIn. destruct (m =? 2), (isLeap y), ((m =? 4) || (m =? 6) || (m =? 9) || (m =? 11)); lia. Qed.

Lemma format_zone_head off : exists c r, formatZone off = c :: r /\ b2z c <> 46 /\ b2z c <> 44.
Proof.
  unfold formatZone. destruct (off =? 0); [do 2 eexists; split; [reflexivity|]; vm_compute; split; discriminate|].
  cbv zeta. destruct (_ <? 0); do 2 eexists; (split; [reflexivity|]); vm_compute; split; discriminate.
Qed.
Lemma skipFraction_zone off : skipFraction (formatZone off) = formatZone off.
Proof.
  destruct (format_zone_head off) as (c & r & -> & H1 & H2). unfold skipFraction. destruct r; [reflexivity|].
  assert ((b2z c =? 46) || (b2z c =? 44) = false) as -> by lia. reflexivity.
Qed.
(** Parsing formatted fields *)
Lemma parseRest_format seconds t : in_range t -> (seconds = false -> tf_sec t = 0) ->
  parseRest seconds (tf_year t) (formatRest seconds t) =
  match parseZone (formatZone (tf_offset t)) with
  | Some (off, []) => Some {| tf_year := tf_year t; tf_month := tf_month t; tf_day := tf_day t; tf_hour := tf_hour t; tf_min := tf_min t; tf_sec := tf_sec t; tf_offset := off |}
  | _ => None
  end.
Proof.
  intros [Hmo Hd Hh Hmi Hs _] Hsec. pose proof (daysIn_le (tf_month t) (tf_year t)).
  unfold parseRest, formatRest.
  rewrite (getnum_two _ (tf_month t)) by lia. assert ((tf_month t <=? 0) || (12 <? tf_month t) = false) as -> by lia.
  rewrite (getnum_two _ (tf_day t)) by lia.
  rewrite (getnum_two _ (tf_hour t)) by lia. assert (24 <=? tf_hour t = false) as -> by lia.
  rewrite (getnum_two _ (tf_min t)) by lia. assert (60 <=? tf_min t = false) as -> by lia.
  replace (if seconds then getnum true ((if seconds then twoDigits (tf_sec t) else []) ++ formatZone (tf_offset t))
           else Some (0, (if seconds then twoDigits (tf_sec t) else []) ++ formatZone (tf_offset t)))
    with (Some (tf_sec t, formatZone (tf_offset t))).
  2: { destruct seconds; [symmetry; apply getnum_two; lia | rewrite Hsec by reflexivity; reflexivity]. }
  assert (60 <=? tf_sec t = false) as -> by lia.
  replace (if seconds then skipFraction (formatZone (tf_offset t)) else formatZone (tf_offset t)) with (formatZone (tf_offset t))
    by (destruct seconds; [symmetry; apply skipFraction_zone | reflexivity]).
  destruct (parseZone (formatZone (tf_offset t))) as [[off [|]]|]; [|reflexivity|reflexivity].
  assert ((tf_day t <? 1) || (daysIn (tf_month t) (tf_year t) <? tf_day t) = false) as -> by lia. reflexivity.
Qed.
(** Without seconds in the layout, a text with seconds does not parse. *)
Lemma parseZone_digit c r : isDigit c = true -> parseZone (c :: r) = None.
Proof.
  intros H. unfold isDigit in H. unfold parseZone.
  assert (b2z c =? 90 = false) as -> by lia. assert (b2z c =? 43 = false) as -> by lia. assert (b2z c =? 45 = false) as -> by lia.
  destruct r as [|h1 [|h2 [|m1 [|m2 r']]]]; try reflexivity.
  destruct (getnum true [h1; h2]) as [[hr q1]|]; [|reflexivity].
  destruct (getnum true [m1; m2]) as [[mm q2]|]; [|reflexivity].
  destruct ((24 <? hr) || (60 <? mm)); reflexivity.
Qed.
Lemma parseRest_other t : in_range t -> parseRest false (tf_year t) (formatRest true t) = None.
Proof.
  intros [Hmo Hd Hh Hmi Hs _]. pose proof (daysIn_le (tf_month t) (tf_year t)).
  unfold parseRest, formatRest.
  rewrite (getnum_two _ (tf_month t)) by lia. assert ((tf_month t <=? 0) || (12 <? tf_month t) = false) as -> by lia.
  rewrite (getnum_two _ (tf_day t)) by lia.
  rewrite (getnum_two _ (tf_hour t)) by lia. assert (24 <=? tf_hour t = false) as -> by lia.
  rewrite (getnum_two _ (tf_min t)) by lia. assert (60 <=? tf_min t = false) as -> by lia.
  change (60 <=? 0) with false. cbv iota.
  unfold twoDigits at 1. cbn [app]. rewrite parseZone_digit; [reflexivity|].
  apply digit_byte. destruct (tens (tf_sec t)); lia.
Qed.

(** Specification and fields *)
Lemma rest_text_iff y sec ssec s u : 0 <= sec <= 59 ->
  (rest_text y sec ssec s u <->
   exists t, in_range t /\ parseZone (formatZone (tf_offset t)) = Some (tf_offset t, []) /\ tf_year t = y /\ tf_sec t = sec /\
     s = twoDigits (tf_month t) ++ twoDigits (tf_day t) ++ twoDigits (tf_hour t) ++ twoDigits (tf_min t) ++ ssec ++ formatZone (tf_offset t) /\ u = unixTime t).
Proof.
  intros Hsec. split.
  - intros (mo & d & h & mi & zone & day & smo & sd & sh & smi & sz & -> & [Hmo ->] & [Hd ->] & [Hh ->] & [Hmi ->] & Hz & Hv & Hh2 & Hmi2 & Hs2 & Hday & ->).
    exists {| tf_year := y; tf_month := mo; tf_day := d; tf_hour := h; tf_min := mi; tf_sec := sec; tf_offset := zone |}.
    apply (calendar _ _ _ _ Hv) in Hday. apply valid_date_iff in Hv. destruct Hv as [Hv1 Hv2].
    pose proof (zone_text_format _ _ Hz) as Ef. pose proof (zone_text_parse _ _ Hz) as Ep.
    split; [constructor; cbn; try lia; eauto |]. cbn. rewrite Ef. repeat split; try assumption. unfold unixTime. cbn. lia.
  - intros (t & [Hmo Hd Hh Hmi Hs (sz & rz & Hz)] & Ez & <- & <- & -> & ->).
    pose proof (daysIn_le (tf_month t) (tf_year t)).
    exists (tf_month t), (tf_day t), (tf_hour t), (tf_min t), (tf_offset t), (unixDay (tf_year t) (tf_month t) (tf_day t)).
    exists (twoDigits (tf_month t)), (twoDigits (tf_day t)), (twoDigits (tf_hour t)), (twoDigits (tf_min t)), (formatZone (tf_offset t)).
    assert (valid_date (tf_year t) (tf_month t) (tf_day t)) as Hv by (apply valid_date_iff; lia).
    repeat split; try lia; try exact Hv; [eapply zone_back; eassumption | apply calendar; [exact Hv | reflexivity]].
Qed.

Lemma parseShort_format seconds t : 1969 <= tf_year t <= 2068 -> in_range t -> (seconds = false -> tf_sec t = 0) ->
  parseZone (formatZone (tf_offset t)) = Some (tf_offset t, []) -> parseShort seconds (formatShort seconds t) = Some t.
Proof.
  intros Hy Hr Hs Hz. unfold parseShort, formatShort. pose proof (Z.mod_pos_bound (tf_year t) 100 ltac:(lia)).
  rewrite getnum_two by lia.
  replace (if 69 <=? tf_year t mod 100 then 1900 + tf_year t mod 100 else 2000 + tf_year t mod 100) with (tf_year t).
  2: { destruct (Z.lt_ge_cases (tf_year t) 2000).
       - replace (tf_year t mod 100) with (tf_year t - 1900) by (apply (Z.mod_unique _ _ 19); lia). assert (69 <=? tf_year t - 1900 = true) as -> by lia. lia.
       - replace (tf_year t mod 100) with (tf_year t - 2000) by (apply (Z.mod_unique _ _ 20); lia). assert (69 <=? tf_year t - 2000 = false) as -> by lia. lia. }
  rewrite parseRest_format by assumption. rewrite Hz. destruct t; reflexivity.
Qed.
Lemma parseShort_other t : 1969 <= tf_year t <= 2068 -> in_range t -> parseShort false (formatShort true t) = None.
Proof.
  intros Hy Hr. unfold parseShort, formatShort. pose proof (Z.mod_pos_bound (tf_year t) 100 ltac:(lia)).
  rewrite getnum_two by lia.
  replace (if 69 <=? tf_year t mod 100 then 1900 + tf_year t mod 100 else 2000 + tf_year t mod 100) with (tf_year t).
  2: { destruct (Z.lt_ge_cases (tf_year t) 2000).
       - replace (tf_year t mod 100) with (tf_year t - 1900) by (apply (Z.mod_unique _ _ 19); lia). assert (69 <=? tf_year t - 1900 = true) as -> by lia. lia.
       - replace (tf_year t mod 100) with (tf_year t - 2000) by (apply (Z.mod_unique _ _ 20); lia). assert (69 <=? tf_year t - 2000 = false) as -> by lia. lia. }
  apply parseRest_other. assumption.
Qed.
Lemma parseShort_range seconds s t : parseShort seconds s = Some t -> in_range t /\ 1969 <= tf_year t <= 2068 /\ (seconds = false -> tf_sec t = 0).
Proof.
  unfold parseShort. destruct (getnum true s) as [[yy s1]|] eqn:E; [|discriminate]. apply getnum_bound in E.
  intros H. apply parseRest_range in H. destruct H as (H1 & H2 & _ & H3). rewrite H2. split; [assumption|]. split; [|assumption].
  destruct (69 <=? yy) eqn:B; lia.
Qed.

(** Years 2050 to 2068 are 1950 to 1968. *)
Definition shifted (t : timeFields) : timeFields := if 2050 <=? tf_year t then century t else t.
Definition unshifted (t : timeFields) : timeFields :=
  {| tf_year := if tf_year t <? 1969 then tf_year t + 100 else tf_year t; tf_month := tf_month t; tf_day := tf_day t; tf_hour := tf_hour t; tf_min := tf_min t; tf_sec := tf_sec t; tf_offset := tf_offset t |}.
Lemma leap_century y : 2050 <= y <= 2068 -> isLeap (y - 100) = isLeap y.
Proof.
  intros H. unfold isLeap.
  assert (y mod 100 = y - 2000) as E1 by (symmetry; apply (Z.mod_unique _ _ 20); lia).
  assert ((y - 100) mod 100 = y - 2000) as E2 by (symmetry; apply (Z.mod_unique _ _ 19); lia).
  assert ((y - 100) mod 4 = y mod 4) as E3 by (replace (y - 100) with (y + (-25) * 4) by lia; apply Z.mod_add; lia).
  rewrite E1, E2, E3. assert (y - 2000 =? 0 = false) as -> by lia. reflexivity.
Qed.
Lemma daysIn_century m y : 2050 <= y <= 2068 -> daysIn m (y - 100) = daysIn m y.
Proof. intros H. unfold daysIn. rewrite leap_century by assumption. reflexivity. Qed.
Lemma shifted_range t : 1969 <= tf_year t <= 2068 -> in_range t -> in_range (shifted t) /\ 1950 <= tf_year (shifted t) <= 2049 /\ tf_year (shifted t) mod 100 = tf_year t mod 100.
Proof.
  intros Hy [H1 H2 H3 H4 H5 H6]. unfold shifted. destruct (2050 <=? tf_year t) eqn:E.
  - split; [constructor; cbn; try assumption; rewrite daysIn_century by lia; assumption|]. cbn. split; [lia|].
    replace (tf_year t - 100) with (tf_year t + (-1) * 100) by lia. apply Z.mod_add. lia.
  - split; [constructor; assumption|]. split; [lia | reflexivity].
Qed.
Lemma unshifted_range t : 1950 <= tf_year t <= 2049 -> in_range t ->
  in_range (unshifted t) /\ 1969 <= tf_year (unshifted t) <= 2068 /\ tf_year (unshifted t) mod 100 = tf_year t mod 100 /\ shifted (unshifted t) = t.
Proof.
  intros Hy [H1 H2 H3 H4 H5 H6]. unfold unshifted, shifted. destruct (tf_year t <? 1969) eqn:E; cbn.
  - split; [constructor; cbn; try assumption; rewrite <- daysIn_century by lia; replace (tf_year t + 100 - 100) with (tf_year t) by lia; assumption|].
    split; [lia|]. split; [replace (tf_year t + 100) with (tf_year t + 1 * 100) by lia; apply Z.mod_add; lia|].
    assert (2050 <=? tf_year t + 100 = true) as -> by lia. unfold century. cbn. replace (tf_year t + 100 - 100) with (tf_year t) by lia. destruct t; reflexivity.
  - split; [constructor; assumption|]. split; [lia|]. split; [reflexivity|].
    assert (2050 <=? tf_year t = false) as -> by lia. destruct t; reflexivity.
Qed.

Theorem utc_time_iff s u : parseUTCTime s = Some u <-> utc_text s u.
Proof.
  split.
  - unfold parseUTCTime. intros H.
    assert (exists seconds t, parseShort seconds s = Some t /\ formatShort seconds t = s /\ u = unixTime (shifted t)) as (seconds & t & Hp & Hf & ->).
    { destruct (parseShort false s) as [t|] eqn:E.
      - destruct (bytes_eqb (formatShort false t) s) eqn:B; cbn [negb] in H; [|discriminate]. apply bytes_eqb_eq in B. injection H as <-. exists false, t. auto.
      - destruct (parseShort true s) as [t|] eqn:E'; cbn [option_map] in H; [|discriminate].
        destruct (bytes_eqb (formatShort true t) s) eqn:B; cbn [negb] in H; [|discriminate]. apply bytes_eqb_eq in B. injection H as <-. exists true, t. auto. }
    clear H. destruct (parseShort_range _ _ _ Hp) as (Hr & Hy & Hsec).
    destruct (shifted_range t Hy Hr) as (Hr' & Hy' & Hmod).
    assert (Hz : parseZone (formatZone (tf_offset t)) = Some (tf_offset t, [])).
    { rewrite <- Hf in Hp. unfold parseShort, formatShort in Hp. pose proof (Z.mod_pos_bound (tf_year t) 100 ltac:(lia)).
      rewrite getnum_two in Hp by lia. destruct (parseRest_range _ _ _ _ Hp) as (_ & Hyy & _). rewrite <- Hyy in Hp.
      rewrite parseRest_format in Hp by assumption.
      destruct (parseZone (formatZone (tf_offset t))) as [[off [|]]|]; try discriminate. injection Hp as <-. reflexivity. }
    assert (tf_sec (shifted t) = tf_sec t /\ tf_offset (shifted t) = tf_offset t /\ formatRest seconds (shifted t) = formatRest seconds t) as (Es & Eo & Ef).
    { unfold shifted. destruct (2050 <=? tf_year t); repeat split. }
    exists (tf_year (shifted t)), (twoDigits (tf_year t mod 100)), (formatRest seconds t), (tf_sec t), (if seconds then twoDigits (tf_sec t) else []).
    split; [assumption|]. split; [symmetry; exact Hf|].
    split; [rewrite Hmod; split; [pose proof (Z.mod_pos_bound (tf_year t) 100 ltac:(lia)); lia | reflexivity]|].
    split.
    { destruct seconds; [right; split; [pose proof (ir_sec _ Hr); lia | reflexivity] | left; split; [auto | reflexivity]]. }
    apply rest_text_iff; [apply (ir_sec _ Hr)|]. exists (shifted t). split; [exact Hr'|]. rewrite Eo, Es. split; [exact Hz|]. split; [reflexivity|]. split; [reflexivity|]. split; [|reflexivity].
    rewrite <- Ef. unfold formatRest. rewrite Es, Eo. reflexivity.
  - intros (y & sy & r & sec & ssec & Hy & -> & [Hyy ->] & Hsec & Hrest).
    assert (Hs59 : 0 <= sec <= 59) by (destruct Hrest as (? & ? & ? & ? & ? & ? & ? & ? & ? & ? & ? & H); tauto).
    apply rest_text_iff in Hrest; [|assumption]. destruct Hrest as (t & Hr & Hz & <- & <- & -> & ->).
    destruct (unshifted_range t Hy Hr) as (Hr' & Hy' & Hmod & Hsh).
    set (seconds := match ssec with [] => false | _ => true end).
    assert (Hss : ssec = (if seconds then twoDigits (tf_sec t) else []) /\ (seconds = false -> tf_sec t = 0)).
    { destruct Hsec as [[H1 ->] | [H1 ->]]; [split; [reflexivity | intros; assumption] | split; [reflexivity | discriminate]]. }
    clearbody seconds. destruct Hss as [-> Hs0].
    match goal with |- parseUTCTime ?x = _ => replace x with (formatShort seconds (unshifted t)) by (unfold formatShort; rewrite Hmod; reflexivity) end.
    assert (Hp : parseShort seconds (formatShort seconds (unshifted t)) = Some (unshifted t)) by (apply parseShort_format; assumption).
    unfold parseUTCTime. destruct seconds.
    + rewrite parseShort_other by assumption. rewrite Hp. cbn [option_map]. rewrite bytes_eqb_refl. cbn [negb]. fold (shifted (unshifted t)). rewrite Hsh. reflexivity.
    + rewrite Hp. rewrite bytes_eqb_refl. cbn [negb]. fold (shifted (unshifted t)). rewrite Hsh. reflexivity.
Qed.

Theorem generalized_time_iff s u : parseGeneralizedTime s = Some u <-> generalized_text s u.
Proof.
  split.
  - unfold parseGeneralizedTime. destruct (parseLong s) as [t|] eqn:Hp; [|discriminate].
    destruct (bytes_eqb (formatLong t) s) eqn:B; cbn [negb]; [|discriminate]. apply bytes_eqb_eq in B. intros H. injection H as <-.
    assert (in_range t /\ 0 <= tf_year t <= 9999) as [Hr Hy].
    { unfold parseLong in Hp. destruct (getnum true s) as [[hi s1]|] eqn:E1; [|discriminate]. destruct (getnum true s1) as [[lo s2]|] eqn:E2; [|discriminate].
      apply getnum_bound in E1, E2. destruct (parseRest_range _ _ _ _ Hp) as (Hr & Hy & _). rewrite Hy. split; [assumption | lia]. }
    assert (0 <= tf_year t / 100 <= 99) by (split; [apply Z.div_pos; lia | apply Z.lt_succ_r, Z.div_lt_upper_bound; lia]).
    pose proof (Z.mod_pos_bound (tf_year t) 100 ltac:(lia)).
    assert (Hz : parseZone (formatZone (tf_offset t)) = Some (tf_offset t, [])).
    { rewrite <- B in Hp. unfold parseLong, formatLong, fourDigits in Hp. rewrite <- app_assoc in Hp.
      rewrite getnum_two in Hp by lia. rewrite getnum_two in Hp by lia. destruct (parseRest_range _ _ _ _ Hp) as (_ & Hyy & _). rewrite <- Hyy in Hp.
      rewrite parseRest_format in Hp; [|assumption|discriminate].
      destruct (parseZone (formatZone (tf_offset t))) as [[off [|]]|]; try discriminate. injection Hp as <-. reflexivity. }
    exists (tf_year t), (twoDigits (tf_year t / 100)), (twoDigits (tf_year t mod 100)), (formatRest true t), (tf_sec t), (twoDigits (tf_sec t)).
    split; [assumption|]. split; [rewrite <- B; unfold formatLong, fourDigits; symmetry; apply app_assoc|].
    split; [split; [lia | reflexivity]|]. split; [split; [lia | reflexivity]|].
    pose proof (ir_sec _ Hr). split; [split; [lia | reflexivity]|].
    apply rest_text_iff; [assumption|]. exists t. split; [exact Hr|]. split; [exact Hz|]. repeat split.
  - intros (y & shi & slo & r & sec & ssec & Hy & -> & [Hhi ->] & [Hlo ->] & [Hs ->] & Hrest).
    assert (Hs59 : 0 <= sec <= 59) by (destruct Hrest as (? & ? & ? & ? & ? & ? & ? & ? & ? & ? & ? & H); tauto).
    apply rest_text_iff in Hrest; [|assumption]. destruct Hrest as (t & Hr & Hz & <- & <- & -> & ->).
    match goal with |- parseGeneralizedTime ?x = _ => replace x with (formatLong t) by (unfold formatLong, fourDigits; rewrite <- app_assoc; reflexivity) end.
    assert (Hp : parseLong (formatLong t) = Some t).
    { unfold parseLong, formatLong, fourDigits. rewrite <- app_assoc. rewrite getnum_two by lia. rewrite getnum_two by lia.
      replace (tf_year t / 100 * 100 + tf_year t mod 100) with (tf_year t) by (pose proof (Z.div_mod (tf_year t) 100 ltac:(lia)); lia).
      rewrite parseRest_format; [|assumption|discriminate]. rewrite Hz. destruct t; reflexivity. }
    unfold parseGeneralizedTime. rewrite Hp, bytes_eqb_refl. reflexivity.
Qed.
