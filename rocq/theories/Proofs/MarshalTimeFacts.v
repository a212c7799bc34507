(** Marshalling of times *)
From Coq Require Import Lia ZifyBool.
From Verif.Model Require Import Bytes Env Ber Asn1 GoTime GoUtf8 MarshalTime.
From Verif.Spec Require Import Ber Asn1 Asn1Value Pkcs7 Text Time X509 Asn1Der.
From Verif.Proofs Require Import BytesFacts BerFacts Asn1Codec Asn1Header Asn1Value DerFacts TextFacts TimeFacts X509Honest Asn1DerFacts.

Lemma two_ok v : 0 <= v <= 99 -> two_digits v (appendTwoDigits v).
Proof.
  intros H. split; [exact H|]. unfold appendTwoDigits. rewrite (Z.quot_div_nonneg v 10), (Z.rem_mod_nonneg v 10) by lia.
  rewrite (Z.rem_mod_nonneg (v / 10) 10) by (try apply Z.div_pos; lia). rewrite (Z.mod_small (v / 10)); [reflexivity|]. split; [apply Z.div_pos; lia|apply Z.div_lt_upper_bound; lia].
Qed.
Lemma four_ok v : 0 <= v <= 9999 -> exists hi lo, appendFourDigits v = hi ++ lo /\ two_digits (v / 100) hi /\ two_digits (v mod 100) lo.
Proof.
  intros H. exists (appendTwoDigits (v / 100)), (appendTwoDigits (v mod 100)).
  assert (0 <= v / 100 <= 99) by (split; [apply Z.div_pos; lia|assert (v / 100 < 100) by (apply Z.div_lt_upper_bound; lia); lia]).
  pose proof (Z.mod_pos_bound v 100 ltac:(lia)). split; [|split; apply two_ok; lia].
  unfold appendFourDigits, appendTwoDigits.
  assert (E1 : Z.quot (Z.quot v 10) 10 = v / 100) by (rewrite Z.quot_quot by lia; apply Z.quot_div_nonneg; lia).
  rewrite E1. cbn [app].
  assert (E2 : Z.rem (Z.quot v 10) 10 = Z.rem (Z.quot (v mod 100) 10) 10).
  { rewrite !Z.quot_div_nonneg by lia. rewrite !Z.rem_mod_nonneg by (try apply Z.div_pos; lia). pose proof (Z.div_mod v 100 ltac:(lia)) as HD.
    replace (v / 10) with (v / 100 * 10 + (v mod 100) / 10).
    - rewrite Z.add_comm, Z.mod_add by lia. reflexivity.
    - rewrite <- Z.div_add_l by lia. f_equal. lia. }
  assert (E3 : Z.rem v 10 = Z.rem (v mod 100) 10).
  { rewrite !Z.rem_mod_nonneg by lia. pose proof (Z.div_mod v 100 ltac:(lia)) as HD. rewrite HD at 1. replace (100 * (v / 100)) with (v / 100 * 10 * 10) by lia.
    rewrite Z.add_comm, Z.mod_add by lia. reflexivity. }
  rewrite E2, E3. reflexivity.
Qed.

Lemma zone_ok offset : - 90000 < offset < 90000 -> exists sz, zone_text (60 * Z.quot offset 60) sz /\
  sz = (if Z.quot offset 60 =? 0 then ["Z"%byte]
   else
     let offsetMinutes := if Z.quot offset 60 <? 0 then - Z.quot offset 60 else Z.quot offset 60 in
     (if 0 <? offset then ["+"%byte] else if offset <? 0 then ["-"%byte] else []) ++
     appendTwoDigits (Z.quot offsetMinutes 60) ++ appendTwoDigits (Z.rem offsetMinutes 60)).
Proof.
  intros H. eexists. split; [|reflexivity]. pose proof (Z.quot_rem offset 60 ltac:(lia)) as HQ.
  assert (HR : (0 <= offset -> 0 <= Z.rem offset 60 < 60) /\ (offset <= 0 -> -60 < Z.rem offset 60 <= 0)).
  { split; intros HO; [apply Z.rem_bound_pos; lia|]. pose proof (Z.rem_bound_pos (- offset) 60 ltac:(lia) ltac:(lia)) as HN. rewrite Z.rem_opp_l in HN by lia. lia. }
  set (q := Z.quot offset 60) in *. set (r := Z.rem offset 60) in *. clearbody q r.
  destruct (Z.eqb_spec q 0) as [-> |N]; [constructor|]. cbv zeta.
  set (m := if q <? 0 then - q else q). assert (Hm : 0 < m < 1500 /\ m = Z.abs q) by (unfold m; destruct (Z.ltb_spec q 0); lia). clearbody m. destruct Hm as (Hm & Em).
  rewrite Z.quot_div_nonneg, Z.rem_mod_nonneg by lia. pose proof (Z.div_mod m 60 ltac:(lia)) as HD. pose proof (Z.mod_pos_bound m 60 ltac:(lia)) as HB.
  assert (H24 : 0 <= m / 60 <= 24) by (split; [apply Z.div_pos; lia|assert (m / 60 < 25) by (apply Z.div_lt_upper_bound; lia); lia]).
  destruct (Z.ltb_spec 0 offset) as [P|P].
  - replace (60 * q) with (m / 60 * 3600 + m mod 60 * 60) by lia. apply (zt_offset false (m / 60) (m mod 60) (appendTwoDigits (m / 60)) (appendTwoDigits (m mod 60))); try lia; apply two_ok; lia.
  - assert (offset < 0) by lia. rewrite (proj2 (Z.ltb_lt offset 0)) by lia. replace (60 * q) with (- (m / 60 * 3600 + m mod 60 * 60)) by lia. apply (zt_offset true (m / 60) (m mod 60) (appendTwoDigits (m / 60)) (appendTwoDigits (m mod 60))); try lia; apply two_ok; lia.
Qed.

Lemma common_ok f t : instant (tf_year f) (tf_month f) (tf_day f) (tf_hour f) (tf_min f) (tf_sec f) (tf_offset f) t -> - 90000 < tf_offset f < 90000 ->
  rest_text (tf_year f) (tf_sec f) (appendTwoDigits (tf_sec f)) (appendTimeCommon f) (t + Z.rem (tf_offset f) 60).
Proof.
  intros (HV & Hh & Hmi & Hs & day & HD & ->) HO. destruct (zone_ok _ HO) as (sz & HZ & Esz). pose proof HV as HV'. apply valid_date_iff in HV' as (Hmo & Hd).
  assert (daysIn (tf_month f) (tf_year f) <= 31) by (unfold daysIn; repeat match goal with |- context [if ?c then _ else _] => destruct c end; lia).
  unfold appendTimeCommon. cbv zeta. cbv zeta in Esz. rewrite <- Esz.
  exists (tf_month f), (tf_day f), (tf_hour f), (tf_min f), (60 * Z.quot (tf_offset f) 60), day. do 5 eexists. split; [reflexivity|].
  do 4 (split; [apply two_ok; lia|]). split; [exact HZ|]. split; [exact HV|]. do 3 (split; [lia|]). split; [exact HD|].
  pose proof (Z.quot_rem (tf_offset f) 60 ltac:(lia)). lia.
Qed.

Theorem makeTime_written p tt f t b : tags_fit p -> instant (tf_year f) (tf_month f) (tf_day f) (tf_hour f) (tf_min f) (tf_sec f) (tf_offset f) t -> - 90000 < tf_offset f < 90000 ->
  zlen b < 2 ^ 31 -> makeTime p tt f = Some b -> time_written p (tt = 24) (tf_year f) (t + Z.rem (tf_offset f) 60) b.
Proof.
  intros HT HI HO HL. pose proof (common_ok f t HI HO) as HC. unfold makeTime. change TagGeneralizedTime with 24. change TagUTCTime with 23.
  destruct (negb (fp_stringType p =? 0)); [discriminate|]. destruct (fp_set p); [discriminate|]. cbv zeta.
  assert (HS : two_digits (tf_sec f) (appendTwoDigits (tf_sec f))) by (apply two_ok; destruct HI as (_ & _ & _ & HI & _); lia).
  destruct ((tt =? 24) || outsideUTCRange f) eqn:EG.
  - unfold appendGeneralizedTime. cbv zeta. destruct ((tf_year f <? 0) || (9999 <? tf_year f)) eqn:EY; [discriminate|]. intros E. right.
    assert (b = wrapTags p 24 false (appendFourDigits (tf_year f) ++ appendTimeCommon f)) as -> by congruence. split; [unfold outsideUTCRange in EG; lia|]. split; [lia|].
    eexists. split; [|apply wrapTags_tagged; [exact HT|unfold max_int32; lia|exact HL]].
    destruct (four_ok (tf_year f) ltac:(lia)) as (hi & lo & -> & H1 & H2). exists (tf_year f), hi, lo, (appendTimeCommon f), (tf_sec f), (appendTwoDigits (tf_sec f)).
    split; [lia|]. split; [rewrite <- app_assoc; reflexivity|]. auto.
  - assert (HY : 1950 <= tf_year f <= 2049 /\ tt <> 24) by (unfold outsideUTCRange in EG; lia). destruct HY as (HY & Htt). intros E. left. split; [exact HY|]. split; [exact Htt|].
    assert (EU : appendUTCTime f = Some (appendTwoDigits (tf_year f mod 100) ++ appendTimeCommon f)).
    { unfold appendUTCTime. cbv zeta. destruct ((1950 <=? tf_year f) && (tf_year f <? 2000)) eqn:E1; [|destruct ((2000 <=? tf_year f) && (tf_year f <? 2050)) eqn:E2; [|lia]].
      - replace (tf_year f mod 100) with (tf_year f - 1900); [reflexivity|]. apply (Z.mod_unique (tf_year f) 100 19); lia.
      - replace (tf_year f mod 100) with (tf_year f - 2000); [reflexivity|]. apply (Z.mod_unique (tf_year f) 100 20); lia. }
    rewrite EU in E. assert (b = wrapTags p 23 false (appendTwoDigits (tf_year f mod 100) ++ appendTimeCommon f)) as -> by congruence.
    eexists. split; [|apply wrapTags_tagged; [exact HT|unfold max_int32; lia|exact HL]]. pose proof (Z.mod_pos_bound (tf_year f) 100 ltac:(lia)).
    exists (tf_year f), (appendTwoDigits (tf_year f mod 100)), (appendTimeCommon f), (tf_sec f), (appendTwoDigits (tf_sec f)). split; [exact HY|]. split; [reflexivity|]. split; [apply two_ok; lia|]. auto.
Qed.
Theorem makeTime_fails p tt f : plain p -> (makeTime p tt f = None <-> ~ 0 <= tf_year f <= 9999).
Proof.
  intros (H1 & H2). unfold makeTime. rewrite H1, H2. change (0 =? 0) with true. cbn [negb]. cbv iota zeta. unfold outsideUTCRange, appendGeneralizedTime, appendUTCTime. change TagGeneralizedTime with 24. cbv zeta.
  destruct (tt =? 24); cbn [orb]; repeat match goal with |- context [if ?c then _ else _] => destruct c eqn:? end; split; intros H; try discriminate; try reflexivity; lia.
Qed.
(** Reading it back *)
Theorem makeTime_reads f tt t b rest : instant (tf_year f) (tf_month f) (tf_day f) (tf_hour f) (tf_min f) (tf_sec f) (tf_offset f) t -> - 90000 < tf_offset f < 90000 ->
  zlen b < 2 ^ 31 -> makeTime noParams tt f = Some b -> unmarshal goText TyTime (b ++ rest) = (VTime (t + Z.rem (tf_offset f) 60), Some rest).
Proof.
  intros HI HO HL HM. assert (HT : tags_fit noParams) by (split; [cbn; unfold max_int32; lia|split; [cbn; lia|discriminate]]).
  pose proof (makeTime_written noParams tt f t b HT HI HO HL HM) as HW. unfold unmarshal. apply time_field; [|exact HL].
  destruct HW as [(_ & _ & s & Hs & HD)|(_ & _ & s & Hs & HD)]; cbn [tagged noParams fp_tag] in HD.
  - apply (td_utc goText _ s); [apply utc_time_iff; exact Hs|exact HD].
  - apply (td_generalized goText _ s); [apply generalized_time_iff; exact Hs|exact HD].
Qed.
