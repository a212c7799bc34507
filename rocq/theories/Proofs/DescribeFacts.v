(** Dates, CertInfo.String and Dump (C115) *)
From Coq Require Import String Lia ZifyBool.
From Verif.Model Require Import Bytes Env GoStrings Result SigBlock Utils CertInfo GoTime Printing SchemeV3 CertPrint.
From Verif.Spec Require Import Time Describe CertPick Printing.
From Verif.Proofs Require Import BytesFacts TimeFacts PrintFacts CertInfoFacts.

(** ** absDate is the calendar *)
Lemma isLeap_mod a b c e : 0 <= b <= 3 -> 0 <= c <= 24 -> 0 <= e <= 3 ->
  isLeap (400 * a + 100 * b + 4 * c + e + 1) = (e =? 3) && (negb (c =? 24) || (b =? 3)).
Proof.
  intros. unfold isLeap.
  assert ((400 * a + 100 * b + 4 * c + e + 1) mod 4 = if e =? 3 then 0 else e + 1) as -> by
    (destruct (e =? 3) eqn:E; symmetry; [apply (Z.mod_unique _ _ (100 * a + 25 * b + c + 1)) | apply (Z.mod_unique _ _ (100 * a + 25 * b + c))]; lia).
  assert ((400 * a + 100 * b + 4 * c + e + 1) mod 100 = if (c =? 24) && (e =? 3) then 0 else 4 * c + e + 1) as -> by
    (destruct ((c =? 24) && (e =? 3)) eqn:E; symmetry; [apply (Z.mod_unique _ _ (4 * a + b + 1)) | apply (Z.mod_unique _ _ (4 * a + b))]; lia).
  assert ((400 * a + 100 * b + 4 * c + e + 1) mod 400 = if (b =? 3) && (c =? 24) && (e =? 3) then 0 else 100 * b + 4 * c + e + 1) as -> by
    (destruct ((b =? 3) && (c =? 24) && (e =? 3)) eqn:E; symmetry; [apply (Z.mod_unique _ _ (a + 1)) | apply (Z.mod_unique _ _ a)]; lia).
  destruct (b =? 3) eqn:?, (c =? 24) eqn:?, (e =? 3) eqn:?; cbn [andb negb orb]; lia.
Qed.

Definition monthDay (day : Z) : Z * Z :=
  let month := day / 31 in
  let end_ := if month =? 11 then 365 else daysBefore (month + 2) in
  if end_ <=? day then (month + 2, day - end_ + 1) else (month + 1, day - daysBefore (month + 1) + 1).
Definition md_ok (k : nat) : bool :=
  let day := Z.of_nat k in let '(m, d) := monthDay day in
  (1 <=? m) && (m <=? 12) && (1 <=? d) && (d <=? daysIn m 1) && (daysBefore m + d - 1 =? day) && Bool.eqb (3 <=? m) (59 <=? day).
Lemma monthDay_ok day : 0 <= day < 365 -> 1 <= fst (monthDay day) <= 12 /\ 1 <= snd (monthDay day) <= daysIn (fst (monthDay day)) 1 /\
  daysBefore (fst (monthDay day)) + snd (monthDay day) - 1 = day /\ (3 <=? fst (monthDay day)) = (59 <=? day).
Proof.
  intros H. assert (forallb md_ok (seq 0 365) = true) as F by (vm_compute; reflexivity).
  rewrite forallb_forall in F. specialize (F (Z.to_nat day)). rewrite in_seq in F. specialize (F ltac:(lia)).
  unfold md_ok in F. rewrite Z2Nat.id in F by lia. destruct (monthDay day) as [m d]. cbn [fst snd] in *.
  rewrite !andb_true_iff in F. destruct F as (((((F1 & F2) & F3) & F4) & F5) & F6). apply Bool.eqb_prop in F6. lia.
Qed.
Lemma daysIn_nonleap m y : daysIn m 1 <= daysIn m y.
Proof. unfold daysIn. change (isLeap 1) with false. destruct (m =? 2), (isLeap y); lia. Qed.

Definition dateIn (year yday : Z) : Z * Z * Z :=
  if isLeap year && (yday =? 59) then (year, 2, 29) else
  let day := if isLeap year && (59 <? yday) then yday - 1 else yday in (year, fst (monthDay day), snd (monthDay day)).
Lemma dateIn_ok year yday y m d : 0 <= yday < 365 + (if isLeap year then 1 else 0) -> dateIn year yday = (y, m, d) ->
  y = year /\ valid_date y m d /\ unixDay y m d = daysSince y + yday - 719162.
Proof.
  intros H. unfold dateIn. destruct (isLeap year && (yday =? 59)) eqn:E1.
  - intros E. injection E as <- <- <-. split; [reflexivity|]. apply andb_true_iff in E1. destruct E1 as [L E1]. split.
    + apply valid_date_iff. split; [lia|]. unfold daysIn. cbn [Z.eqb Pos.eqb]. rewrite L. lia.
    + unfold unixDay. rewrite L. change (true && (3 <=? 2)) with false. cbv iota. change (daysBefore 2) with 31. lia.
  - cbv zeta. set (day := if isLeap year && (59 <? yday) then yday - 1 else yday). intros E.
    assert (0 <= day < 365) as Hd by (unfold day; destruct (isLeap year) eqn:L; destruct (59 <? yday) eqn:L2; cbn [andb] in *; lia).
    pose proof (monthDay_ok day Hd) as (A & B & C & D). injection E as <- <- <-. split; [reflexivity|]. split.
    + apply valid_date_iff. split; [lia|]. pose proof (daysIn_nonleap (fst (monthDay day)) year). lia.
    + unfold unixDay. rewrite D. unfold day in *. destruct (isLeap year) eqn:L, (59 <? yday) eqn:L2; cbn [andb] in *; try lia;
        destruct (59 <=? _) eqn:L3; lia.
Qed.
Lemma absDate_in n : exists year yday, absDate n = dateIn year yday /\ 0 <= yday < 365 + (if isLeap year then 1 else 0) /\ daysSince year + yday - 719162 = n.
Proof.
  unfold absDate. cbv zeta.
  set (d0 := n + 719162). pose proof (Z.div_mod d0 146097 ltac:(lia)) as Ha. pose proof (Z.mod_pos_bound d0 146097 ltac:(lia)) as Ha'.
  set (a := d0 / 146097) in *. set (d1 := d0 - 146097 * a). assert (0 <= d1 < 146097) as H1 by lia. clear Ha'.
  assert (exists b, d1 / 36524 - d1 / 36524 / 4 = b /\ 0 <= b <= 3 /\ 0 <= d1 - 36524 * b <= 36524 /\ (b <> 3 -> d1 - 36524 * b < 36524)) as (b & -> & Hb & Hb1 & Hb2).
  { eexists. split; [reflexivity|]. pose proof (Z.div_mod d1 36524 ltac:(lia)) as P. pose proof (Z.mod_pos_bound d1 36524 ltac:(lia)) as Q. set (q := d1 / 36524) in *.
    assert (0 <= q <= 4) as Hq by lia. assert (q / 4 = if q =? 4 then 1 else 0) as -> by (assert (q = 0 \/ q = 1 \/ q = 2 \/ q = 3 \/ q = 4) as Hc by lia; repeat (destruct Hc as [-> | Hc]); [reflexivity..| subst q; rewrite Hc; reflexivity]).
    destruct (q =? 4) eqn:E; lia. }
  set (d2 := d1 - 36524 * b) in *.
  pose proof (Z.div_mod d2 1461 ltac:(lia)) as Hc. pose proof (Z.mod_pos_bound d2 1461 ltac:(lia)) as Hc'. set (c := d2 / 1461) in *.
  set (d3 := d2 - 1461 * c) in *. assert (0 <= d3 < 1461) as H3 by lia. assert (0 <= c <= 24) as Hcc by lia.
  assert (exists e, d3 / 365 - d3 / 365 / 4 = e /\ 0 <= e <= 3 /\ 0 <= d3 - 365 * e <= 365 /\ (e <> 3 -> d3 - 365 * e < 365)) as (e & -> & He & He1 & He2).
  { eexists. split; [reflexivity|]. pose proof (Z.div_mod d3 365 ltac:(lia)) as P. pose proof (Z.mod_pos_bound d3 365 ltac:(lia)) as Q. set (q := d3 / 365) in *.
    assert (0 <= q <= 4) as Hq by lia. assert (q / 4 = if q =? 4 then 1 else 0) as -> by (assert (q = 0 \/ q = 1 \/ q = 2 \/ q = 3 \/ q = 4) as Hd by lia; repeat (destruct Hd as [-> | Hd]); [reflexivity..| rewrite Hd; reflexivity]).
    destruct (q =? 4) eqn:E; lia. }
  set (yday := d3 - 365 * e) in *. set (year := 400 * a + 100 * b + 4 * c + e + 1).
  exists year, yday. split; [|split].
  - unfold dateIn, monthDay. destruct (isLeap year && (yday =? 59)); [reflexivity|]. cbv zeta.
    set (day := if isLeap year && (59 <? yday) then yday - 1 else yday).
    destruct (_ <=? day); reflexivity.
  - unfold year. rewrite isLeap_mod by lia. destruct (e =? 3) eqn:E3; cbn [andb]; [|lia].
    destruct (c =? 24) eqn:E24; cbn [negb orb]; [|lia]. destruct (b =? 3) eqn:Eb; lia.
  - unfold daysSince, year. cbv zeta. replace (400 * a + 100 * b + 4 * c + e + 1 - 1) with (400 * a + (100 * b + 4 * c + e)) by lia.
    assert ((400 * a + (100 * b + 4 * c + e)) / 400 = a) as -> by (symmetry; apply (Z.div_unique _ _ _ (100 * b + 4 * c + e)); lia).
    assert ((400 * a + (100 * b + 4 * c + e)) mod 400 = 100 * b + (4 * c + e)) as -> by (symmetry; apply (Z.mod_unique _ _ a); lia).
    assert ((100 * b + (4 * c + e)) / 100 = b) as -> by (symmetry; apply (Z.div_unique _ _ _ (4 * c + e)); lia).
    assert ((100 * b + (4 * c + e)) mod 100 = 4 * c + e) as -> by (symmetry; apply (Z.mod_unique _ _ b); lia).
    assert ((4 * c + e) / 4 = c) as -> by (symmetry; apply (Z.div_unique _ _ _ e); lia).
    assert ((4 * c + e) mod 4 = e) as -> by (symmetry; apply (Z.mod_unique _ _ c); lia).
    unfold yday, d3, d2, d1, d0. lia.
Qed.
Lemma absDate_ok n y m d : absDate n = (y, m, d) -> valid_date y m d /\ day_number (y, m, d) n.
Proof.
  destruct (absDate_in n) as (year & yday & E & H & Hn). rewrite E. intros E'. destruct (dateIn_ok _ _ _ _ _ H E') as (-> & V & U).
  split; [assumption|]. apply calendar; [assumption|]. lia.
Qed.

(** ** RFC 3339 *)
Lemma two_digits_text n s : two_digits n s -> s = twoDigits n.
Proof. intros [_ ->]. reflexivity. Qed.
Lemma two_digits_inj n n' s : two_digits n s -> two_digits n' s -> n = n'.
Proof.
  intros [H E] [H' E']. pose proof (getnum_two true n [] H) as G. pose proof (getnum_two true n' [] H') as G'.
  change (twoDigits n) with [z2b (48 + n / 10); z2b (48 + n mod 10)] in G. change (twoDigits n') with [z2b (48 + n' / 10); z2b (48 + n' mod 10)] in G'.
  rewrite <- E in G. rewrite <- E' in G'. rewrite G in G'. now injection G' as ->.
Qed.
Lemma two_digits_length n s : two_digits n s -> List.length s = 2%nat.
Proof. intros [_ ->]. reflexivity. Qed.
Lemma app_inj_length {A} (u u' r r' : list A) : List.length u = List.length u' -> u ++ r = u' ++ r' -> u = u' /\ r = r'.
Proof. revert u'. induction u as [|a u IH]; intros [|b u'] L E; try discriminate; [now split|]. cbn [app] in E. injection E as -> E. cbn [List.length] in L. destruct (IH u' ltac:(lia) E) as [-> ->]. now split. Qed.
Lemma cons_inv {A} (a b : A) u v : a :: u = b :: v -> u = v.
Proof. now intros [= _ E]. Qed.
Lemma zone_of_text off z : zone_text off z -> exists s, rfc3339_zone off s.
Proof. intros H. destruct H as [| sign h m sh sm]; eexists; econstructor; eassumption. Qed.
Definition zoneColon (off : Z) : bytes :=
  if off =? 0 then s2b "Z" else (if Z.quot off 60 <? 0 then s2b "-" else s2b "+") ++ twoDigits (Z.abs (Z.quot off 60) / 60) ++ s2b ":" ++ twoDigits (Z.abs (Z.quot off 60) mod 60).
Lemma zone_format off s : rfc3339_zone off s -> s = zoneColon off.
Proof.
  intros H. destruct H as [| sign h m sh sm Hh Hm Hs [Hh1 ->] [Hm1 ->]]; [reflexivity|].
  assert (Hq : Z.quot (h * 3600 + m * 60) 60 = h * 60 + m).
  { replace (h * 3600 + m * 60) with ((h * 60 + m) * 60) by lia. apply Z.quot_mul. lia. }
  assert (Hd : (h * 60 + m) / 60 = h) by (symmetry; apply (Z.div_unique _ _ _ m); lia).
  assert (Hr : (h * 60 + m) mod 60 = m) by (symmetry; apply (Z.mod_unique _ _ h); lia).
  unfold zoneColon. destruct sign.
  - assert (- (h * 3600 + m * 60) =? 0 = false) as -> by lia. rewrite Z.quot_opp_l, Hq, Z.abs_opp, Z.abs_eq by lia.
    assert (- (h * 60 + m) <? 0 = true) as -> by lia. rewrite Hd, Hr. reflexivity.
  - assert (h * 3600 + m * 60 =? 0 = false) as -> by lia. rewrite Hq, Z.abs_eq by lia.
    assert (h * 60 + m <? 0 = false) as -> by lia. rewrite Hd, Hr. reflexivity.
Qed.
Lemma zone_inj off off' s : rfc3339_zone off s -> rfc3339_zone off' s -> off = off'.
Proof.
  intros H H'. destruct H as [| sign h m sh sm Hh Hm Hs Th Tm]; inversion H' as [E1 E2 | sign' h' m' sh' sm' Hh' Hm' Hs' Th' Tm' E1 E2]; clear H'; try reflexivity.
  - destruct sign'; discriminate.
  - destruct sign; discriminate.
  - assert (sign' = sign /\ sh' ++ s2b ":" ++ sm' = sh ++ s2b ":" ++ sm) as [-> E] by (destruct sign, sign'; try discriminate; cbn [s2b] in E2; split; try reflexivity; now apply cons_inv in E2).
    apply app_inj_length in E; [|rewrite (two_digits_length _ _ Th), (two_digits_length _ _ Th'); reflexivity].
    destruct E as [-> E]. apply app_inv_head in E. subst sm'. rewrite (two_digits_inj _ _ _ Th Th'), (two_digits_inj _ _ _ Tm Tm'). reflexivity.
Qed.
Lemma daysSince_mono y k : 0 <= k -> daysSince y <= daysSince (y + k).
Proof.
  intros H. replace k with (Z.of_nat (Z.to_nat k)) by lia. induction (Z.to_nat k) as [|j IH]; [now rewrite Z.add_0_r|].
  replace (y + Z.of_nat (Datatypes.S j)) with (y + Z.of_nat j + 1) by lia. rewrite daysSince_next. destruct (isLeap _); lia.
Qed.
Lemma year_bounds y m d : valid_date y m d -> daysSince y <= unixDay y m d + 719162 < daysSince (y + 1).
Proof.
  intros V. apply valid_date_iff in V. destruct V as [Hm Hd]. rewrite daysSince_next. unfold unixDay, daysIn in *.
  assert (m = 1 \/ m = 2 \/ m = 3 \/ m = 4 \/ m = 5 \/ m = 6 \/ m = 7 \/ m = 8 \/ m = 9 \/ m = 10 \/ m = 11 \/ m = 12) as Hc by lia.
  revert Hd. generalize (daysSince y) as D. intros D. destruct (isLeap y); repeat (destruct Hc as [-> | Hc]); try subst m; unfold daysBefore; simpl; lia.
Qed.
Lemma same_year y m d y' m' d' n : valid_date y m d -> valid_date y' m' d' -> day_number (y, m, d) n -> day_number (y', m', d') n -> y = y'.
Proof.
  intros V V' N N'. apply calendar in N; [|assumption]. apply calendar in N'; [|assumption].
  pose proof (year_bounds _ _ _ V). pose proof (year_bounds _ _ _ V').
  destruct (Z.lt_trichotomy y y') as [L | [L | L]]; [|assumption|]; exfalso.
  - pose proof (daysSince_mono (y + 1) (y' - y - 1) ltac:(lia)) as M. replace (y + 1 + (y' - y - 1)) with y' in M by lia. lia.
  - pose proof (daysSince_mono (y' + 1) (y - y' - 1) ltac:(lia)) as M. replace (y' + 1 + (y - y' - 1)) with y in M by lia. lia.
Qed.
Lemma two_digits_intro v : 0 <= v <= 99 -> two_digits v (twoDigits v).
Proof. split; [assumption | reflexivity]. Qed.
Lemma format_ok off t : zone_offset off -> four_digit_year off t -> rfc3339_text off (formatRFC3339 off t) t.
Proof.
  intros [z Hz] (y & mo & d & V & Y & N). apply zone_of_text in Hz. destruct Hz as [sz Hz].
  unfold formatRFC3339. cbv zeta. destruct (absDate ((t + off) / 86400)) as [[y' m'] d'] eqn:E.
  destruct (absDate_ok _ _ _ _ E) as [V' N'].
  fold (zoneColon off). rewrite <- (zone_format _ _ Hz).
  assert (0 <= y' <= 9999) as Y'.
  { assert (y = y') as <- by (eapply same_year; eassumption). exact Y. }
  clear V N Y y mo d. rename V' into V, N' into N, Y' into Y, y' into y, m' into mo, d' into d.
  set (s := (t + off) mod 86400). assert (0 <= s < 86400) as Hs by (apply Z.mod_pos_bound; lia).
  pose proof (Z.div_mod (t + off) 86400 ltac:(lia)) as D. fold s in D.
  pose proof (Z.div_mod s 3600 ltac:(lia)) as D1. pose proof (Z.mod_pos_bound s 3600 ltac:(lia)) as D2.
  pose proof (Z.div_mod (s mod 3600) 60 ltac:(lia)) as D3. pose proof (Z.mod_pos_bound (s mod 3600) 60 ltac:(lia)) as D4.
  assert (s mod 60 = s mod 3600 mod 60) as D5.
  { pose proof (Z.div_mod s 60 ltac:(lia)). pose proof (Z.mod_pos_bound s 60 ltac:(lia)). apply (Z.mod_unique_pos _ _ (s / 60 - 60 * (s / 3600))); lia. }
  exists y, mo, d, (s / 3600), (s mod 3600 / 60), (s mod 60), ((t + off) / 86400), (twoDigits (y / 100)), (twoDigits (y mod 100)), (twoDigits mo), (twoDigits d),
    (twoDigits (s / 3600)), (twoDigits (s mod 3600 / 60)), (twoDigits (s mod 60)), sz.
  split. { unfold fourDigits. now rewrite <- app_assoc. }
  pose proof V as V0. apply valid_date_iff in V0. destruct V0 as [M1 M2]. pose proof (daysIn_le mo y).
  assert (0 <= y / 100 < 100) by (split; [apply Z.div_pos; lia | apply Z.div_lt_upper_bound; lia]).
  pose proof (Z.mod_pos_bound y 100 ltac:(lia)).
  repeat (match goal with |- _ /\ _ => split end); try apply two_digits_intro; try eassumption; try lia.
Qed.
Lemma date_inj y y' mo mo' d d' day day' : y / 100 = y' / 100 -> y mod 100 = y' mod 100 -> mo = mo' -> d = d' -> valid_date y mo d ->
  day_number (y, mo, d) day -> day_number (y', mo', d') day' -> day = day'.
Proof.
  intros Q R -> -> V N N'. assert (y = y') as <- by (rewrite (Z.div_mod y 100), (Z.div_mod y' 100), Q, R by lia; reflexivity).
  apply calendar in N; [|assumption]. apply calendar in N'; [|assumption]. now rewrite N, N'.
Qed.
Lemma rfc3339_inj off off' s t t' s' : rfc3339_text off s t -> rfc3339_text off' s' t' -> s = s' -> off = off' /\ t = t'.
Proof.
  intros (y & mo & d & h & mi & sec & day & sy & sy' & smo & sd & sh & smi & ss & sz & -> & Ty & Ty' & Tmo & Td & Th & Tmi & Ts & Tz & V & Hh & Hmi & Hsec & N & ->)
         (y2 & mo2 & d2 & h2 & mi2 & sec2 & day2 & sy2 & sy2' & smo2 & sd2 & sh2 & smi2 & ss2 & sz2 & -> & Ty2 & Ty2' & Tmo2 & Td2 & Th2 & Tmi2 & Ts2 & Tz2 & V2 & Hh2 & Hmi2 & Hsec2 & N2 & ->) E.
  assert (two : forall n n' a b u v, two_digits n a -> two_digits n' b -> a ++ u = b ++ v -> n = n' /\ u = v).
  { intros n n' a b u v Ha Hb Q. apply app_inj_length in Q; [|now rewrite (two_digits_length _ _ Ha), (two_digits_length _ _ Hb)].
    destruct Q as [-> ->]. split; [eapply two_digits_inj; eassumption | reflexivity]. }
  apply (two _ _ _ _ _ _ Ty Ty2) in E. destruct E as [E1 E]. apply (two _ _ _ _ _ _ Ty' Ty2') in E. destruct E as [E2 E]. apply app_inv_head in E.
  apply (two _ _ _ _ _ _ Tmo Tmo2) in E. destruct E as [E3 E]. apply app_inv_head in E.
  apply (two _ _ _ _ _ _ Td Td2) in E. destruct E as [E4 E]. apply app_inv_head in E.
  apply (two _ _ _ _ _ _ Th Th2) in E. destruct E as [E5 E]. apply app_inv_head in E.
  apply (two _ _ _ _ _ _ Tmi Tmi2) in E. destruct E as [E6 E]. apply app_inv_head in E.
  apply (two _ _ _ _ _ _ Ts Ts2) in E. destruct E as [E7 E]. subst sz2.
  pose proof (zone_inj _ _ _ Tz Tz2) as <-.
  rewrite (date_inj _ _ _ _ _ _ _ _ E1 E2 E3 E4 V N N2), E5, E6, E7. now split.
Qed.

(** ** Lines *)
Lemma split_at (c : byte) : forall u u' r r', ~ In c u -> ~ In c u' -> u ++ c :: r = u' ++ c :: r' -> u = u' /\ r = r'.
Proof.
  induction u as [|a u IH]; intros [|b u'] r r' H H' E; cbn [app] in E.
  - apply cons_inv in E. now split.
  - exfalso. apply H'. left. now injection E as -> _.
  - exfalso. apply H. left. now injection E as -> _.
  - assert (a = b) as <- by now injection E. apply cons_inv in E.
    destruct (IH u' r r') as [-> ->]; [intros I; apply H; now right | intros I; apply H'; now right | assumption | now split].
Qed.
Lemma split_sep (c : byte) sep u u' r r' : hd_error sep = Some c -> ~ In c u -> ~ In c u' -> u ++ sep ++ r = u' ++ sep ++ r' -> u = u' /\ r = r'.
Proof.
  destruct sep as [|c' sep]; [discriminate|]. intros H. cbn [hd_error] in H. injection H as ->. intros Hu Hu' E. cbn [app] in E.
  apply (split_at c) in E; [|assumption..]. destruct E as [-> E]. apply app_inv_head in E. now split.
Qed.
Lemma alphabet_no c n x : ~ In c hex_alphabet -> nth_error hex_alphabet n = Some x -> x <> c.
Proof. intros H E ->. apply nth_error_In in E. contradiction. Qed.
Lemma hex_text_no c : ~ In c hex_alphabet -> forall d s, hex_text d s -> ~ In c s.
Proof.
  intros Hc d s H. induction H as [| b data hi lo s H1 H2 _ IH]; [intros []|].
  intros [I | [I | I]]; [exact (alphabet_no _ _ _ Hc H1 I) | exact (alphabet_no _ _ _ Hc H2 I) | exact (IH I)].
Qed.
Lemma hex_encode_no c d : ~ In c hex_alphabet -> ~ In c (hex_encode d).
Proof. intros H. eapply hex_text_no; [exact H | apply hex_encode_text]. Qed.
Lemma hex_encode_inj a b : hex_encode a = hex_encode b -> a = b.
Proof. intros E. eapply hex_text_inj; [apply hex_encode_text|]. rewrite E. apply hex_encode_text. Qed.
Lemma numeral_no c : ~ In c hex_alphabet -> forall s n, hex_numeral s n -> ~ In c s.
Proof.
  intros Hc s n H. induction H as [x n Hn E | s v x n H IH Hn E].
  - intros [I | []]. exact (alphabet_no _ _ _ Hc E I).
  - rewrite in_app_iff. intros [I | [I | []]]; [exact (IH I) | exact (alphabet_no _ _ _ Hc E I)].
Qed.
Lemma pad_no c w n : ~ In c hex_alphabet -> 0 <= n < 2 ^ 32 -> ~ In c (fmtHexPad w n).
Proof. intros H Hn. eapply numeral_no; [exact H | apply fmtHexPad_numeral, Hn]. Qed.
Ltac not_alphabet := vm_compute; intuition discriminate.
Lemma algorithm_no a : ~ In x0a (sigAlgorithmString a).
Proof.
  destruct (algorithm_cases a) as [(n & I & ->) | ->].
  - assert (forallb (fun p => negb (existsb (Byte.eqb x0a) (snd p))) algorithmNames = true) as F by (vm_compute; reflexivity).
    rewrite forallb_forall in F. specialize (F _ I). cbn [snd] in F. intros J. rewrite negb_true_iff in F.
    assert (existsb (Byte.eqb x0a) n = true) as F' by (apply existsb_exists; exists x0a; split; [assumption | reflexivity]). now rewrite F in F'.
  - rewrite in_app_iff. intros [I | I]; [vm_compute in I; intuition discriminate|].
    revert I. apply pad_no; [not_alphabet | apply Z.mod_pos_bound; lia].
Qed.
Lemma mod_int32_inj x y : - 2 ^ 31 <= x < 2 ^ 31 -> - 2 ^ 31 <= y < 2 ^ 31 -> x mod 2 ^ 32 = y mod 2 ^ 32 -> x = y.
Proof.
  intros Bx By E. assert (H : forall z, - 2 ^ 31 <= z < 2 ^ 31 -> z = (if z mod 2 ^ 32 <? 2 ^ 31 then z mod 2 ^ 32 else z mod 2 ^ 32 - 2 ^ 32)).
  { intros z Bz. destruct (Z_lt_ge_dec z 0).
    - replace (z mod 2 ^ 32) with (z + 2 ^ 32).
      + destruct (Z.ltb_spec (z + 2 ^ 32) (2 ^ 31)); lia.
      + rewrite <- (Z.mod_small (z + 2 ^ 32) (2 ^ 32)) by lia. rewrite <- (Z_mod_plus_full z 1 (2 ^ 32)). f_equal. all: lia.
    - rewrite Z.mod_small by lia. destruct (Z.ltb_spec z (2 ^ 31)); lia. }
  rewrite (H x Bx), (H y By), E. reflexivity.
Qed.

(** ** The dump *)
Section Dump.
  Variable E : env.
  Variable from to : cert -> bytes. Variable issuer subject : cert -> pkix_name.
  Definition dump (n : lnode) : bytes := lineageNodeDump E (from (ln_cert n)) (to (ln_cert n)) (issuer (ln_cert n)) (subject (ln_cert n)) n.
  Lemma dump_inj n n' : int32 (ln_parent_algo n) -> int32 (ln_algo n) -> int32 (ln_flags n) -> int32 (ln_parent_algo n') -> int32 (ln_algo n') -> int32 (ln_flags n') ->
    (c_raw (ln_cert n) = c_raw (ln_cert n') -> ln_cert n = ln_cert n') -> dump n = dump n' ->
    (c_raw (ln_cert n) <> c_raw (ln_cert n') /\ e_hash E HSha1 (c_raw (ln_cert n)) = e_hash E HSha1 (c_raw (ln_cert n'))) \/
    ln_cert n = ln_cert n' /\ ln_parent_algo n = ln_parent_algo n' /\ ln_algo n = ln_algo n' /\ ln_flags n = ln_flags n' /\ e_hash E HSha1 (ln_signature n) = e_hash E HSha1 (ln_signature n').
  Proof.
    intros P1 P2 P3 Q1 Q2 Q3 Same D. unfold dump, lineageNodeDump in D. apply app_inv_head in D.
    apply (split_sep x3a) in D; [|reflexivity | apply hex_encode_no; not_alphabet..]. destruct D as [D1 D]. apply hex_encode_inj in D1.
    destruct (bytes_eqb (c_raw (ln_cert n)) (c_raw (ln_cert n'))) eqn:R.
    2: { left. split; [|assumption]. intros R'. apply bytes_eqb_neq in R. contradiction. }
    right. apply bytes_eqb_eq in R. specialize (Same R). split; [assumption|]. rewrite <- Same in D.
    repeat apply app_inv_head in D.
    apply (split_sep x0a) in D; [|reflexivity | apply algorithm_no..]. destruct D as [D2 D]. apply sigAlgorithm_inj in D2; [|assumption..]. split; [assumption|].
    apply app_inv_head in D. apply (split_sep x0a) in D; [|reflexivity | apply algorithm_no..]. destruct D as [D3 D]. apply sigAlgorithm_inj in D3; [|assumption..]. split; [assumption|].
    apply app_inv_head in D. apply (split_sep x0a) in D; [|reflexivity | apply hex_encode_no; not_alphabet..]. destruct D as [D4 D]. apply hex_encode_inj in D4.
    apply app_inv_head in D.
    assert (forall z, 0 <= z mod 2 ^ 32 < 2 ^ 32) as M by (intros; apply Z.mod_pos_bound; lia).
    apply (split_sep x20) in D; [|reflexivity | apply pad_no; [not_alphabet | apply M]..]. destruct D as [D5 _]. apply fmtHexPad_inj in D5; [|apply M..].
    split; [now apply mod_int32_inj | assumption].
  Qed.
End Dump.
