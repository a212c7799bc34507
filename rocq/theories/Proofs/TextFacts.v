(** UTF-8 and UTF-16 (C83). *)
From Coq Require Import Lia ZifyBool.
From Verif.Model Require Import Bytes Env Asn1 GoUtf8.
From Verif.Spec Require Import Text.
From Verif.Proofs Require Import BytesFacts.

Lemma b2z_small n : 0 <= n < 256 -> b2z (z2b n) = n.
Proof. intros H. rewrite b2z_z2b. apply Z.mod_small. lia. Qed.
Lemma byte_z2b c n : b2z c = n -> z2b n = c.
Proof. intros <-. apply z2b_b2z. Qed.

(** A character at the front *)
Definition char_at (c : Z) (p r : bytes) : Prop := scalar_value c /\ exists part, utf8 c part /\ p = part ++ r.

Lemma utf8First_some c size lo hi : 128 <= c < 256 -> utf8First c = Some (size, lo, hi) ->
  (size = 2 /\ 194 <= c <= 223 /\ lo = 128 /\ hi = 191) \/
  (size = 3 /\ 224 <= c <= 239 /\ lo = (if c =? 224 then 160 else 128) /\ hi = (if c =? 237 then 159 else 191)) \/
  (size = 4 /\ 240 <= c <= 244 /\ lo = (if c =? 240 then 144 else 128) /\ hi = (if c =? 244 then 143 else 191)).
Proof.
  intros Hc. unfold utf8First.
  destruct (c <? 194) eqn:E1; [discriminate|].
  destruct (c <=? 223) eqn:E2; [intros H; injection H as <- <- <-; lia|].
  destruct (c =? 224) eqn:E3; [intros H; injection H as <- <- <-; right; left; destruct (c =? 237) eqn:?; lia|].
  destruct (c <=? 236) eqn:E4; [intros H; injection H as <- <- <-; right; left; destruct (c =? 237) eqn:?; lia|].
  destruct (c =? 237) eqn:E5; [intros H; injection H as <- <- <-; lia|].
  destruct (c <=? 239) eqn:E6; [intros H; injection H as <- <- <-; lia|].
  destruct (c =? 240) eqn:E7; [intros H; injection H as <- <- <-; destruct (c =? 244) eqn:?; lia|].
  destruct (c <=? 243) eqn:E8; [intros H; injection H as <- <- <-; destruct (c =? 244) eqn:?; lia|].
  destruct (c =? 244) eqn:E9; [intros H; injection H as <- <- <-; lia|discriminate].
Qed.
Lemma inRange_iff lo hi c : inRange lo hi c = true <-> lo <= b2z c <= hi.
Proof. unfold inRange. lia. Qed.

Lemma utf8Step_char p r : utf8Step p = Some r -> exists c, char_at c p r.
Proof.
  unfold utf8Step. destruct p as [|c p]; [discriminate|]. pose proof (b2z_range c) as Hc.
  destruct (b2z c <? 128) eqn:E0.
  { intros H. injection H as <-. exists (b2z c). split; [split; lia|]. exists [c]. split; [|reflexivity].
    rewrite <- (z2b_b2z c) at 2. constructor. lia. }
  destruct (utf8First (b2z c)) as [[[size lo] hi]|] eqn:EF; [|discriminate].
  apply utf8First_some in EF; [|lia].
  destruct p as [|c1 p]; [discriminate|]. destruct (inRange lo hi c1) eqn:R1; cbn [negb]; [|discriminate]. apply inRange_iff in R1.
  pose proof (b2z_range c1) as Hc1.
  destruct (size =? 2) eqn:S2.
  { intros H. injection H as <-. exists ((b2z c - 192) * 64 + (b2z c1 - 128)).
    assert (194 <= b2z c <= 223 /\ lo = 128 /\ hi = 191) as (H1 & -> & ->) by lia.
    split; [split; lia|]. exists [c; c1]. split; [|reflexivity].
    rewrite <- (byte_z2b c (192 + (b2z c - 192))), <- (byte_z2b c1 (128 + (b2z c1 - 128))) by lia.
    rewrite !b2z_small by lia. replace (192 + (b2z c - 192)) with (b2z c) by lia. replace (128 + (b2z c1 - 128)) with (b2z c1) by lia.
    replace (b2z c) with (192 + (b2z c - 192)) at 2 by lia. replace (b2z c1) with (128 + (b2z c1 - 128)) at 2 by lia.
    apply utf8_2; lia. }
  destruct p as [|c2 p]; [discriminate|]. destruct (inRange 128 191 c2) eqn:R2; cbn [negb]; [|discriminate]. apply inRange_iff in R2.
  destruct (size =? 3) eqn:S3.
  { intros H. injection H as <-. exists (((b2z c - 224) * 64 + (b2z c1 - 128)) * 64 + (b2z c2 - 128)).
    assert (224 <= b2z c <= 239 /\ lo = (if b2z c =? 224 then 160 else 128) /\ hi = (if b2z c =? 237 then 159 else 191)) as (H1 & -> & ->) by lia.
    assert (128 <= b2z c1 <= 191) by (destruct (b2z c =? 224), (b2z c =? 237); lia).
    assert (b2z c = 224 -> 160 <= b2z c1) by (intros E; rewrite E in R1; cbn in R1; lia).
    assert (b2z c = 237 -> b2z c1 <= 159) by (intros E; rewrite E in R1; cbn in R1; lia).
    clear R1. split; [split; lia|]. exists [c; c1; c2]. split; [|reflexivity].
    rewrite <- (byte_z2b c (224 + (b2z c - 224))) at 2 by lia. rewrite <- (byte_z2b c1 (128 + (b2z c1 - 128))) at 2 by lia.
    rewrite <- (byte_z2b c2 (128 + (b2z c2 - 128))) at 2 by lia.
    apply utf8_3; lia. }
  destruct p as [|c3 p]; [discriminate|]. destruct (inRange 128 191 c3) eqn:R3; cbn [negb]; [|discriminate]. apply inRange_iff in R3.
  intros H. injection H as <-. exists ((((b2z c - 240) * 64 + (b2z c1 - 128)) * 64 + (b2z c2 - 128)) * 64 + (b2z c3 - 128)).
  assert (240 <= b2z c <= 244 /\ lo = (if b2z c =? 240 then 144 else 128) /\ hi = (if b2z c =? 244 then 143 else 191)) as (H1 & -> & ->) by lia.
  assert (128 <= b2z c1 <= 191) by (destruct (b2z c =? 240), (b2z c =? 244); lia).
  assert (b2z c = 240 -> 144 <= b2z c1) by (intros E; rewrite E in R1; cbn in R1; lia).
  assert (b2z c = 244 -> b2z c1 <= 143) by (intros E; rewrite E in R1; cbn in R1; lia).
  clear R1. split; [split; lia|]. exists [c; c1; c2; c3]. split; [|reflexivity].
  rewrite <- (byte_z2b c (240 + (b2z c - 240))) at 2 by lia. rewrite <- (byte_z2b c1 (128 + (b2z c1 - 128))) at 2 by lia.
  rewrite <- (byte_z2b c2 (128 + (b2z c2 - 128))) at 2 by lia. rewrite <- (byte_z2b c3 (128 + (b2z c3 - 128))) at 2 by lia.
  apply utf8_4; lia.
Qed.

Lemma utf8First_2 c : 194 <= c <= 223 -> utf8First c = Some (2, 128, 191).
Proof. intros H. unfold utf8First. assert (c <? 194 = false) as -> by lia. assert (c <=? 223 = true) as -> by lia. reflexivity. Qed.
Lemma utf8First_3 c : 224 <= c <= 239 -> utf8First c = Some (3, if c =? 224 then 160 else 128, if c =? 237 then 159 else 191).
Proof.
  intros H. assert (c = 224 \/ 225 <= c <= 236 \/ c = 237 \/ 238 <= c <= 239) as [-> | [Hc | [-> | Hc]]] by lia; try reflexivity; unfold utf8First.
  - assert (c <? 194 = false) as -> by lia. assert (c <=? 223 = false) as -> by lia. assert (c =? 224 = false) as -> by lia. assert (c <=? 236 = true) as -> by lia. assert (c =? 237 = false) as -> by lia. reflexivity.
  - assert (c <? 194 = false) as -> by lia. assert (c <=? 223 = false) as -> by lia. assert (c =? 224 = false) as -> by lia. assert (c <=? 236 = false) as -> by lia. assert (c =? 237 = false) as -> by lia. assert (c <=? 239 = true) as -> by lia. reflexivity.
Qed.
Lemma utf8First_4 c : 240 <= c <= 244 -> utf8First c = Some (4, if c =? 240 then 144 else 128, if c =? 244 then 143 else 191).
Proof. intros H. assert (c = 240 \/ c = 241 \/ c = 242 \/ c = 243 \/ c = 244) as [-> | [-> | [-> | [-> | ->]]]] by lia; reflexivity. Qed.

Lemma char_utf8Step c p r : char_at c p r -> utf8Step p = Some r.
Proof.
  intros ([Hs1 Hs2] & part & H & ->). unfold utf8Step. destruct H as [H | a b H Hb -> | a b d H Hb Hd -> | a b d e H Hb Hd He ->]; cbn [app].
  - rewrite b2z_small by lia. assert (c <? 128 = true) as -> by lia. reflexivity.
  - rewrite b2z_small by lia. assert (192 + a <? 128 = false) as -> by lia. rewrite utf8First_2 by lia.
    assert (inRange 128 191 (z2b (128 + b)) = true) as -> by (apply inRange_iff; rewrite b2z_small; lia). reflexivity.
  - rewrite b2z_small by lia. assert (224 + a <? 128 = false) as -> by lia. rewrite utf8First_3 by lia.
    assert (inRange (if 224 + a =? 224 then 160 else 128) (if 224 + a =? 237 then 159 else 191) (z2b (128 + b)) = true) as ->.
    { apply inRange_iff. rewrite b2z_small by lia. destruct (224 + a =? 224) eqn:?, (224 + a =? 237) eqn:?; lia. }
    assert (inRange 128 191 (z2b (128 + d)) = true) as -> by (apply inRange_iff; rewrite b2z_small; lia). reflexivity.
  - rewrite b2z_small by lia. assert (240 + a <? 128 = false) as -> by lia. rewrite utf8First_4 by lia.
    assert (inRange (if 240 + a =? 240 then 144 else 128) (if 240 + a =? 244 then 143 else 191) (z2b (128 + b)) = true) as ->.
    { apply inRange_iff. rewrite b2z_small by lia. destruct (240 + a =? 240) eqn:?, (240 + a =? 244) eqn:?; lia. }
    assert (inRange 128 191 (z2b (128 + d)) = true) as -> by (apply inRange_iff; rewrite b2z_small; lia).
    assert (inRange 128 191 (z2b (128 + e)) = true) as -> by (apply inRange_iff; rewrite b2z_small; lia). reflexivity.
Qed.
Lemma utf8_nonempty c part : utf8 c part -> (0 < length part)%nat.
Proof. intros H. destruct H; cbn; lia. Qed.

Lemma utf8Loop_iff fuel p : (length p <= fuel)%nat -> (utf8Loop fuel p = true <-> exists cs, utf8_text cs p).
Proof.
  revert p. induction fuel as [|f IH]; intros p Hl.
  { destruct p; [|cbn in Hl; lia]. split; [|reflexivity]. intros _. exists []. split; [constructor|]. exists []. split; [constructor | reflexivity]. }
  destruct p as [|x p].
  { split; [|reflexivity]. intros _. exists []. split; [constructor|]. exists []. split; [constructor | reflexivity]. }
  cbn [utf8Loop]. split.
  - destruct (utf8Step (x :: p)) as [r|] eqn:E; [|discriminate]. intros H.
    destruct (utf8Step_char _ _ E) as (c & Hc & part & Hu & Hp).
    assert (length r <= f)%nat. { apply utf8_nonempty in Hu. apply (f_equal (@length byte)) in Hp. rewrite app_length in Hp. cbn in Hp, Hl. lia. }
    apply IH in H; [|assumption]. destruct H as (cs & Hcs & parts & Hps & ->).
    exists (c :: cs). split; [constructor; assumption|]. exists (part :: parts). split; [constructor; assumption | exact Hp].
  - intros (cs & Hcs & parts & Hps & Hp). destruct Hps as [|c part cs parts Hu Hps]; [discriminate|].
    inversion Hcs; subst. cbn [concat] in Hp.
    rewrite (char_utf8Step c (x :: p) (concat parts)) by (split; [assumption|]; exists part; auto).
    apply IH. { apply utf8_nonempty in Hu. apply (f_equal (@length byte)) in Hp. rewrite app_length in Hp. cbn in Hp, Hl. lia. }
    exists cs. split; [assumption|]. exists parts. auto.
Qed.
Theorem utf8Valid_iff b : utf8Valid b = true <-> exists cs, utf8_text cs b.
Proof. apply utf8Loop_iff. lia. Qed.

(** The characters are determined by the bytes. *)
Lemma utf8_unique_head c c' part part' r r' : utf8 c part -> utf8 c' part' -> part ++ r = part' ++ r' -> scalar_value c -> scalar_value c' -> c = c' /\ r = r'.
Proof.
  intros H H' E [S1 _] [S2 _].
  destruct H as [H | a b H Hb -> | a b d H Hb Hd -> | a b d e H Hb Hd He ->];
  destruct H' as [H' | a' b' H' Hb' -> | a' b' d' H' Hb' Hd' -> | a' b' d' e' H' Hb' Hd' He' ->]; cbn [app] in E;
  (match goal with _ : z2b ?x :: _ = z2b ?y :: _ |- _ => assert (x = y) as Ex by (rewrite <- (b2z_small x), <- (b2z_small y) by lia; congruence) end); try lia.
  - split; [assumption | congruence].
  - assert (128 + b = 128 + b') as Ey by (rewrite <- (b2z_small (128 + b)), <- (b2z_small (128 + b')) by lia; congruence). split; [lia | congruence].
  - assert (128 + b = 128 + b') as Ey by (rewrite <- (b2z_small (128 + b)), <- (b2z_small (128 + b')) by lia; congruence).
    assert (128 + d = 128 + d') as Ez by (rewrite <- (b2z_small (128 + d)), <- (b2z_small (128 + d')) by lia; congruence). split; [lia | congruence].
  - assert (128 + b = 128 + b') as Ey by (rewrite <- (b2z_small (128 + b)), <- (b2z_small (128 + b')) by lia; congruence).
    assert (128 + d = 128 + d') as Ez by (rewrite <- (b2z_small (128 + d)), <- (b2z_small (128 + d')) by lia; congruence).
    assert (128 + e = 128 + e') as Ew by (rewrite <- (b2z_small (128 + e)), <- (b2z_small (128 + e')) by lia; congruence). split; [lia | congruence].
Qed.
Theorem utf8_text_unique cs cs' b : utf8_text cs b -> utf8_text cs' b -> cs = cs'.
Proof.
  intros (Hs & parts & Hp & ->) (Hs' & parts' & Hp' & E). revert cs' Hs' parts' Hp' E. induction Hp as [|c part cs parts Hu Hps IH]; intros cs' Hs' parts' Hp' E.
  - destruct Hp' as [|c' part' cs' parts' Hu' Hps']; [reflexivity|]. apply utf8_nonempty in Hu'. destruct part'; [cbn in Hu'; lia | discriminate].
  - destruct Hp' as [|c' part' cs' parts' Hu' Hps'].
    { apply utf8_nonempty in Hu. destruct part; [cbn in Hu; lia | discriminate]. }
    inversion Hs; inversion Hs'; subst. cbn [concat] in E.
    destruct (utf8_unique_head _ _ _ _ _ _ Hu Hu' E ltac:(assumption) ltac:(assumption)) as [-> Er]. f_equal. eapply IH; eassumption.
Qed.

(** ** UTF-16 *)
Lemma appendRune_utf8 c : scalar_value c -> utf8 c (appendRune c).
Proof.
  intros [H1 H2]. unfold appendRune.
  pose proof (Z.div_mod c 64 ltac:(lia)) as D1. pose proof (Z.mod_pos_bound c 64 ltac:(lia)) as B1.
  pose proof (Z.div_mod (c / 64) 64 ltac:(lia)) as D2. pose proof (Z.mod_pos_bound (c / 64) 64 ltac:(lia)) as B2.
  pose proof (Z.div_mod (c / 64 / 64) 64 ltac:(lia)) as D3. pose proof (Z.mod_pos_bound (c / 64 / 64) 64 ltac:(lia)) as B3.
  rewrite Z.div_div in D2, D3, B3 by lia. change (64 * 64) with 4096 in *. rewrite Z.div_div in D3 by lia. change (4096 * 64) with 262144 in *.
  destruct (c <? 128) eqn:E1; [constructor; lia|].
  destruct (c <? 2048) eqn:E2; [apply utf8_2; lia|].
  destruct (c <? 65536) eqn:E3; [apply utf8_3; lia|].
  apply utf8_4; lia.
Qed.
Lemma utf8_appendRune c part : utf8 c part -> scalar_value c -> part = appendRune c.
Proof.
  intros H Hs. pose proof (appendRune_utf8 c Hs) as H'.
  destruct H as [H | a b H Hb -> | a b d H Hb Hd -> | a b d e H Hb Hd He ->]; inversion H' as [? | a' b' ? ? Ec | a' b' d' ? ? ? Ec | a' b' d' e' ? ? ? ? Ec]; try lia.
  - reflexivity.
  - assert (b = b' /\ a = a') as [-> ->] by lia. reflexivity.
  - assert (d = d' /\ b = b' /\ a = a') as (-> & -> & ->) by lia. reflexivity.
  - assert (e = e' /\ d = d' /\ b = b' /\ a = a') as (-> & -> & -> & ->) by lia. reflexivity.
Qed.
Lemma utf8_text_append cs b : Forall scalar_value cs -> (utf8_text cs b <-> b = concat (map appendRune cs)).
Proof.
  intros Hs. split.
  - intros (_ & parts & Hp & ->). f_equal. revert Hs. induction Hp as [|c part cs parts Hu Hps IH]; intros Hs; [reflexivity|].
    inversion Hs; subst. cbn [map]. f_equal; [apply utf8_appendRune; assumption | apply IH; assumption].
  - intros ->. split; [assumption|]. exists (map appendRune cs). split; [|reflexivity].
    induction Hs as [|c cs Hc Hcs IH]; constructor; [apply appendRune_utf8; assumption | assumption].
Qed.

Lemma utf16Decode_spec us : utf16 us (utf16Decode us).
Proof.
  remember (length us) as n eqn:En. assert (length us <= n)%nat as Hn by lia. clear En. revert us Hn.
  induction n as [|n IH]; intros us Hn. { destruct us; [constructor | cbn in Hn; lia]. }
  destruct us as [|r us]; [constructor|]. cbn [length] in Hn. cbn [utf16Decode].
  destruct ((r <? 55296) || (57344 <=? r)) eqn:E1. { apply u16_single; [unfold high; lia | unfold low; lia |]. apply IH. lia. }
  destruct us as [|l us].
  { destruct (Z.lt_ge_cases r 56320); [apply u16_high; [unfold high; lia | discriminate |] | apply u16_low; [unfold low; lia |]]; constructor. }
  destruct ((r <? 56320) && (56320 <=? l) && (l <? 57344)) eqn:E2.
  { replace ((r - 55296) * 1024 + (l - 56320) + 65536) with (65536 + (r - 55296) * 1024 + (l - 56320)) by lia.
    apply u16_pair; [unfold high; lia | unfold low; lia |]. apply IH. cbn in Hn. lia. }
  destruct (Z.lt_ge_cases r 56320).
  - apply u16_high; [unfold high; lia | intros l' t E; injection E as <- <-; unfold low; lia | apply IH; lia].
  - apply u16_low; [unfold low; lia | apply IH; lia].
Qed.
Lemma utf16_unique us cs : utf16 us cs -> forall cs', utf16 us cs' -> cs = cs'.
Proof.
  unfold high, low. induction 1 as [| u us cs N1 N2 H IH | h l us cs H1 H2 H IH | h us cs H1 N H IH | l us cs H1 H IH]; intros cs' H'; inversion H'; subst; unfold high, low in *; try lia.
  - reflexivity.
  - f_equal. apply IH. assumption.
  - f_equal. apply IH. assumption.
  - exfalso. eapply H5; [reflexivity | lia].
  - exfalso. eapply N; [reflexivity | lia].
  - f_equal. apply IH. assumption.
  - f_equal. apply IH. assumption.
Qed.
Lemma utf16_scalar us cs : utf16 us cs -> Forall (fun u => 0 <= u < 65536) us -> Forall scalar_value cs.
Proof.
  unfold high, low. induction 1 as [| u us cs N1 N2 H IH | h l us cs H1 H2 H IH | h us cs H1 N H IH | l us cs H1 H IH]; intros Hu; [constructor|..].
  - inversion Hu; subst. unfold high, low in *. constructor; [unfold scalar_value; lia | auto].
  - inversion Hu as [|? ? ? Hu']; subst. inversion Hu'; subst. unfold high, low in *. constructor; [unfold scalar_value; lia | auto].
  - inversion Hu; subst. constructor; [unfold scalar_value; lia | auto].
  - inversion Hu; subst. constructor; [unfold scalar_value; lia | auto].
Qed.

(** Octets and units *)
Lemma uint16s_bound b : Forall (fun u => 0 <= u < 65536) (uint16s b).
Proof.
  remember (length b) as n eqn:En. assert (length b <= n)%nat as Hn by lia. clear En. revert b Hn.
  induction n as [|n IH]; intros b Hn. { destruct b; [constructor | cbn in Hn; lia]. }
  destruct b as [|x [|y b]]; [constructor | constructor |]. cbn [uint16s]. pose proof (b2z_range x). pose proof (b2z_range y). constructor; [lia|]. apply IH. cbn in Hn. lia.
Qed.
Lemma uint16s_octets us b : units_octets us b -> uint16s b = us /\ zlen b mod 2 = 0.
Proof.
  intros [Hu ->]. induction Hu as [|u us Hu Hus IH]; [split; reflexivity|]. destruct IH as [IH1 IH2]. cbn [flat_map app uint16s].
  assert (0 <= u / 256 < 256) by (split; [apply Z.div_pos; lia | apply Z.div_lt_upper_bound; lia]).
  pose proof (Z.mod_pos_bound u 256 ltac:(lia)). pose proof (Z.div_mod u 256 ltac:(lia)).
  rewrite !b2z_small by lia. rewrite IH1. split; [f_equal; lia|].
  rewrite !zlen_cons. replace (1 + (1 + zlen (flat_map (fun u0 : Z => [z2b (u0 / 256); z2b (u0 mod 256)]) us))) with (zlen (flat_map (fun u0 : Z => [z2b (u0 / 256); z2b (u0 mod 256)]) us) + 1 * 2) by lia.
  rewrite Z.mod_add by lia. assumption.
Qed.
Lemma octets_uint16s b : zlen b mod 2 = 0 -> units_octets (uint16s b) b.
Proof.
  intros H. split; [apply uint16s_bound|].
  remember (length b) as n eqn:En. assert (length b <= n)%nat as Hn by lia. clear En. revert b Hn H.
  induction n as [|n IH]; intros b Hn H. { destruct b; [reflexivity | cbn in Hn; lia]. }
  destruct b as [|x [|y b]]; [reflexivity | cbn in H; lia |]. cbn [uint16s flat_map app].
  pose proof (b2z_range x). pose proof (b2z_range y).
  assert ((b2z x * 256 + b2z y) / 256 = b2z x) as -> by (symmetry; apply (Z.div_unique _ _ _ (b2z y)); lia).
  assert ((b2z x * 256 + b2z y) mod 256 = b2z y) as -> by (symmetry; apply (Z.mod_unique _ _ (b2z x)); lia).
  rewrite !z2b_b2z. do 2 f_equal. apply IH; [cbn in Hn; lia|].
  rewrite !zlen_cons in H. replace (1 + (1 + zlen b)) with (zlen b + 1 * 2) in H by lia. rewrite Z.mod_add in H by lia. assumption.
Qed.
Lemma units_octets_app us us' b b' : units_octets us b -> units_octets us' b' -> units_octets (us ++ us') (b ++ b').
Proof. intros [H1 ->] [H2 ->]. split; [apply Forall_app; auto | rewrite flat_map_app; reflexivity]. Qed.
Lemma strip_cases b : (exists b', b = b' ++ [x00; x00] /\ stripTerminator b = b') \/ ((forall b', b <> b' ++ [x00; x00]) /\ stripTerminator b = b).
Proof.
  unfold stripTerminator. assert (b = rev (rev b)) as Eb by (symmetry; apply rev_involutive). destruct (rev b) as [|y [|x r]] eqn:E; rewrite Eb.
  - right. split; [|reflexivity]. cbn [rev]. intros [|? b']; discriminate.
  - right. split; [|reflexivity]. cbn [rev app]. intros [|? [|? b']]; discriminate.
  - destruct ((b2z y =? 0) && (b2z x =? 0)) eqn:B.
    + left. exists (rev r). split; [|reflexivity]. assert (y = x00) as -> by (apply b2z_inj; change (b2z x00) with 0; lia). assert (x = x00) as -> by (apply b2z_inj; change (b2z x00) with 0; lia).
      cbn [rev]. rewrite <- app_assoc. reflexivity.
    + right. split; [|reflexivity]. intros b' E'. cbn [rev] in E'. rewrite <- app_assoc in E'. cbn [app] in E'.
      apply (f_equal (@rev byte)) in E'. rewrite !rev_app_distr in E'. cbn [rev app] in E'. injection E' as -> -> _. vm_compute in B. discriminate.
Qed.
Lemma units_terminator us b : units_octets us b -> forall b', b = b' ++ [x00; x00] -> exists us', us = us' ++ [0] /\ units_octets us' b'.
Proof.
  intros Hu b' ->. destruct (uint16s_octets _ _ Hu) as [Eu Ee].
  assert (Ee' : zlen b' mod 2 = 0).
  { rewrite zlen_app in Ee. change (zlen [x00; x00]) with (1 * 2) in Ee. rewrite Z.mod_add in Ee by lia. assumption. }
  pose proof (octets_uint16s _ Ee') as Hb'. exists (uint16s b'). split; [|assumption].
  assert (units_octets [0] [x00; x00]) as H0 by (split; [constructor; [lia | constructor] | reflexivity]).
  pose proof (units_octets_app _ _ _ _ Hb' H0) as H. destruct (uint16s_octets _ _ H) as [E _]. congruence.
Qed.
Theorem bmp_iff b s : (zlen b mod 2 = 0 /\ s = utf16String (uint16s (stripTerminator b))) <-> bmp_text b s.
Proof.
  split.
  - intros [He ->]. pose proof (octets_uint16s _ He) as Hu.
    assert (exists us', units_octets us' (stripTerminator b) /\ (uint16s b = us' ++ [0] \/ (uint16s b = us' /\ forall x, uint16s b <> x ++ [0]))) as (us' & Hu' & Hc).
    { destruct (strip_cases b) as [(b' & Eb & ->) | (Hn & ->)].
      - destruct (units_terminator _ _ Hu _ Eb) as (us' & E & Hu'). exists us'. auto.
      - exists (uint16s b). split; [assumption|]. right. split; [reflexivity|]. intros x E. rewrite E in Hu. destruct Hu as [_ Hu].
        rewrite flat_map_app in Hu. apply (Hn _ Hu). }
    destruct (uint16s_octets _ _ Hu') as [Eu' _].
    exists (uint16s b), us', (utf16Decode us'). split; [assumption|]. split; [apply utf16Decode_spec|]. split; [|assumption].
    rewrite Eu'. apply utf8_text_append; [|reflexivity]. eapply utf16_scalar; [apply utf16Decode_spec | apply Hu'].
  - intros (us & us' & cs & Hu & Hd & Ht & Hc). destruct (uint16s_octets _ _ Hu) as [Eu Ee]. split; [assumption|].
    assert (uint16s (stripTerminator b) = us') as ->.
    { destruct (strip_cases b) as [(b' & Eb & ->) | (Hn & ->)].
      - destruct (units_terminator _ _ Hu _ Eb) as (us2 & E & Hu'). destruct Hc as [Hc | [_ Hc]]; [|exfalso; exact (Hc _ E)].
        rewrite E in Hc. apply app_inj_tail in Hc. destruct Hc as [<- _]. apply uint16s_octets. assumption.
      - destruct Hc as [Hc | [<- _]]; [|assumption]. exfalso. destruct Hu as [_ Hu]. rewrite Hc, flat_map_app in Hu. exact (Hn _ Hu). }
    assert (cs = utf16Decode us') as -> by (eapply utf16_unique; [eassumption | apply utf16Decode_spec]).
    apply utf8_text_append in Ht; [assumption | apply Ht].
Qed.
