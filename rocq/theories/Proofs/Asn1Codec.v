(** The elementary codecs of asn1andr *)
From Coq Require Import Lia.
From Verif.Model Require Import Bytes Env Ber Asn1.
From Verif.Spec Require Import Ber Asn1.
From Verif.Proofs Require Import BytesFacts BerFacts.

Lemma be_acc_val b : forall acc, be_acc acc b = acc * 256 ^ zlen b + be_val b.
Proof.
  induction b as [|x b IH]; intros acc; cbn [be_acc].
  - rewrite zlen_nil, be_val_nil. change (256 ^ 0) with 1. lia.
  - rewrite IH, be_val_cons, zlen_cons, Z.pow_add_r by (pose proof (zlen_nonneg b); lia). change (256 ^ 1) with 256. ring.
Qed.
Lemma be_acc0 b : be_acc 0 b = be_val b. Proof. rewrite be_acc_val. lia. Qed.

Lemma be_enc_marshal n : forall i, be_enc n i = marshalLongLength n i.
Proof. induction n as [|n IH]; intros i; cbn [be_enc marshalLongLength]; [reflexivity|]. rewrite IH. reflexivity. Qed.
Lemma be_enc_len n i : zlen (be_enc n i) = Z.of_nat n.
Proof. induction n as [|n IH]; cbn [be_enc]; [reflexivity|]. rewrite zlen_cons, IH. lia. Qed.
Lemma be_enc_val n : forall i, be_val (be_enc n i) = i mod 256 ^ Z.of_nat n.
Proof.
  induction n as [|n IH]; intros i; cbn [be_enc].
  - rewrite be_val_nil. change (256 ^ Z.of_nat 0) with 1. rewrite Z.mod_1_r. reflexivity.
  - rewrite be_val_cons, IH, be_enc_len, b2z_z2b.
    replace (Z.of_nat (Datatypes.S n)) with (Z.of_nat n + 1) by lia. rewrite Z.pow_add_r by lia. change (256 ^ 1) with 256.
    assert (P : 0 < 256 ^ Z.of_nat n) by (apply Z.pow_pos_nonneg; lia). rewrite Z.rem_mul_r by lia. ring.
Qed.

(** *** integers *)
Definition sval (b : bytes) : Z :=
  be_val b - (match b with x :: _ => if 128 <=? b2z x then 256 ^ zlen b else 0 | [] => 0 end).

Lemma pow256_pos n : 0 <= n -> 0 < 256 ^ n. Proof. intros. apply Z.pow_pos_nonneg; lia. Qed.

Lemma sval_cons x t : sval (x :: t) = (b2z x - (if 128 <=? b2z x then 256 else 0)) * 256 ^ zlen t + be_val t.
Proof.
  unfold sval. rewrite be_val_cons, zlen_cons, Z.pow_add_r by (pose proof (zlen_nonneg t); lia). change (256 ^ 1) with 256.
  destruct (128 <=? b2z x); ring.
Qed.

Lemma sval_twos b : b <> [] -> twos_complement b (sval b).
Proof.
  intros Hb. destruct b as [|x t]; [congruence|]. split; [exact Hb|]. rewrite sval_cons, zlen_cons, Z.pow_add_r by (pose proof (zlen_nonneg t); lia).
  change (256 ^ 1) with 256. pose proof (pow256_pos (zlen t) (zlen_nonneg t)) as P. pose proof (be_val_range t) as R. pose proof (b2z_range x) as X.
  set (p := 256 ^ zlen t) in *. split.
  - destruct (Z.leb_spec 128 (b2z x)); nia.
  - rewrite be_val_cons. fold p. destruct (Z.leb_spec 128 (b2z x)).
    + replace ((b2z x - 256) * p + be_val t) with (b2z x * p + be_val t + (-1) * (256 * p)) by ring. rewrite Z.mod_add by lia.
      symmetry. apply Z.mod_small. nia.
    + rewrite Z.sub_0_r. symmetry. apply Z.mod_small. nia.
Qed.
Lemma mod_unique_signed p a b : 0 < p -> - p <= 2 * a < p -> - p <= 2 * b < p -> a mod p = b mod p -> a = b.
Proof.
  intros P Ha Hb E. pose proof (Z.div_mod a p) as Da. pose proof (Z.div_mod b p) as Db.
  assert (p * (a / p - b / p) = a - b) by lia. assert (-1 < a / p - b / p < 1) by nia. nia.
Qed.
Lemma twos_unique b z z' : twos_complement b z -> twos_complement b z' -> z = z'.
Proof.
  intros (Hb & R & E) (_ & R' & E'). eapply mod_unique_signed; [apply (pow256_pos (zlen b)); apply zlen_nonneg|exact R|exact R'|congruence].
Qed.
Lemma twos_sval b z : twos_complement b z -> z = sval b.
Proof. intros H. eapply twos_unique; [exact H|]. apply sval_twos. apply H. Qed.
Lemma twos_inj b b' z : twos_complement b z -> twos_complement b' z -> zlen b = zlen b' -> b = b'.
Proof. intros (_ & _ & E) (_ & _ & E') HL. apply be_val_inj; [exact HL|]. rewrite E, E', HL. reflexivity. Qed.
Lemma integer_octets_unique b b' z : integer_octets b z -> integer_octets b' z -> b = b'.
Proof. intros (H & M) (H' & M'). eapply twos_inj; [exact H|exact H'|]. specialize (M _ H'). specialize (M' _ H). lia. Qed.

(** every number has octets of any sufficient length *)
Lemma be_enc_twos n z : (1 <= n)%nat -> - (256 ^ Z.of_nat n) <= 2 * z < 256 ^ Z.of_nat n -> twos_complement (be_enc n z) z.
Proof.
  intros Hn R. split; [|split].
  - intros C. pose proof (be_enc_len n z) as HL. rewrite C, zlen_nil in HL. lia.
  - rewrite be_enc_len. exact R.
  - rewrite be_enc_val, be_enc_len. reflexivity.
Qed.

Lemma integer_octets_iff b z : integer_octets b z <->
  twos_complement b z /\ (zlen b = 1 \/ ~ (- (256 ^ (zlen b - 1)) <= 2 * z < 256 ^ (zlen b - 1))).
Proof.
  split.
  - intros (H & M). split; [exact H|]. destruct (Z.eq_dec (zlen b) 1) as [|N1]; [left; assumption|right]. intros R.
    assert (Hb : 2 <= zlen b). { destruct H as (Hb & _). destruct b as [|x [|y t]]; [congruence|cbn in N1; lia|rewrite !zlen_cons; pose proof (zlen_nonneg t); lia]. }
    specialize (M (be_enc (Z.to_nat (zlen b - 1)) z)). rewrite be_enc_len in M.
    assert (zlen b <= Z.of_nat (Z.to_nat (zlen b - 1))); [|lia]. apply M. apply be_enc_twos; [lia|]. rewrite Z2Nat.id by lia. exact R.
  - intros (H & Hm). split; [exact H|]. intros b' (Hb' & R' & _).
    destruct (Z_le_gt_dec (zlen b) (zlen b')) as [|G]; [assumption|exfalso].
    assert (1 <= zlen b') by (destruct b'; [congruence|rewrite zlen_cons; pose proof (zlen_nonneg b'); lia]).
    destruct Hm as [H1|Hm]; [lia|]. apply Hm.
    assert (256 ^ zlen b' <= 256 ^ (zlen b - 1)) by (apply Z.pow_le_mono_r; lia). lia.
Qed.

Lemma checkInteger_iff b : checkInteger b = true <-> integer_octets b (sval b).
Proof.
  rewrite integer_octets_iff. destruct b as [|x [|y t]]; cbn [checkInteger].
  - split; [discriminate|]. intros ((H & _) & _). congruence.
  - split; [intros _|reflexivity]. split; [apply sval_twos; discriminate|left; reflexivity].
  - rewrite negb_true_iff.
    assert (HS : twos_complement (x :: y :: t) (sval (x :: y :: t))) by (apply sval_twos; discriminate).
    pose proof (zlen_nonneg t) as HT. pose proof (pow256_pos (zlen t) HT) as P. pose proof (be_val_range t) as R.
    pose proof (b2z_range x) as X. pose proof (b2z_range y) as Y.
    assert (HV : sval (x :: y :: t) = (b2z x - (if 128 <=? b2z x then 256 else 0)) * (256 * 256 ^ zlen t) + (b2z y * 256 ^ zlen t + be_val t)).
    { rewrite sval_cons, be_val_cons, zlen_cons, Z.pow_add_r by lia. reflexivity. }
    replace (zlen (x :: y :: t) - 1) with (1 + zlen t) by (rewrite !zlen_cons; lia). rewrite Z.pow_add_r by lia. change (256 ^ 1) with 256.
    set (p := 256 ^ zlen t) in *.
    assert (HN : zlen (x :: y :: t) <> 1) by (rewrite !zlen_cons; lia).
    split.
    + intros H. split; [exact HS|right]. rewrite HV. intros RR. apply orb_false_iff in H as [H1 H2].
      apply andb_false_iff in H1. apply andb_false_iff in H2. rewrite Z.eqb_neq in H1, H2. rewrite Z.ltb_ge in H1. rewrite Z.leb_gt in H2.
      destruct (Z.leb_spec 128 (b2z x)).
      * assert (b2z x = 255) by nia. destruct H2 as [|H2]; [lia|]. nia.
      * assert (b2z x = 0) by nia. destruct H1 as [|H1]; [lia|]. nia.
    + intros (_ & [H|H]); [contradiction|]. rewrite HV in H. apply orb_false_iff. rewrite !andb_false_iff, !Z.eqb_neq, Z.ltb_ge, Z.leb_gt.
      destruct (Z.leb_spec 128 (b2z x)) as [L|L].
      * split; [left; lia|]. destruct (Z.eq_dec (b2z x) 255) as [E|E]; [right|left; exact E]. destruct (Z_lt_ge_dec (b2z y) 128); [assumption|]. exfalso. apply H. rewrite E. nia.
      * split; [|left; lia]. destruct (Z.eq_dec (b2z x) 0) as [E|E]; [right|left; exact E]. destruct (Z_lt_ge_dec (b2z y) 128); [|lia]. exfalso. apply H. rewrite E. nia.
Qed.

Lemma pow256_2 n : 0 <= n -> 256 ^ n = 2 ^ (8 * n).
Proof. intros. change 256 with (2 ^ 8). rewrite <- Z.pow_mul_r by lia. reflexivity. Qed.

Lemma wrap64_spec z : exists k, wrap64 z = z + k * 2 ^ 64.
Proof.
  unfold wrap64. exists (- ((z + 9223372036854775808) / 18446744073709551616)).
  pose proof (Z.div_mod (z + 9223372036854775808) 18446744073709551616). change (2 ^ 64) with 18446744073709551616. lia.
Qed.

Lemma sign_extend b : b <> [] -> zlen b <= 8 ->
  let k := 64 - 8 * zlen b in wrap64 (wrap64 (be_val b) * 2 ^ k) / 2 ^ k = sval b.
Proof.
  intros Hb HL k. assert (Hn : 1 <= zlen b) by (destruct b; [congruence|rewrite zlen_cons; pose proof (zlen_nonneg b0); lia]).
  assert (Hk : 0 <= k) by (unfold k; lia). pose proof (Z.pow_pos_nonneg 2 k ltac:(lia) Hk) as Pk.
  destruct (sval_twos b Hb) as (_ & R & E). rewrite pow256_2 in R, E by lia.
  assert (E64 : 2 ^ (8 * zlen b) * 2 ^ k = 2 ^ 64) by (rewrite <- Z.pow_add_r by lia; f_equal; unfold k; lia).
  (* both sides agree modulo 2^64 after scaling *)
  assert (HW : exists q, wrap64 (wrap64 (be_val b) * 2 ^ k) = sval b * 2 ^ k + q * 2 ^ 64).
  { destruct (wrap64_spec (be_val b)) as (q1 & ->). destruct (wrap64_spec ((be_val b + q1 * 2 ^ 64) * 2 ^ k)) as (q2 & ->).
    pose proof (Z.div_mod (sval b) (2 ^ (8 * zlen b))) as DM. rewrite <- E in DM.
    assert (be_val b = sval b - 2 ^ (8 * zlen b) * (sval b / 2 ^ (8 * zlen b))) as -> by (pose proof (Z.pow_pos_nonneg 2 (8 * zlen b)); lia).
    exists (q2 + q1 * 2 ^ k - sval b / 2 ^ (8 * zlen b)). rewrite <- E64. ring. }
  destruct HW as (q & HW). pose proof (wrap64_range (wrap64 (be_val b) * 2 ^ k)) as WR. rewrite HW in *.
  assert (q = 0).
  { assert (- 2 ^ 64 <= 2 * (sval b * 2 ^ k) < 2 ^ 64) by (rewrite <- E64; nia). change (2 ^ 64) with 18446744073709551616 in *. lia. }
  subst q. rewrite Z.mul_0_l, Z.add_0_r. apply Z.div_mul. lia.
Qed.

Lemma parseInt64_iff b z : parseInt64 b = Some z <-> integer_octets b z /\ zlen b <= 8.
Proof.
  unfold parseInt64. destruct (checkInteger b) eqn:HC; cbn [negb].
  - assert (Hb : b <> []) by (intros ->; discriminate). apply checkInteger_iff in HC.
    destruct (Z.ltb_spec 8 (zlen b)) as [L|L].
    + split; [discriminate|]. intros (_ & C). lia.
    + rewrite be_acc0. cbv zeta. rewrite sign_extend by assumption. split.
      * intros E. assert (sval b = z) as <- by congruence. split; [exact HC|exact L].
      * intros ((H & _) & _). f_equal. symmetry. apply twos_sval. exact H.
  - split; [discriminate|]. intros (H & _). pose proof H as (H1 & _). apply twos_sval in H1. subst z. apply checkInteger_iff in H. congruence.
Qed.

Lemma notByte_val b : b2z (notByte b) = 255 - b2z b.
Proof. unfold notByte. pose proof (b2z_range b). rewrite b2z_z2b, Z.mod_small; lia. Qed.
Lemma notBytes_val b : be_val (map notByte b) = 256 ^ zlen b - 1 - be_val b.
Proof.
  induction b as [|x b IH]; [reflexivity|]. cbn [map]. rewrite !be_val_cons, IH, notByte_val, zlen_map, zlen_cons, Z.pow_add_r by (pose proof (zlen_nonneg b); lia).
  change (256 ^ 1) with 256. ring.
Qed.
Lemma notByte_invol b : notByte (notByte b) = b.
Proof. apply b2z_inj. rewrite !notByte_val. lia. Qed.

Lemma parseBigInt_iff b z : parseBigInt b = Some z <-> integer_octets b z.
Proof.
  unfold parseBigInt. destruct (checkInteger b) eqn:HC; cbn [negb].
  - assert (Hb : b <> []) by (intros ->; discriminate). apply checkInteger_iff in HC.
    assert (HS : match b with x :: _ => if 128 <=? b2z x then Some (- (be_acc 0 (map notByte b) + 1)) else Some (be_acc 0 b) | [] => Some 0 end = Some (sval b)).
    { destruct b as [|x t]; [congruence|]. rewrite !be_acc0, notBytes_val. unfold sval. destruct (128 <=? b2z x); f_equal; lia. }
    rewrite HS. split.
    + intros E. assert (sval b = z) as <- by congruence. exact HC.
    + intros (H & _). f_equal. symmetry. apply twos_sval. exact H.
  - split; [discriminate|]. intros H. pose proof H as (H1 & _). apply twos_sval in H1. subst z. apply checkInteger_iff in H. congruence.
Qed.

Lemma int64Len_spec f : forall i, - (256 ^ (Z.of_nat f + 1)) <= 2 * i < 256 ^ (Z.of_nat f + 1) ->
  let n := int64Len f i in (1 <= n)%nat /\ - (256 ^ Z.of_nat n) <= 2 * i < 256 ^ Z.of_nat n /\
  (n = 1%nat \/ ~ (- (256 ^ (Z.of_nat n - 1)) <= 2 * i < 256 ^ (Z.of_nat n - 1))).
Proof.
  induction f as [|f IH]; intros i Hi; cbn [int64Len].
  - cbv zeta. split; [lia|]. split; [exact Hi|left; reflexivity].
  - destruct ((127 <? i) || (i <? -128)) eqn:EC.
    + apply orb_true_iff in EC. rewrite Z.ltb_lt, Z.ltb_lt in EC. pose proof (Z.div_mod i 256 ltac:(lia)) as DM. pose proof (Z.mod_pos_bound i 256 ltac:(lia)) as MB.
      assert (HP : 256 ^ (Z.of_nat (Datatypes.S f) + 1) = 256 * 256 ^ (Z.of_nat f + 1)).
      { rewrite <- Z.pow_succ_r by lia. f_equal. lia. }
      assert (HE : exists q, 256 ^ (Z.of_nat f + 1) = 2 * q). { exists (128 * 256 ^ Z.of_nat f). rewrite Z.pow_add_r by lia. change (256 ^ 1) with 256. ring. }
      destruct HE as (q & HE).
      destruct (IH (i / 256)) as (H1 & H2 & H3); [rewrite HP in Hi; rewrite HE in *; lia|].
      set (n := int64Len f (i / 256)) in *. cbv zeta.
      assert (HPn : 256 ^ Z.of_nat (Datatypes.S n) = 256 * 256 ^ Z.of_nat n) by (rewrite <- Z.pow_succ_r by lia; f_equal; lia).
      assert (HEn : exists r, 256 ^ Z.of_nat n = 2 * r). { exists (128 * 256 ^ (Z.of_nat n - 1)). replace (Z.of_nat n) with (1 + (Z.of_nat n - 1)) at 1 by lia. rewrite Z.pow_add_r by lia. change (256 ^ 1) with 256. ring. }
      destruct HEn as (r & HEn).
      split; [lia|]. split; [rewrite HPn; lia|]. right. replace (Z.of_nat (Datatypes.S n) - 1) with (Z.of_nat n) by lia.
      destruct H3 as [H3|H3].
      * assert (256 ^ Z.of_nat n = 256) as E by (rewrite H3; reflexivity). lia.
      * intros C. apply H3. assert (256 ^ Z.of_nat n = 256 * 256 ^ (Z.of_nat n - 1)) as E by (rewrite <- Z.pow_succ_r by lia; f_equal; lia).
        assert (HEm : n = 1%nat \/ exists u, 256 ^ (Z.of_nat n - 1) = 2 * u).
        { destruct (Nat.eq_dec n 1) as [|N]; [left; assumption|right]. exists (128 * 256 ^ (Z.of_nat n - 2)). replace (Z.of_nat n - 1) with (1 + (Z.of_nat n - 2)) by lia. rewrite Z.pow_add_r by lia. change (256 ^ 1) with 256. ring. }
        destruct HEm as [HEm|(u & HEm)]; [|rewrite HEm in *; lia].
        rewrite HEm in *. change (Z.of_nat 1 - 1) with 0 in *. change (256 ^ 0) with 1 in *. lia.
    + apply orb_false_iff in EC as [E1 E2]. apply Z.ltb_ge in E1. apply Z.ltb_ge in E2. cbv zeta. split; [lia|]. split; [|left; reflexivity].
      change (256 ^ Z.of_nat 1) with 256. lia.
Qed.

Definition is_int64 (z : Z) : Prop := - 2 ^ 63 <= z < 2 ^ 63.
Lemma encodeInt64_octets z : is_int64 z -> integer_octets (encodeInt64 z) z /\ zlen (encodeInt64 z) <= 8.
Proof.
  intros Hz. unfold encodeInt64, is_int64 in *. destruct (int64Len_spec 8 z) as (H1 & H2 & H3).
  { change (256 ^ (Z.of_nat 8 + 1)) with (2 ^ 72). change (2 ^ 63) with 9223372036854775808 in Hz. change (2 ^ 72) with 4722366482869645213696. lia. }
  set (n := int64Len 8 z) in *. split.
  - apply integer_octets_iff. split; [apply be_enc_twos; assumption|]. rewrite be_enc_len. destruct H3 as [H3|H3]; [left; lia|right; exact H3].
  - rewrite be_enc_len. destruct H3 as [H3|H3]; [lia|].
    destruct (Z_le_gt_dec (Z.of_nat n) 8) as [|G]; [assumption|]. exfalso. apply H3.
    assert (256 ^ 8 <= 256 ^ (Z.of_nat n - 1)) by (apply Z.pow_le_mono_r; lia). change (256 ^ 8) with 18446744073709551616 in H. change (2 ^ 63) with 9223372036854775808 in Hz. lia.
Qed.
Lemma parse_encode_int64 z : is_int64 z -> parseInt64 (encodeInt64 z) = Some z.
Proof. intros H. apply parseInt64_iff. apply encodeInt64_octets. exact H. Qed.
Lemma encode_parse_int64 b z : parseInt64 b = Some z -> is_int64 z /\ encodeInt64 z = b.
Proof.
  intros H. apply parseInt64_iff in H as (Ho & HL).
  assert (Hz : is_int64 z).
  { destruct Ho as ((_ & R & _) & _). assert (256 ^ zlen b <= 256 ^ 8) by (apply Z.pow_le_mono_r; lia). unfold is_int64.
    change (256 ^ 8) with 18446744073709551616 in H. change (2 ^ 63) with 9223372036854775808. lia. }
  split; [exact Hz|]. eapply integer_octets_unique; [apply encodeInt64_octets; exact Hz|exact Ho].
Qed.
Lemma parse_encode_int32 z : min_int32 <= z <= max_int32 -> parseInt32 (encodeInt64 z) = Some z.
Proof.
  intros H. unfold parseInt32. rewrite parse_encode_int64. 2: { unfold is_int64, min_int32, max_int32 in *. change (2 ^ 63) with 9223372036854775808. lia. }
  rewrite wrap32_id by exact H. rewrite Z.eqb_refl. reflexivity.
Qed.

(** big integers *)
Lemma bigBytes_val n : 0 <= n -> be_val (bigBytes n) = n /\
  match bigBytes n with [] => n = 0 | x :: t => b2z x <> 0 end.
Proof.
  intros Hn. unfold bigBytes. destruct (Z.eqb_spec n 0) as [->|N0]; [split; reflexivity|].
  assert (Hp : 0 < n) by lia. pose proof (Z.log2_spec n Hp) as [L1 L2]. pose proof (Z.log2_nonneg n) as L0.
  set (k := Z.log2 n / 8). assert (K0 : 0 <= k) by (apply Z.div_pos; lia).
  assert (KB : 8 * k <= Z.log2 n < 8 * k + 8). { pose proof (Z.div_mod (Z.log2 n) 8). pose proof (Z.mod_pos_bound (Z.log2 n) 8). unfold k. lia. }
  assert (R : 256 ^ k <= n < 256 ^ (k + 1)).
  { rewrite !pow256_2 by lia. split.
    - apply Z.le_trans with (2 ^ Z.log2 n); [apply Z.pow_le_mono_r; lia|exact L1].
    - apply Z.lt_le_trans with (2 ^ Z.succ (Z.log2 n)); [exact L2|apply Z.pow_le_mono_r; lia]. }
  assert (EK : Z.to_nat (k + 1) = Datatypes.S (Z.to_nat k)) by lia.
  split.
  - rewrite be_enc_val, Z2Nat.id by lia. apply Z.mod_small. lia.
  - rewrite EK. cbn [be_enc]. rewrite Z2Nat.id by lia. rewrite b2z_z2b. pose proof (pow256_pos k K0) as PK.
    assert (Q : 1 <= n / 256 ^ k < 256).
    { split; [apply Z.div_le_lower_bound; lia|]. apply Z.div_lt_upper_bound; [lia|]. rewrite Z.pow_add_r in R by lia. change (256 ^ 1) with 256 in R. lia. }
    rewrite Z.mod_small by lia. lia.
Qed.

Lemma encodeBigInt_octets z : integer_octets (encodeBigInt z) z.
Proof.
  unfold encodeBigInt. destruct (Z.ltb_spec z 0) as [Hz|Hz].
  - destruct (bigBytes_val (- z - 1) ltac:(lia)) as (HV & HX). set (b := bigBytes (- z - 1)) in *. cbv zeta.
    destruct b as [|x t] eqn:Eb; cbn [map].
    + assert (z = sval [xff]) as ->. { cbn in HV. change (sval [xff]) with (-1). lia. } apply checkInteger_iff. reflexivity.
    + rewrite notByte_val. pose proof (b2z_range x) as X.
      assert (HNV : be_val (notByte x :: map notByte t) = 256 ^ zlen (x :: t) + z).
      { change (notByte x :: map notByte t) with (map notByte (x :: t)). rewrite notBytes_val, HV. lia. }
      assert (HNL : zlen (notByte x :: map notByte t) = zlen (x :: t)) by (rewrite !zlen_cons, zlen_map; reflexivity).
      destruct (Z.ltb_spec (255 - b2z x) 128) as [L|L].
      * assert (z = sval (xff :: notByte x :: map notByte t)) as E.
        { unfold sval. rewrite (be_val_cons xff), HNV, (zlen_cons xff), HNL. change (b2z xff) with 255. change (128 <=? 255) with true. cbv iota.
          rewrite Z.pow_add_r by (pose proof (zlen_nonneg (x :: t)); lia). change (256 ^ 1) with 256. ring. }
        rewrite E. apply checkInteger_iff. cbn [checkInteger]. rewrite notByte_val. change (b2z xff =? 0) with false. change (b2z xff =? 255) with true.
        destruct (Z.leb_spec 128 (255 - b2z x)); [lia|reflexivity].
      * assert (z = sval (notByte x :: map notByte t)) as E.
        { unfold sval. rewrite HNV, HNL, notByte_val. destruct (Z.leb_spec 128 (255 - b2z x)); [|lia]. lia. }
        rewrite E. apply checkInteger_iff. destruct (map notByte t) as [|y u] eqn:Em; [reflexivity|]. cbn [checkInteger].
        rewrite notByte_val. destruct (Z.eqb_spec (255 - b2z x) 0); [lia|]. destruct (Z.eqb_spec (255 - b2z x) 255); [lia|reflexivity].
  - destruct (Z.eqb_spec z 0) as [->|N0].
    + apply (proj1 (checkInteger_iff [x00])). reflexivity.
    + destruct (bigBytes_val z Hz) as (HV & HX). cbv zeta. destruct (bigBytes z) as [|x t] eqn:Eb; [congruence|]. pose proof (b2z_range x) as X.
      destruct (Z.leb_spec 128 (b2z x)) as [L|L].
      * assert (z = sval (x00 :: x :: t)) as E.
        { unfold sval. rewrite (be_val_cons x00), HV. change (b2z x00) with 0. change (128 <=? 0) with false. cbv iota. ring. }
        rewrite E. apply checkInteger_iff. cbn [checkInteger]. change (b2z x00 =? 0) with true. change (b2z x00 =? 255) with false.
        destruct (Z.ltb_spec (b2z x) 128); [lia|reflexivity].
      * assert (z = sval (x :: t)) as E. { unfold sval. rewrite HV. destruct (Z.leb_spec 128 (b2z x)); [lia|]. lia. }
        rewrite E. apply checkInteger_iff. destruct t as [|y u]; [reflexivity|]. cbn [checkInteger].
        destruct (Z.eqb_spec (b2z x) 0); [contradiction|]. destruct (Z.eqb_spec (b2z x) 255); [lia|reflexivity].
Qed.
Lemma parse_encode_big z : parseBigInt (encodeBigInt z) = Some z.
Proof. apply parseBigInt_iff. apply encodeBigInt_octets. Qed.
Lemma encode_parse_big b z : parseBigInt b = Some z -> encodeBigInt z = b.
Proof. intros H. apply parseBigInt_iff in H. eapply integer_octets_unique; [apply encodeBigInt_octets|exact H]. Qed.
