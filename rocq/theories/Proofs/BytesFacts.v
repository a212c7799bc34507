(** Lemmas about Model/Bytes.v *)
From Coq Require Import Lia.
From Verif.Model Require Import Bytes.

Lemma b2z_range b : 0 <= b2z b < 256.
Proof.
  unfold b2z. pose proof (Strings.Byte.to_N_bounded b) as H. lia.
Qed.

Lemma z2b_b2z b : z2b (b2z b) = b.
Proof. destruct b; reflexivity. Qed.

Lemma b2z_z2b z : b2z (z2b z) = z mod 256.
Proof.
  unfold z2b, b2z.
  assert (Hm : 0 <= z mod 256 < 256) by (apply Z.mod_pos_bound; lia).
  destruct (Byte.of_N (Z.to_N (z mod 256))) eqn:H.
  - apply Strings.Byte.to_of_N in H. rewrite H. rewrite Z2N.id; lia.
  - apply Strings.Byte.of_N_None_iff in H. lia.
Qed.

Lemma b2z_inj a b : b2z a = b2z b -> a = b.
Proof. intro H. rewrite <- (z2b_b2z a), <- (z2b_b2z b), H. reflexivity. Qed.

Lemma byte_eqb_eq a b : byte_eqb a b = true <-> a = b.
Proof. unfold byte_eqb. split; [apply Strings.Byte.byte_dec_bl | apply Strings.Byte.byte_dec_lb]. Qed.

Lemma bytes_eqb_eq a b : bytes_eqb a b = true <-> a = b.
Proof.
  revert b; induction a as [|x a IH]; destruct b as [|y b]; simpl; split; intro H; try easy.
  - apply andb_prop in H as [H1 H2]. apply byte_eqb_eq in H1. apply IH in H2. congruence.
  - inversion H; subst. apply andb_true_intro; split; [apply byte_eqb_eq | apply IH]; reflexivity.
Qed.

Lemma bytes_eqb_refl a : bytes_eqb a a = true.
Proof. apply bytes_eqb_eq. reflexivity. Qed.

Lemma bytes_eqb_neq a b : bytes_eqb a b = false <-> a <> b.
Proof.
  split; intro H.
  - intros ->. rewrite bytes_eqb_refl in H. discriminate.
  - destruct (bytes_eqb a b) eqn:E; [apply bytes_eqb_eq in E; contradiction | reflexivity].
Qed.

Lemma zlen_app {A} (a b : list A) : zlen (a ++ b) = zlen a + zlen b.
Proof. unfold zlen. rewrite app_length. lia. Qed.
Lemma zlen_nonneg {A} (a : list A) : 0 <= zlen a.
Proof. unfold zlen. lia. Qed.
Lemma zlen_cons {A} (x : A) a : zlen (x :: a) = 1 + zlen a.
Proof. unfold zlen. simpl length. lia. Qed.
Lemma zlen_nil {A} : zlen (@nil A) = 0.
Proof. reflexivity. Qed.
Lemma zlen_map {A B} (f : A -> B) l : zlen (map f l) = zlen l.
Proof. unfold zlen. rewrite map_length. reflexivity. Qed.
Lemma zlen_rev {A} (l : list A) : zlen (rev l) = zlen l.
Proof. unfold zlen. rewrite rev_length. reflexivity. Qed.

Lemma takeZ_firstn {A} n (l : list A) : takeZ n l = firstn (Z.to_nat n) l.
Proof.
  revert n; induction l as [|x l IH]; intro n; simpl.
  - now rewrite firstn_nil.
  - destruct (Z.ltb_spec 0 n).
    + replace (Z.to_nat n) with (S (Z.to_nat (n - 1))) by lia. simpl. now rewrite IH.
    + replace (Z.to_nat n) with O by lia. reflexivity.
Qed.

Lemma dropZ_skipn {A} n (l : list A) : dropZ n l = skipn (Z.to_nat n) l.
Proof.
  revert n; induction l as [|x l IH]; intro n; simpl.
  - now rewrite skipn_nil.
  - destruct (Z.ltb_spec 0 n).
    + replace (Z.to_nat n) with (S (Z.to_nat (n - 1))) by lia. simpl. now rewrite IH.
    + replace (Z.to_nat n) with O by lia. reflexivity.
Qed.

Lemma take_drop {A} n (l : list A) : takeZ n l ++ dropZ n l = l.
Proof. rewrite takeZ_firstn, dropZ_skipn. apply firstn_skipn. Qed.

Lemma zlen_takeZ {A} n (l : list A) : zlen (takeZ n l) = Z.max 0 (Z.min n (zlen l)).
Proof. unfold zlen. rewrite takeZ_firstn, firstn_length. lia. Qed.
Lemma zlen_dropZ {A} n (l : list A) : zlen (dropZ n l) = Z.max 0 (zlen l - Z.max 0 n).
Proof. unfold zlen. rewrite dropZ_skipn, skipn_length. lia. Qed.

Lemma takeZ_app {A} (a b : list A) n : n = zlen a -> takeZ n (a ++ b) = a.
Proof.
  intros ->. rewrite takeZ_firstn. unfold zlen. rewrite Nat2Z.id.
  rewrite firstn_app, Nat.sub_diag, firstn_all. simpl. now rewrite app_nil_r.
Qed.
Lemma dropZ_app {A} (a b : list A) n : n = zlen a -> dropZ n (a ++ b) = b.
Proof.
  intros ->. rewrite dropZ_skipn. unfold zlen. rewrite Nat2Z.id.
  rewrite skipn_app, Nat.sub_diag, skipn_all. reflexivity.
Qed.
Lemma takeZ_all {A} (a : list A) n : zlen a <= n -> takeZ n a = a.
Proof. intro. rewrite takeZ_firstn. apply firstn_all2. unfold zlen in *. lia. Qed.
Lemma dropZ_all {A} (a : list A) n : zlen a <= n -> dropZ n a = [].
Proof. intro. rewrite dropZ_skipn. apply skipn_all2. unfold zlen in *. lia. Qed.
Lemma takeZ_0 {A} (a : list A) n : n <= 0 -> takeZ n a = [].
Proof. intro. rewrite takeZ_firstn. replace (Z.to_nat n) with O by lia. reflexivity. Qed.
Lemma dropZ_0 {A} (a : list A) n : n <= 0 -> dropZ n a = a.
Proof. intro. rewrite dropZ_skipn. replace (Z.to_nat n) with O by lia. reflexivity. Qed.
Lemma skipn_skipn' {A} n m (l : list A) : skipn n (skipn m l) = skipn (n + m) l.
Proof.
  revert l; induction m as [|m IH]; intro l; simpl.
  - now rewrite Nat.add_0_r.
  - destruct l; [now rewrite !skipn_nil|]. rewrite IH. now rewrite Nat.add_succ_r.
Qed.
Lemma dropZ_dropZ {A} (l : list A) a b : 0 <= a -> 0 <= b -> dropZ a (dropZ b l) = dropZ (a + b) l.
Proof.
  intros. rewrite !dropZ_skipn, skipn_skipn'. f_equal. lia.
Qed.
Lemma takeZ_takeZ {A} (l : list A) a b : a <= b -> takeZ a (takeZ b l) = takeZ a l.
Proof.
  intros. rewrite !takeZ_firstn, firstn_firstn. f_equal. lia.
Qed.
Lemma takeZ_add {A} (l : list A) a b : 0 <= a -> 0 <= b -> takeZ (a + b) l = takeZ a l ++ takeZ b (dropZ a l).
Proof.
  intros. rewrite <- (take_drop a l) at 1.
  rewrite !takeZ_firstn, dropZ_skipn, firstn_app, firstn_firstn, firstn_length.
  replace (Nat.min (Z.to_nat (a + b)) (Z.to_nat a)) with (Z.to_nat a) by lia.
  f_equal.
  destruct (Nat.le_ge_cases (Z.to_nat a) (length l)).
  - f_equal. lia.
  - rewrite skipn_all2 by lia. now rewrite !firstn_nil.
Qed.

Lemma app_take_eq {A} (a b c d : list A) : zlen a = zlen c -> a ++ b = c ++ d -> a = c /\ b = d.
Proof.
  intros H E. split.
  - rewrite <- (takeZ_app a b (zlen a)) by reflexivity. rewrite E. apply takeZ_app. exact H.
  - rewrite <- (dropZ_app a b (zlen a)) by reflexivity. rewrite E. apply dropZ_app. exact H.
Qed.

(** little-endian *)
Lemma le_enc_length n z : length (le_enc n z) = n.
Proof. revert z; induction n; intro z; simpl; auto. Qed.
Lemma le_enc_zlen n z : zlen (le_enc n z) = Z.of_nat n.
Proof. unfold zlen. now rewrite le_enc_length. Qed.

Lemma le_dec_range b : 0 <= le_dec b < 256 ^ zlen b.
Proof.
  induction b as [|x b IH].
  - simpl. lia.
  - rewrite zlen_cons, Z.pow_add_r by (try apply zlen_nonneg; lia).
    pose proof (b2z_range x). change (256 ^ 1) with 256. cbn [le_dec]. lia.
Qed.

Lemma le_dec_enc n z : le_dec (le_enc n z) = z mod 256 ^ Z.of_nat n.
Proof.
  revert z; induction n as [|n IH]; intro z.
  - simpl. now rewrite Z.mod_1_r.
  - cbn [le_enc le_dec]. rewrite b2z_z2b, IH.
    replace (Z.of_nat (S n)) with (1 + Z.of_nat n) by lia.
    rewrite Z.pow_add_r by lia. change (256 ^ 1) with 256.
    rewrite Z.rem_mul_r by lia. reflexivity.
Qed.

Lemma le_enc_dec b : le_enc (length b) (le_dec b) = b.
Proof.
  induction b as [|x b IH]; [reflexivity|].
  cbn [le_enc le_dec length]. pose proof (b2z_range x).
  replace (b2z x + 256 * le_dec b) with (b2z x + le_dec b * 256) by lia.
  rewrite Z.div_add by lia. rewrite Z.div_small by lia. rewrite Z.add_0_l, IH. f_equal.
  apply b2z_inj. rewrite b2z_z2b, Z.mod_add by lia. apply Z.mod_small. lia.
Qed.

Lemma le_dec_inj a b : length a = length b -> le_dec a = le_dec b -> a = b.
Proof. intros H E. rewrite <- (le_enc_dec a), <- (le_enc_dec b), H, E. reflexivity. Qed.

Lemma le_enc_inj n a b : le_enc n a = le_enc n b -> a mod 256 ^ Z.of_nat n = b mod 256 ^ Z.of_nat n.
Proof. intro H. rewrite <- !le_dec_enc. now rewrite H. Qed.

Lemma le_enc_inj_small n a b :
  0 <= a < 256 ^ Z.of_nat n -> 0 <= b < 256 ^ Z.of_nat n -> le_enc n a = le_enc n b -> a = b.
Proof. intros Ha Hb H. apply le_enc_inj in H. now rewrite !Z.mod_small in H by assumption. Qed.

Lemma le_enc_mod n z : le_enc n (z mod 256 ^ Z.of_nat n) = le_enc n z.
Proof.
  apply le_dec_inj; [now rewrite !le_enc_length|].
  rewrite !le_dec_enc. apply Z.mod_mod. pose proof (Z.pow_pos_nonneg 256 (Z.of_nat n)). lia.
Qed.

(** two's complement *)
Lemma wrap32_range z : min_int32 <= wrap32 z <= max_int32.
Proof.
  unfold wrap32, min_int32, max_int32.
  pose proof (Z.mod_pos_bound (z + 2147483648) 4294967296). lia.
Qed.
Lemma wrap32_id z : min_int32 <= z <= max_int32 -> wrap32 z = z.
Proof.
  unfold wrap32, min_int32, max_int32. intro. rewrite Z.mod_small by lia. lia.
Qed.
Lemma wrap32_mod z : wrap32 (z mod 4294967296) = wrap32 z.
Proof.
  unfold wrap32. f_equal.
  rewrite <- (Z.add_mod_idemp_l z) by lia. reflexivity.
Qed.
Lemma wrap32_mod_inv z : (wrap32 z) mod 4294967296 = z mod 4294967296.
Proof.
  unfold wrap32. rewrite Zminus_mod_idemp_l. f_equal. lia.
Qed.
Lemma wrap64_range z : -9223372036854775808 <= wrap64 z <= 9223372036854775807.
Proof.
  unfold wrap64. pose proof (Z.mod_pos_bound (z + 9223372036854775808) 18446744073709551616). lia.
Qed.
Lemma wrap64_id z : -9223372036854775808 <= z <= 9223372036854775807 -> wrap64 z = z.
Proof. unfold wrap64. intro. rewrite Z.mod_small by lia. lia. Qed.
Lemma wrap64_mod z : wrap64 (z mod 18446744073709551616) = wrap64 z.
Proof.
  unfold wrap64. f_equal. rewrite <- (Z.add_mod_idemp_l z) by lia. reflexivity.
Qed.

(** reading integers *)
Lemma read_uint_enc n z r : read_uint n (le_enc n z ++ r) = Some (z mod 256 ^ Z.of_nat n, r).
Proof.
  unfold read_uint. rewrite zlen_app, le_enc_zlen.
  pose proof (zlen_nonneg r).
  destruct (Z.ltb_spec (Z.of_nat n + zlen r) (Z.of_nat n)); [lia|].
  rewrite firstn_app, skipn_app, le_enc_length, Nat.sub_diag.
  rewrite firstn_all2 by (rewrite le_enc_length; lia).
  rewrite skipn_all2 by (rewrite le_enc_length; lia).
  simpl. rewrite app_nil_r. now rewrite le_dec_enc.
Qed.

Lemma read_uint_inv n b z r :
  read_uint n b = Some (z, r) -> b = le_enc n z ++ r /\ 0 <= z < 256 ^ Z.of_nat n.
Proof.
  unfold read_uint. destruct (Z.ltb_spec (zlen b) (Z.of_nat n)); [discriminate|].
  intro H'. inversion H'; subst; clear H'.
  assert (L : length (firstn n b) = n) by (rewrite firstn_length; unfold zlen in *; lia).
  split.
  - rewrite <- L at 1. rewrite le_enc_dec. symmetry. apply firstn_skipn.
  - pose proof (le_dec_range (firstn n b)) as R. unfold zlen in R. rewrite L in R. exact R.
Qed.

Lemma read_u32_enc z r : 0 <= z < 4294967296 -> read_u32 (le_enc 4 z ++ r) = Some (z, r).
Proof. intro. unfold read_u32. rewrite read_uint_enc. now rewrite Z.mod_small by (simpl; lia). Qed.

Lemma read_u32_inv b z r : read_u32 b = Some (z, r) -> b = le_enc 4 z ++ r /\ 0 <= z < 4294967296.
Proof. apply read_uint_inv. Qed.

Lemma read_i32_enc z r : read_i32 (le_enc 4 z ++ r) = Some (wrap32 z, r).
Proof.
  unfold read_i32. rewrite read_uint_enc. change (256 ^ Z.of_nat 4) with 4294967296.
  now rewrite wrap32_mod.
Qed.

Lemma read_i32_enc_id z r : min_int32 <= z <= max_int32 -> read_i32 (le_enc 4 z ++ r) = Some (z, r).
Proof. intro. rewrite read_i32_enc. now rewrite wrap32_id. Qed.

Lemma le_enc4_wrap32 z : le_enc 4 (wrap32 z) = le_enc 4 z.
Proof.
  rewrite <- (le_enc_mod 4 (wrap32 z)), <- (le_enc_mod 4 z).
  change (256 ^ Z.of_nat 4) with 4294967296. now rewrite wrap32_mod_inv.
Qed.

Lemma read_i32_inv b z r :
  read_i32 b = Some (z, r) -> b = le_enc 4 z ++ r /\ min_int32 <= z <= max_int32.
Proof.
  unfold read_i32. destruct (read_uint 4 b) as [[x r']|] eqn:H; [|discriminate].
  intro E; inversion E; subst; clear E. apply read_uint_inv in H as [-> _].
  split; [now rewrite le_enc4_wrap32 | apply wrap32_range].
Qed.

Lemma read_i32_none b : read_i32 b = None <-> zlen b < 4.
Proof.
  unfold read_i32, read_uint. change (Z.of_nat 4) with 4.
  destruct (Z.ltb_spec (zlen b) 4); split; intro; try easy; lia.
Qed.
Lemma read_u32_none b : read_u32 b = None <-> zlen b < 4.
Proof.
  unfold read_u32, read_uint. change (Z.of_nat 4) with 4.
  destruct (Z.ltb_spec (zlen b) 4); split; intro; try easy; lia.
Qed.

Lemma read_i64_enc z r : read_i64 (le_enc 8 z ++ r) = Some (wrap64 z, r).
Proof.
  unfold read_i64. rewrite read_uint_enc. change (256 ^ Z.of_nat 8) with 18446744073709551616.
  now rewrite wrap64_mod.
Qed.
Lemma read_i64_enc_id z r :
  -9223372036854775808 <= z <= 9223372036854775807 -> read_i64 (le_enc 8 z ++ r) = Some (z, r).
Proof. intro. rewrite read_i64_enc. now rewrite wrap64_id. Qed.
Lemma read_i64_inv b z r : read_i64 b = Some (z, r) -> b = le_enc 8 z ++ r.
Proof.
  unfold read_i64. destruct (read_uint 8 b) as [[x r']|] eqn:H; [|discriminate].
  intro E; inversion E; subst; clear E. apply read_uint_inv in H as [-> R].
  f_equal. change (256 ^ Z.of_nat 8) with 18446744073709551616 in R.
  rewrite <- (le_enc_mod 8 (wrap64 x)), <- (le_enc_mod 8 x).
  change (256 ^ Z.of_nat 8) with 18446744073709551616.
  unfold wrap64. rewrite Zminus_mod_idemp_l. f_equal. f_equal. lia.
Qed.

(** read_at *)
Lemma read_at_app pre mid post :
  read_at (pre ++ mid ++ post) (zlen pre) (zlen mid) = Some mid.
Proof.
  unfold read_at. pose proof (zlen_nonneg pre). pose proof (zlen_nonneg mid). pose proof (zlen_nonneg post).
  rewrite !zlen_app.
  destruct (Z.ltb_spec (zlen pre) 0); [lia|]. destruct (Z.ltb_spec (zlen mid) 0); [lia|].
  destruct (Z.ltb_spec (zlen pre + (zlen mid + zlen post)) (zlen pre + zlen mid)); [lia|].
  simpl. rewrite dropZ_app by reflexivity. now rewrite takeZ_app by reflexivity.
Qed.

Lemma read_at_some file off n b :
  read_at file off n = Some b <->
  0 <= off /\ 0 <= n /\ off + n <= zlen file /\ b = takeZ n (dropZ off file).
Proof.
  unfold read_at.
  destruct (Z.ltb_spec off 0); destruct (Z.ltb_spec n 0);
    destruct (Z.ltb_spec (zlen file) (off + n)); simpl; split; intro H'; try discriminate; try lia.
  - inversion H'; subst. repeat split; lia.
  - destruct H' as (_ & _ & _ & ->). reflexivity.
Qed.

Lemma read_at_split file off n b :
  read_at file off n = Some b <->
  exists pre post, file = pre ++ b ++ post /\ zlen pre = off /\ zlen b = n.
Proof.
  split.
  - intro H. apply read_at_some in H as (H1 & H2 & H3 & ->).
    exists (takeZ off file), (dropZ n (dropZ off file)).
    rewrite take_drop, take_drop. repeat split.
    + rewrite zlen_takeZ. lia.
    + rewrite zlen_takeZ, zlen_dropZ. lia.
  - intros (pre & post & -> & <- & <-). apply read_at_app.
Qed.

Lemma read_at_none file off n :
  read_at file off n = None <-> off < 0 \/ n < 0 \/ zlen file < off + n.
Proof.
  unfold read_at.
  destruct (Z.ltb_spec off 0); destruct (Z.ltb_spec n 0);
    destruct (Z.ltb_spec (zlen file) (off + n)); simpl; split; intro H'; try discriminate; try lia; reflexivity.
Qed.

(** maps *)
Section MapFacts.
  Context {K V : Type} (eqb : K -> K -> bool).
  Hypothesis eqb_eq : forall a b, eqb a b = true <-> a = b.

  Lemma eqb_same a : eqb a a = true.
  Proof using eqb_eq. now apply eqb_eq. Qed.
  Lemma eqb_diff a b : a <> b -> eqb a b = false.
  Proof using eqb_eq. intro. destruct (eqb a b) eqn:E; [apply eqb_eq in E; contradiction | reflexivity]. Qed.

  Lemma mget_mset_same k (v : V) m : mget eqb k (mset eqb k v m) = Some v.
  Proof using eqb_eq.
    induction m as [|[k' v'] m IH]; simpl.
    - now rewrite eqb_same.
    - destruct (eqb k k') eqn:E; simpl; [now rewrite eqb_same|]. now rewrite E.
  Qed.
  Lemma mget_mset_other k k' (v : V) m : k' <> k -> mget eqb k' (mset eqb k v m) = mget eqb k' m.
  Proof using eqb_eq.
    intro D. induction m as [|[k2 v2] m IH]; simpl.
    - now rewrite eqb_diff.
    - destruct (eqb k k2) eqn:E; simpl.
      + apply eqb_eq in E; subst. now rewrite eqb_diff.
      + destruct (eqb k' k2); auto.
  Qed.
  Lemma mget_in k (v : V) m : mget eqb k m = Some v -> In (k, v) m.
  Proof using eqb_eq.
    induction m as [|[k' v'] m IH]; simpl; [discriminate|].
    destruct (eqb k k') eqn:E; intro H.
    - apply eqb_eq in E; subst. inversion H; subst. now left.
    - right. auto.
  Qed.
  Lemma in_mget k (v : V) m : NoDup (map fst m) -> In (k, v) m -> mget eqb k m = Some v.
  Proof using eqb_eq.
    induction m as [|[k' v'] m IH]; simpl; [easy|].
    intros ND [H|H].
    - inversion H; subst. now rewrite eqb_same.
    - inversion ND; subst. rewrite eqb_diff; [auto|].
      intros ->. apply H2. apply in_map_iff. now exists (k', v).
  Qed.
  Lemma mget_none k (m : list (K * V)) : mget eqb k m = None <-> ~ In k (map fst m).
  Proof using eqb_eq.
    induction m as [|[k' v'] m IH]; simpl; [tauto|].
    destruct (eqb k k') eqn:E.
    - apply eqb_eq in E; subst. split; [discriminate | tauto].
    - rewrite IH. split; [intros H [<-|]; [rewrite eqb_same in E; discriminate | auto] | tauto].
  Qed.
  Lemma mset_keys k (v : V) m x : In x (map fst (mset eqb k v m)) <-> x = k \/ In x (map fst m).
  Proof using eqb_eq.
    induction m as [|[k' v'] m IH]; simpl.
    - split; [intros [<-|[]]; now left | intros [->|[]]; now left].
    - destruct (eqb k k') eqn:E; simpl.
      + apply eqb_eq in E; subst. split; [intros [<-|]; auto | intros [->|[]]; auto].
      + rewrite IH. tauto.
  Qed.
  Lemma mset_nodup k (v : V) m : NoDup (map fst m) -> NoDup (map fst (mset eqb k v m)).
  Proof using eqb_eq.
    induction m as [|[k' v'] m IH]; simpl; intro ND.
    - repeat constructor. easy.
    - inversion ND as [|? ? N1 N2]; subst. destruct (eqb k k') eqn:E; simpl.
      + apply eqb_eq in E; subst. now constructor.
      + constructor; [|auto]. rewrite mset_keys. intros [->|H]; [|auto].
        rewrite eqb_same in E. discriminate.
  Qed.
  Lemma mdel_incl k (m : list (K * V)) x : In x (mdel eqb k m) -> In x m.
  Proof using. 
    induction m as [|[k' v'] m IH]; simpl; [easy|].
    destruct (eqb k k'); simpl; tauto.
  Qed.
  Lemma mdel_nodup k (m : list (K * V)) : NoDup (map fst m) -> NoDup (map fst (mdel eqb k m)).
  Proof using.
    induction m as [|[k' v'] m IH]; simpl; intro ND; [constructor|].
    inversion ND as [|? ? N1 N2]; subst. destruct (eqb k k'); [auto|]. simpl. constructor; [|auto].
    intro H. apply N1. apply in_map_iff in H as ([a b] & <- & H). apply in_map_iff.
    exists (a, b). split; [reflexivity|]. now apply mdel_incl in H.
  Qed.
  Lemma mget_mdel_other k k' (m : list (K * V)) : k' <> k -> mget eqb k' (mdel eqb k m) = mget eqb k' m.
  Proof using eqb_eq.
    intro D. induction m as [|[k2 v2] m IH]; simpl; [reflexivity|].
    destruct (eqb k k2) eqn:E; simpl.
    - apply eqb_eq in E; subst. now rewrite eqb_diff.
    - destruct (eqb k' k2); auto.
  Qed.
  Lemma mget_mdel_same k (m : list (K * V)) : NoDup (map fst m) -> mget eqb k (mdel eqb k m) = None.
  Proof using eqb_eq.
    induction m as [|[k2 v2] m IH]; simpl; [reflexivity|].
    intro ND; inversion ND as [|? ? N1 N2]; subst.
    destruct (eqb k k2) eqn:E; simpl.
    - apply eqb_eq in E; subst. now apply mget_none.
    - rewrite E. auto.
  Qed.
End MapFacts.

Lemma Zeqb_eq a b : Z.eqb a b = true <-> a = b.
Proof. apply Z.eqb_eq. Qed.

Definition zget_set_same {V} := @mget_mset_same Z V Z.eqb Zeqb_eq.
Definition zget_set_other {V} := @mget_mset_other Z V Z.eqb Zeqb_eq.

(** outcome *)
Lemma obind_ret {A B} (m : outcome A) (f : A -> outcome B) b :
  obind m f = Ret b -> exists a, m = Ret a /\ f a = Ret b.
Proof. destruct m; simpl; [eauto | discriminate]. Qed.
