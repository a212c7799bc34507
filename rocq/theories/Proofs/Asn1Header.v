(** Base 128 numbers, object identifiers, identifier and length octets, bit strings *)
From Coq Require Import Lia.
From Verif.Model Require Import Bytes Env Ber Asn1.
From Verif.Spec Require Import Ber Asn1.
From Verif.Proofs Require Import BytesFacts BerFacts Asn1Codec.

Definition gval (acc : Z) (gs : list Z) : Z := fold_left (fun acc g => 128 * acc + g) gs acc.
Lemma gval_cons acc g gs : gval acc (g :: gs) = gval (128 * acc + g) gs. Proof. reflexivity. Qed.

Lemma base128_iff k : forall acc s n r, base128 k acc s = Some (n, r) <->
  exists hi lo, Forall (fun g => 0 <= g < 128) hi /\ 0 <= lo < 128 /\ (List.length hi < k)%nat /\
    s = map (fun g => z2b (g + 128)) hi ++ z2b lo :: r /\ n = gval acc (hi ++ [lo]) /\ n <= max_int32.
Proof.
  induction k as [|k IH]; intros acc s n r.
  - split; [destruct s; discriminate|]. intros (hi & lo & _ & _ & H & _). lia.
  - destruct s as [|b t]; cbn [base128].
    + split; [discriminate|]. intros (hi & lo & _ & _ & _ & H & _). destruct hi; discriminate.
    + cbv zeta. pose proof (b2z_range b) as B. destruct (Z.ltb_spec (b2z b) 128) as [L|L].
      * split.
        { destruct (Z.ltb_spec max_int32 (acc * 128 + b2z b mod 128)) as [M|M]; [discriminate|]. intros E.
          assert (n = acc * 128 + b2z b mod 128 /\ r = t) as [-> ->] by (split; congruence).
          exists [], (b2z b). rewrite Z.mod_small in * by lia. split; [constructor|]. split; [lia|]. split; [cbn; lia|].
          split; [cbn [map app]; rewrite z2b_b2z; reflexivity|]. split; [change (gval acc ([] ++ [b2z b])) with (128 * acc + b2z b); lia|lia]. }
        { intros (hi & lo & Fh & Fl & HL & HE & HV & HM). destruct hi as [|g hi].
          - cbn [map app] in HE. assert (b = z2b lo /\ t = r) as [-> ->] by (split; congruence). rewrite b2z_z2b, !Z.mod_small in * by (rewrite ?Z.mod_small; lia).
            change (gval acc ([] ++ [lo])) with (128 * acc + lo) in HV. destruct (Z.ltb_spec max_int32 (acc * 128 + lo)); [lia|]. subst n. do 2 f_equal. lia.
          - exfalso. cbn [map app] in HE. assert (b = z2b (g + 128)) as -> by congruence. inversion Fh as [|? ? Hg]; subst. rewrite b2z_z2b, Z.mod_small in L by lia. lia. }
      * rewrite IH. assert (HM128 : b2z b mod 128 = b2z b - 128) by (symmetry; apply Z.mod_unique with 1; lia). rewrite HM128. split.
        { intros (hi & lo & Fh & Fl & HL & -> & HV & HM). exists (b2z b - 128 :: hi), lo. split; [constructor; [lia|exact Fh]|]. split; [exact Fl|].
          split; [cbn; lia|]. split; [|split; [|exact HM]].
          - cbn [map app]. replace (b2z b - 128 + 128) with (b2z b) by lia. rewrite z2b_b2z. reflexivity.
          - cbn [app]. rewrite gval_cons, HV. f_equal. lia. }
        { intros (hi & lo & Fh & Fl & HL & HE & HV & HM). destruct hi as [|g hi].
          - exfalso. cbn [map app] in HE. assert (b = z2b lo) as -> by congruence. rewrite b2z_z2b, Z.mod_small in L by lia. lia.
          - cbn [map app] in HE. assert (b = z2b (g + 128) /\ t = map (fun g => z2b (g + 128)) hi ++ z2b lo :: r) as [Hb ->] by (split; congruence).
            inversion Fh as [|? ? Hg Fh']; subst. rewrite b2z_z2b, (Z.mod_small (g + 128)) in * by lia.
            exists hi, lo. split; [exact Fh'|]. split; [exact Fl|]. split; [cbn in HL; lia|]. split; [reflexivity|]. split; [|exact HM].
            cbn [app]. rewrite gval_cons. f_equal. lia. }
Qed.

Lemma parseBase128_iff s n r : parseBase128Int s = Some (n, r) <->
  exists b, s = b ++ r /\ base128_octets b n /\ zlen b <= 5 /\ n <= max_int32.
Proof.
  unfold parseBase128Int. rewrite base128_iff. split.
  - intros (hi & lo & Fh & Fl & HL & -> & HV & HM). exists (map (fun g => z2b (g + 128)) hi ++ [z2b lo]).
    rewrite <- app_assoc. split; [reflexivity|]. split; [exists hi, lo; repeat split; try assumption; lia|].
    split; [|exact HM]. rewrite zlen_app, zlen_map. unfold zlen. cbn. lia.
  - intros (b & -> & (hi & lo & Fh & Fl & -> & HV) & HL & HM). exists hi, lo. rewrite <- app_assoc. repeat split; try assumption; try lia.
    rewrite zlen_app, zlen_map in HL. unfold zlen in HL. cbn in HL. lia.
Qed.

(** encoding *)
Fixpoint topGroups (l : nat) (n : Z) : list Z :=   (* groups l, l-1, ..., 1 *)
  match l with O => [] | Datatypes.S i => (n / 128 ^ Z.of_nat l) mod 128 :: topGroups i n end.
Lemma base128Bytes_groups l : forall n, base128Bytes (Datatypes.S l) n = map (fun g => z2b (g + 128)) (topGroups l n) ++ [z2b (n mod 128)].
Proof.
  induction l as [|l IH]; intros n.
  - cbn [base128Bytes topGroups map app]. change (128 ^ Z.of_nat 0) with 1. rewrite Z.div_1_r, Z.add_0_r. reflexivity.
  - change (base128Bytes (Datatypes.S (Datatypes.S l)) n) with (z2b ((n / 128 ^ Z.of_nat (Datatypes.S l)) mod 128 + 128) :: base128Bytes (Datatypes.S l) n).
    rewrite IH. reflexivity.
Qed.
Lemma topGroups_range l n : Forall (fun g => 0 <= g < 128) (topGroups l n).
Proof. induction l as [|l IH]; cbn [topGroups]; constructor; [apply Z.mod_pos_bound; lia|exact IH]. Qed.
Lemma gval_app acc a b : gval acc (a ++ b) = gval (gval acc a) b. Proof. apply fold_left_app. Qed.
Lemma topGroups_val l : forall n acc, gval acc (topGroups l n ++ [n mod 128]) = acc * 128 ^ (Z.of_nat l + 1) + n mod 128 ^ (Z.of_nat l + 1).
Proof.
  induction l as [|l IH]; intros n acc.
  - change (gval acc (topGroups 0 n ++ [n mod 128])) with (128 * acc + n mod 128). change (128 ^ (Z.of_nat 0 + 1)) with 128. ring.
  - cbn [topGroups app]. rewrite gval_cons, IH. replace (Z.of_nat (Datatypes.S l)) with (Z.of_nat l + 1) by lia.
    set (m := Z.of_nat l + 1). assert (Hm : 0 <= m) by (unfold m; lia). rewrite Z.pow_add_r by lia. change (128 ^ 1) with 128.
    pose proof (Z.pow_pos_nonneg 128 m ltac:(lia) Hm) as P. rewrite (Z.rem_mul_r n (128 ^ m) 128) by lia. ring.
Qed.
Lemma base128Count_spec f : forall n, 0 < n < 128 ^ Z.of_nat f -> exists c, base128Count f n = Datatypes.S c /\ 128 ^ Z.of_nat c <= n < 128 ^ (Z.of_nat c + 1).
Proof.
  induction f as [|f IH]; intros n Hn; [change (128 ^ Z.of_nat 0) with 1 in Hn; lia|].
  cbn [base128Count]. destruct (Z.ltb_spec 0 n); [|lia]. replace (Z.of_nat (Datatypes.S f)) with (Z.of_nat f + 1) in Hn by lia.
  rewrite Z.pow_add_r in Hn by lia. change (128 ^ 1) with 128 in Hn. pose proof (Z.div_mod n 128 ltac:(lia)) as DM. pose proof (Z.mod_pos_bound n 128 ltac:(lia)) as MB.
  destruct (Z_lt_ge_dec n 128) as [L|L].
  - exists O. rewrite Z.div_small by lia. split; [destruct f; reflexivity|]. change (128 ^ Z.of_nat 0) with 1. change (128 ^ (Z.of_nat 0 + 1)) with 128. lia.
  - destruct (IH (n / 128)) as (c & -> & Hc); [lia|]. exists (Datatypes.S c). split; [reflexivity|].
    replace (Z.of_nat (Datatypes.S c)) with (Z.of_nat c + 1) by lia. rewrite (Z.pow_add_r 128 (Z.of_nat c + 1) 1) by lia.
    rewrite Z.pow_add_r in * by lia. change (128 ^ 1) with 128 in *. lia.
Qed.

Lemma appendBase128_octets n : 0 <= n <= max_int32 -> base128_shortest (appendBase128Int n) n /\ 1 <= zlen (appendBase128Int n) <= 5.
Proof.
  intros Hn. unfold appendBase128Int, base128IntLength. destruct (Z.eqb_spec n 0) as [->|N0].
  - split; [|cbn; lia]. split; [|cbn; congruence]. exists [], 0. repeat split; try lia. constructor.
  - destruct (base128Count_spec 10 n) as (c & -> & Hc). { change (128 ^ Z.of_nat 10) with 1180591620717411303424. unfold max_int32 in Hn. lia. }
    rewrite base128Bytes_groups. pose proof (Z.mod_pos_bound n 128 ltac:(lia)) as MB. split; [split|].
    + exists (topGroups c n), (n mod 128). split; [apply topGroups_range|]. split; [exact MB|]. split; [reflexivity|].
      change (groups_val (topGroups c n ++ [n mod 128])) with (gval 0 (topGroups c n ++ [n mod 128])). rewrite topGroups_val, Z.mod_small by lia. lia.
    + intros t. destruct c as [|c]; cbn [topGroups map app].
      * intros E. assert (z2b (n mod 128) = x80) as E' by congruence. apply (f_equal b2z) in E'. rewrite b2z_z2b, Z.mod_small in E' by lia. change (b2z x80) with 128 in E'. lia.
      * intros E. assert (z2b ((n / 128 ^ Z.of_nat (Datatypes.S c)) mod 128 + 128) = x80) as E' by congruence. apply (f_equal b2z) in E'.
        pose proof (Z.mod_pos_bound (n / 128 ^ Z.of_nat (Datatypes.S c)) 128 ltac:(lia)) as MB2. rewrite b2z_z2b, (Z.mod_small (_ + 128)) in E' by lia. change (b2z x80) with 128 in E'.
        pose proof (Z.pow_pos_nonneg 128 (Z.of_nat (Datatypes.S c)) ltac:(lia) ltac:(lia)) as P.
        rewrite Z.mod_small in E'. 2: { split; [apply Z.div_pos; lia|]. apply Z.div_lt_upper_bound; [lia|]. rewrite Z.pow_add_r in Hc by lia. change (128 ^ 1) with 128 in Hc. lia. }
        assert (1 <= n / 128 ^ Z.of_nat (Datatypes.S c)) by (apply Z.div_le_lower_bound; lia). lia.
    + rewrite zlen_app, zlen_map. assert (HT : forall l, zlen (topGroups l n) = Z.of_nat l). { intros l. induction l as [|l IH]; cbn [topGroups]; [reflexivity|]. rewrite zlen_cons, IH. lia. }
      rewrite HT. change (zlen [z2b (n mod 128)]) with 1. split; [lia|]. destruct (Z_le_gt_dec (Z.of_nat c) 4) as [|G]; [lia|exfalso].
      assert (128 ^ 5 <= 128 ^ Z.of_nat c) by (apply Z.pow_le_mono_r; lia). change (128 ^ 5) with 34359738368 in H. unfold max_int32 in Hn. lia.
Qed.
Lemma parse_append_base128 n r : 0 <= n <= max_int32 -> parseBase128Int (appendBase128Int n ++ r) = Some (n, r).
Proof.
  intros Hn. apply parseBase128_iff. destruct (appendBase128_octets n Hn) as ((H & _) & HL). exists (appendBase128Int n). repeat split; try assumption; lia.
Qed.
Lemma gval_nonneg gs : forall acc, 0 <= acc -> Forall (fun g => 0 <= g < 128) gs -> 0 <= gval acc gs.
Proof. induction gs as [|g gs IH]; intros acc Ha F; [exact Ha|]. inversion F; subst. rewrite gval_cons. apply IH; [lia|assumption]. Qed.
Lemma base128_octets_nonneg b n : base128_octets b n -> 0 <= n /\ b <> [].
Proof.
  intros (hi & lo & Fh & Fl & -> & ->). split; [|destruct hi; discriminate]. apply gval_nonneg; [lia|]. apply Forall_app. split; [exact Fh|]. constructor; [exact Fl|constructor].
Qed.

(** *** object identifiers *)
Lemma oidRest_iff f : forall s l, (List.length s <= f)%nat -> (oidRest f s = Some l <->
  exists bs, concat bs = s /\ Forall2 (fun n b => base128_octets b n /\ zlen b <= 5 /\ n <= max_int32) l bs).
Proof.
  induction f as [|f IH]; intros s l Hf.
  - destruct s; [|cbn in Hf; lia]. cbn [oidRest]. split.
    + intros E. assert (l = []) as -> by congruence. exists []. split; [reflexivity|constructor].
    + intros (bs & HC & F). inversion F as [|n b l' bs' (H & _) F']; subst; [reflexivity|]. apply base128_octets_nonneg in H as [_ H]. destruct b; [congruence|discriminate].
  - destruct s as [|x s]; cbn [oidRest].
    + split.
      * intros E. assert (l = []) as -> by congruence. exists []. split; [reflexivity|constructor].
      * intros (bs & HC & F). inversion F as [|n b l' bs' (H & _) F']; subst; [reflexivity|]. apply base128_octets_nonneg in H as [_ H]. destruct b; [congruence|discriminate].
    + split.
      * destruct (parseBase128Int (x :: s)) as [[v r]|] eqn:HP; [|discriminate]. apply parseBase128_iff in HP as (b & HE & HO & HL & HM).
        assert (Hr : (List.length r <= f)%nat). { pose proof (f_equal (@List.length byte) HE) as HLn. rewrite app_length in HLn. destruct (base128_octets_nonneg _ _ HO) as [_ HN]. destruct b; [congruence|]. cbn in HLn, Hf. lia. }
        destruct (oidRest f r) as [l'|] eqn:HR; [|discriminate]. intros E. assert (l = v :: l') as -> by congruence.
        apply IH in HR as (bs & HC & F); [|exact Hr]. exists (b :: bs). cbn [concat]. rewrite HC, HE. split; [reflexivity|]. constructor; [auto|exact F].
      * intros (bs & HC & F). inversion F as [|n b l' bs' (H1 & H2 & H3) F']; subst; [discriminate|]. cbn [concat] in HC.
        assert (HP : parseBase128Int (x :: s) = Some (n, concat bs')). { apply parseBase128_iff. exists b. auto. }
        rewrite HP. assert (Hr : (List.length (concat bs') <= f)%nat). { pose proof (f_equal (@List.length byte) HC) as HLn. rewrite app_length in HLn. destruct (base128_octets_nonneg _ _ H1) as [_ HN]. destruct b; [congruence|]. cbn in HLn, Hf. lia. }
        assert (oidRest f (concat bs') = Some l') as ->; [|reflexivity]. apply IH; [exact Hr|]. exists bs'. split; [reflexivity|exact F'].
Qed.

Lemma parseOid_iff s o : parseObjectIdentifier s = Some o <->
  exists a b r bs, o = a :: b :: r /\ 0 <= a <= 2 /\ 0 <= b /\ (a < 2 -> b < 40) /\ concat bs = s /\
    Forall2 (fun n c => base128_octets c n /\ zlen c <= 5 /\ n <= max_int32) (a * 40 + b :: r) bs.
Proof.
  unfold parseObjectIdentifier. destruct s as [|x s'].
  { split; [discriminate|]. intros (a & b & r & bs & _ & _ & _ & _ & HC & F). inversion F as [|n c l' bs' (H & _) F']; subst. apply base128_octets_nonneg in H as [_ H]. destruct c; [congruence|discriminate]. }
  set (s := x :: s'). split.
  - destruct (parseBase128Int s) as [[v r]|] eqn:HP; [|discriminate]. apply parseBase128_iff in HP as (b & HE & HO & HL & HM).
    destruct (oidRest (List.length r) r) as [l|] eqn:HR; [|discriminate]. apply oidRest_iff in HR as (bs & HC & F); [|lia].
    pose proof (base128_octets_nonneg _ _ HO) as [Hv _]. intros E. destruct (Z.ltb_spec v 80) as [L|L].
    + assert (o = v / 40 :: v mod 40 :: l) as -> by congruence. exists (v / 40), (v mod 40), l, (b :: bs).
      pose proof (Z.div_mod v 40 ltac:(lia)). pose proof (Z.mod_pos_bound v 40 ltac:(lia)). split; [reflexivity|]. split; [lia|]. split; [lia|]. split; [lia|].
      split; [cbn [concat]; congruence|]. constructor; [replace (v / 40 * 40 + v mod 40) with v by lia; auto|exact F].
    + assert (o = 2 :: (v - 80) :: l) as -> by congruence. exists 2, (v - 80), l, (b :: bs). split; [reflexivity|]. split; [lia|]. split; [lia|]. split; [lia|].
      split; [cbn [concat]; congruence|]. constructor; [replace (2 * 40 + (v - 80)) with v by lia; auto|exact F].
  - intros (a & b & r & bs & -> & Ha & Hb & Hab & HC & F). inversion F as [|n c l' bs' (H1 & H2 & H3) F']; subst. cbn [concat] in HC.
    assert (HP : parseBase128Int s = Some (a * 40 + b, concat bs')). { apply parseBase128_iff. exists c. auto. }
    rewrite HP. assert (oidRest (List.length (concat bs')) (concat bs') = Some r) as ->. { apply oidRest_iff; [lia|]. exists bs'. split; [reflexivity|exact F']. }
    f_equal. destruct (Z.ltb_spec (a * 40 + b) 80) as [L|L].
    + assert (a < 2) by lia. assert (a = (a * 40 + b) / 40) as <- by (apply Z.div_unique with b; lia).
      assert (b = (a * 40 + b) mod 40) as <- by (apply Z.mod_unique with a; lia). reflexivity.
    + assert (a = 2) by lia. subst a. do 2 f_equal. lia.
Qed.

Lemma encodeOid_octets o : valid_oid o -> exists bs, encodeOid o = Some (concat bs) /\
  exists a b r, o = a :: b :: r /\ 0 <= a <= 2 /\ 0 <= b /\ (a < 2 -> b < 40) /\
  Forall2 (fun n c => base128_shortest c n /\ zlen c <= 5 /\ n <= max_int32) (a * 40 + b :: r) bs.
Proof.
  intros (a & b & r & -> & Ha & Hb & Hab & HM & F). exists (map appendBase128Int (a * 40 + b :: r)). split.
  - cbn [encodeOid map concat]. rewrite flat_map_concat_map. destruct (Z.ltb_spec 2 a); [lia|]. destruct (Z.ltb_spec a 2); [|reflexivity].
    destruct (Z.leb_spec 40 b); [lia|reflexivity].
  - exists a, b, r. repeat split; try assumption; try lia. 
    assert (FF : Forall (fun n => 0 <= n <= max_int32) (a * 40 + b :: r)) by (constructor; [lia|exact F]).
    induction FF as [|n l Hn FF IH]; cbn [map]; constructor; [|exact IH]. pose proof (appendBase128_octets n Hn) as (H1 & H2). split; [exact H1|lia].
Qed.
Lemma parse_encode_oid o bs : valid_oid o -> encodeOid o = Some bs -> parseObjectIdentifier bs = Some o.
Proof.
  intros HV HE. destruct (encodeOid_octets o HV) as (l & HE' & a & b & r & -> & Ha & Hb & Hab & F). assert (bs = concat l) as -> by congruence.
  apply parseOid_iff. exists a, b, r, l. split; [reflexivity|]. split; [exact Ha|]. split; [exact Hb|]. split; [exact Hab|]. split; [reflexivity|].
  clear HV HE HE'. induction F as [|n c l1 l2 ((H1 & _) & H2 & H3) F IH]; constructor; auto.
Qed.

(** *** identifier and length octets *)
Lemma derLengthLength_spec f : forall i, 0 <= i < 256 ^ (Z.of_nat f + 1) ->
  let n := derLengthLength f i in (1 <= n)%nat /\ i < 256 ^ Z.of_nat n /\ (n = 1%nat \/ 256 ^ (Z.of_nat n - 1) <= i).
Proof.
  induction f as [|f IH]; intros i Hi; cbn [derLengthLength]; cbv zeta.
  - change (256 ^ (Z.of_nat 0 + 1)) with 256 in Hi. change (256 ^ Z.of_nat 1) with 256. lia.
  - destruct (Z.ltb_spec 255 i) as [L|L].
    + replace (Z.of_nat (Datatypes.S f)) with (Z.of_nat f + 1) in Hi by lia. rewrite Z.pow_add_r in Hi by lia. change (256 ^ 1) with 256 in Hi.
      pose proof (Z.div_mod i 256 ltac:(lia)) as DM. pose proof (Z.mod_pos_bound i 256 ltac:(lia)) as MB. specialize (IH (i / 256) ltac:(lia)). cbv zeta in IH.
      set (n := derLengthLength f (i / 256)) in *. destruct IH as (H1 & H2 & H3).
      assert (E : 256 ^ Z.of_nat (Datatypes.S n) = 256 * 256 ^ Z.of_nat n) by (rewrite <- Z.pow_succ_r by lia; f_equal; lia).
      split; [lia|]. split; [rewrite E; lia|]. right. replace (Z.of_nat (Datatypes.S n) - 1) with (Z.of_nat n) by lia.
      destruct H3 as [-> |H3]; [change (256 ^ Z.of_nat 1) with 256; lia|].
      assert (E2 : 256 ^ Z.of_nat n = 256 * 256 ^ (Z.of_nat n - 1)) by (rewrite <- Z.pow_succ_r by lia; f_equal; lia). lia.
    + change (256 ^ Z.of_nat 1) with 256. lia.
Qed.

Lemma lengthBytes_be n : forall acc (b r : bytes), zlen b = Z.of_nat n ->
  (n = O \/ (0 <= acc /\ acc * 256 ^ Z.of_nat n + be_val b < 2 ^ 31)) ->
  lengthBytes n acc (b ++ r) = Some (acc * 256 ^ Z.of_nat n + be_val b, r).
Proof.
  induction n as [|n IH]; intros acc b r HL HB.
  - destruct b; [|rewrite zlen_cons in HL; pose proof (zlen_nonneg b0); lia]. cbn [lengthBytes app]. change (256 ^ Z.of_nat 0) with 1. rewrite be_val_nil. do 2 f_equal. lia.
  - destruct HB as [|(HA & HB)]; [discriminate|]. destruct b as [|x b]; [rewrite zlen_nil in HL; lia|]. rewrite zlen_cons in HL. cbn [lengthBytes app].
    replace (Z.of_nat (Datatypes.S n)) with (Z.of_nat n + 1) in * by lia. rewrite Z.pow_add_r in * by lia. change (256 ^ 1) with 256 in *.
    rewrite be_val_cons in *. assert (HL' : zlen b = Z.of_nat n) by lia. rewrite HL' in *. pose proof (pow256_pos (Z.of_nat n) ltac:(lia)) as P. pose proof (b2z_range x) as X. pose proof (be_val_range b) as R.
    change (2 ^ 31) with 2147483648 in *. change (2 ^ 23) with 8388608.
    destruct (Z.leb_spec 8388608 acc) as [C|C]; [exfalso; nia|].
    rewrite IH; [do 2 f_equal; ring|exact HL'|]. right. split; [lia|]. nia.
Qed.

Lemma parse_length_octets n r : 0 <= n < 2 ^ 31 ->
  exists l t, (if 128 <=? n then let l := derLengthLength 8 n in z2b (Z.lor 128 (Z.of_nat l)) :: be_enc l n else [z2b n]) = l :: t /\
   (if b2z l <? 128 then Some (b2z l, t ++ r) else if b2z l mod 128 =? 0 then None else lengthBytes (Z.to_nat (b2z l mod 128)) 0 (t ++ r)) = Some (n, r).
Proof.
  intros Hn. destruct (Z.leb_spec 128 n) as [L|L].
  - destruct (derLengthLength_spec 8 n) as (H1 & H2 & H3). { change (256 ^ (Z.of_nat 8 + 1)) with 4722366482869645213696. change (2 ^ 31) with 2147483648 in Hn. lia. }
    set (k := derLengthLength 8 n) in *. exists (z2b (Z.lor 128 (Z.of_nat k))), (be_enc k n). split; [reflexivity|].
    assert (Hk : (k <= 4)%nat). { destruct H3 as [->|H3]; [lia|]. destruct (le_gt_dec k 4) as [|G]; [assumption|exfalso].
      assert (256 ^ 4 <= 256 ^ (Z.of_nat k - 1)) by (apply Z.pow_le_mono_r; lia). change (256 ^ 4) with 4294967296 in H. change (2 ^ 31) with 2147483648 in Hn. lia. }
    assert (HK : Z.lor 128 (Z.of_nat k) = 128 + Z.of_nat k). { clearbody k. destruct k as [|[|[|[|[|]]]]]; try reflexivity. lia. }
    rewrite HK, b2z_z2b, (Z.mod_small (128 + _)) by lia. destruct (Z.ltb_spec (128 + Z.of_nat k) 128); [lia|].
    replace ((128 + Z.of_nat k) mod 128) with (Z.of_nat k) by (apply Z.mod_unique with 1; lia). destruct (Z.eqb_spec (Z.of_nat k) 0); [lia|].
    rewrite Nat2Z.id, lengthBytes_be.
    + rewrite be_enc_val, Z.mod_small by lia. do 2 f_equal.
    + apply be_enc_len.
    + right. split; [lia|]. rewrite be_enc_val, Z.mod_small by lia. lia.
  - exists (z2b n), []. split; [reflexivity|]. rewrite b2z_z2b, Z.mod_small by lia. destruct (Z.ltb_spec n 128); [reflexivity|lia].
Qed.

Lemma land_bits b (c : Z) (k : bool) (g : Z) : 0 <= c < 4 -> 0 <= g < 32 -> b2z b = c * 64 + (if k then 32 else 0) + g ->
  b2z b / 64 = c /\ (Z.land (b2z b) 32 =? 32) = k /\ Z.land (b2z b) 31 = g.
Proof.
  intros Hc Hg E. set (v := b2z b) in *.
  assert (HC : c = 0 \/ c = 1 \/ c = 2 \/ c = 3) by lia.
  assert (L31 : Z.land v 31 = v mod 32). { change 31 with (Z.ones 5). rewrite Z.land_ones by lia. reflexivity. }
  assert (V32 : v mod 32 = g). { symmetry. apply Z.mod_unique with (c * 2 + (if k then 1 else 0)); [lia|]. destruct k; lia. }
  split; [|split; [|lia]].
  - symmetry. apply Z.div_unique with ((if k then 32 else 0) + g); [destruct k; lia|lia].
  - assert (HB : forall n, Z.testbit (Z.land v 32) n = if n =? 5 then Z.testbit v 5 else false).
    { intros n. rewrite Z.land_spec. change 32 with (2 ^ 5) at 1. rewrite Z.pow2_bits_eqb by lia. rewrite (Z.eqb_sym 5 n). destruct (Z.eqb_spec n 5) as [->|]; [rewrite andb_true_r|rewrite andb_false_r]; reflexivity. }
    assert (T5 : Z.testbit v 5 = k).
    { rewrite Z.testbit_eqb by lia. change (2 ^ 5) with 32. replace (v / 32) with (c * 2 + (if k then 1 else 0)).
      - destruct k; [replace ((c * 2 + 1) mod 2) with 1 by (apply Z.mod_unique with c; lia); reflexivity|].
        replace ((c * 2 + 0) mod 2) with 0 by (apply Z.mod_unique with c; lia). reflexivity.
      - apply Z.div_unique with g; [lia|]. destruct k; lia. }
    destruct k.
    + apply Z.eqb_eq. apply Z.bits_inj. intros n. rewrite HB, T5. change 32 with (2 ^ 5). destruct (Z_lt_ge_dec n 0) as [N|N].
      * rewrite Z.testbit_neg_r by lia. destruct (Z.eqb_spec n 5); [lia|reflexivity].
      * rewrite Z.pow2_bits_eqb by lia. rewrite (Z.eqb_sym 5 n). destruct (n =? 5); reflexivity.
    + apply Z.eqb_neq. intros C. assert (Z.testbit (Z.land v 32) 5 = false) by (rewrite HB; cbn; exact T5). rewrite C in H. discriminate H.
Qed.

Lemma parse_append_header t r : valid_header t -> parseTagAndLength (appendTagAndLength t ++ r) = Some (t, r).
Proof.
  intros (Hc & Ht & Hl). unfold appendTagAndLength. cbv zeta.
  destruct (parse_length_octets (tl_length t) r Hl) as (l & u & HE & HP). cbv zeta in HE. rewrite HE.
  rewrite (Z.mod_small (tl_class t) 4) by lia.
  destruct (Z.leb_spec 31 (tl_tag t)) as [L|L].
  - cbn [app]. unfold parseTagAndLength.
    destruct (land_bits (z2b (tl_class t * 64 + (if tl_compound t then 32 else 0) + 31)) (tl_class t) (tl_compound t) 31) as (B1 & B2 & B3); [lia|lia| |].
    { rewrite b2z_z2b, Z.mod_small; [reflexivity|]. destruct (tl_compound t); lia. }
    cbv zeta. rewrite B1, B2, B3. change (31 =? 31) with true. cbv iota. rewrite <- app_assoc, parse_append_base128 by lia. cbn [app].
    rewrite HP. destruct t; reflexivity.
  - cbn [app]. unfold parseTagAndLength.
    destruct (land_bits (z2b (tl_class t * 64 + (if tl_compound t then 32 else 0) + tl_tag t)) (tl_class t) (tl_compound t) (tl_tag t)) as (B1 & B2 & B3); [lia|lia| |].
    { rewrite b2z_z2b, Z.mod_small; [reflexivity|]. destruct (tl_compound t); lia. }
    cbv zeta. rewrite B1, B2, B3. destruct (Z.eqb_spec (tl_tag t) 31); [lia|]. rewrite HP. destruct t; reflexivity.
Qed.
Lemma appendTagAndLength_nonempty t : appendTagAndLength t <> [].
Proof. unfold appendTagAndLength. destruct (31 <=? tl_tag t); discriminate. Qed.
Lemma lengthBytes_rest n : forall acc s v r, 0 <= acc -> lengthBytes n acc s = Some (v, r) -> 0 <= v /\ exists h, s = h ++ r.
Proof.
  induction n as [|n IH]; intros acc s v r HA; cbn [lengthBytes].
  - intros E. assert (v = acc /\ r = s) as [-> ->] by (split; congruence). split; [exact HA|exists []; reflexivity].
  - destruct s as [|b t]; [discriminate|]. destruct (2 ^ 23 <=? acc); [discriminate|]. intros E. pose proof (b2z_range b). apply IH in E as (H1 & h & ->); [|lia].
    split; [exact H1|]. exists (b :: h). reflexivity.
Qed.
Lemma parseHeader_rest s t r : parseTagAndLength s = Some (t, r) -> exists h, s = h ++ r /\ h <> [] /\ 0 <= tl_length t /\ 0 <= tl_class t < 4 /\ 0 <= tl_tag t.
Proof.
  destruct s as [|b s1]; [discriminate|]. unfold parseTagAndLength.
  destruct (if Z.land (b2z b) 31 =? 31 then parseBase128Int s1 else Some (Z.land (b2z b) 31, s1)) as [[tag s2]|] eqn:HT; [|discriminate].
  assert (H2 : exists h2, s1 = h2 ++ s2 /\ 0 <= tag).
  { destruct (Z.land (b2z b) 31 =? 31).
    - apply parseBase128_iff in HT as (c & -> & HO & _). exists c. split; [reflexivity|]. apply base128_octets_nonneg in HO. lia.
    - assert (tag = Z.land (b2z b) 31 /\ s2 = s1) as [-> ->] by (split; congruence). exists []. split; [reflexivity|]. apply Z.land_nonneg. right. lia. }
  destruct H2 as (h2 & -> & Htag). destruct s2 as [|l s3]; [discriminate|].
  destruct (if b2z l <? 128 then _ else _) as [[len s4]|] eqn:HL; [|discriminate].
  assert (H3 : exists h3, s3 = h3 ++ s4 /\ 0 <= len).
  { pose proof (b2z_range l). destruct (b2z l <? 128); [|destruct (b2z l mod 128 =? 0); [discriminate|]].
    - assert (len = b2z l /\ s4 = s3) as [-> ->] by (split; congruence). exists []. split; [reflexivity|lia].
    - apply lengthBytes_rest in HL as (H1 & h & ->); [|lia]. exists h. split; [reflexivity|exact H1]. }
  destruct H3 as (h3 & -> & Hlen). cbv zeta. intros E.
  assert (t = {| tl_class := b2z b / 64; tl_tag := tag; tl_length := len; tl_compound := Z.land (b2z b) 32 =? 32 |} /\ r = s4) as [-> ->] by (split; congruence).
  exists (b :: h2 ++ l :: h3). cbn [tl_length tl_class tl_tag]. pose proof (b2z_range b). split; [cbn [app]; f_equal; rewrite <- app_assoc; reflexivity|]. split; [discriminate|]. split; [exact Hlen|]. split; [|exact Htag].
  split; [apply Z.div_pos; lia|apply Z.div_lt_upper_bound; lia].
Qed.

Lemma lengthBytes_iff n : forall s v r, (1 <= n)%nat -> (lengthBytes n 0 s = Some (v, r) <->
  exists d, zlen d = Z.of_nat n /\ s = d ++ r /\ v = be_val d /\ v < 2 ^ 31).
Proof.
  assert (G : forall n acc s v r, (1 <= n)%nat -> 0 <= acc -> lengthBytes n acc s = Some (v, r) ->
    exists d, zlen d = Z.of_nat n /\ s = d ++ r /\ v = acc * 256 ^ Z.of_nat n + be_val d /\ v < 2 ^ 31).
  { clear n. intros n. induction n as [|n IH]; intros acc s v r Hn HA; [lia|]. cbn [lengthBytes]. destruct s as [|b t]; [discriminate|].
    destruct (Z.leb_spec (2 ^ 23) acc) as [C|C]; [discriminate|]. pose proof (b2z_range b) as B. intros E.
    replace (Z.of_nat (Datatypes.S n)) with (Z.of_nat n + 1) by lia. destruct n as [|n].
    - cbn [lengthBytes] in E. assert (v = acc * 256 + b2z b /\ r = t) as [-> ->] by (split; congruence). exists [b]. split; [reflexivity|]. split; [reflexivity|].
      rewrite be_val_cons, be_val_nil. change (256 ^ zlen ([] : bytes)) with 1. change (256 ^ (Z.of_nat 0 + 1)) with 256. change (2 ^ 23) with 8388608 in C. change (2 ^ 31) with 2147483648. lia.
    - apply IH in E as (d & HL & -> & HV & HB); [|lia|lia]. exists (b :: d). split; [rewrite zlen_cons, HL; lia|]. split; [reflexivity|]. split; [|exact HB].
      rewrite HV, be_val_cons, HL, (Z.pow_add_r 256 _ 1) by lia. change (256 ^ 1) with 256. ring. }
  intros s v r Hn. split.
  - intros E. apply G in E as (d & HL & -> & HV & HB); [|exact Hn|lia]. exists d. repeat split; try assumption; lia.
  - intros (d & HL & -> & -> & HB). rewrite lengthBytes_be; [do 2 f_equal; lia|exact HL|]. right. split; [lia|]. lia.
Qed.
Lemma land_of_byte b : exists c k g, 0 <= c < 4 /\ 0 <= g < 32 /\ b2z b = c * 64 + (if k : bool then 32 else 0) + g.
Proof.
  pose proof (b2z_range b) as B. pose proof (Z.div_mod (b2z b) 64 ltac:(lia)) as D. pose proof (Z.mod_pos_bound (b2z b) 64 ltac:(lia)) as M.
  pose proof (Z.div_mod (b2z b mod 64) 32 ltac:(lia)) as D2. pose proof (Z.mod_pos_bound (b2z b mod 64) 32 ltac:(lia)) as M2.
  exists (b2z b / 64), (1 <=? (b2z b mod 64) / 32), ((b2z b mod 64) mod 32). split; [lia|]. split; [lia|]. destruct (Z.leb_spec 1 ((b2z b mod 64) / 32)); lia.
Qed.

Lemma parseTagAndLength_iff s t r : parseTagAndLength s = Some (t, r) <->
  exists id l, s = id ++ l ++ r /\ identifier_octets (tl_class t) (tl_tag t) (tl_compound t) id /\ definite_length (tl_length t) l.
Proof.
  split.
  - destruct s as [|b s1]; [discriminate|]. unfold parseTagAndLength. destruct (land_of_byte b) as (c & k & g & Hc & Hg & EB).
    destruct (land_bits b c k g Hc Hg EB) as (B1 & B2 & B3). cbv zeta. rewrite B1, B2, B3.
    assert (EBb : b = z2b (c * 64 + (if k then 32 else 0) + g)) by (rewrite <- EB, z2b_b2z; reflexivity).
    destruct (if g =? 31 then parseBase128Int s1 else Some (g, s1)) as [[tag s2]|] eqn:HT; [|discriminate].
    destruct s2 as [|l s3]; [discriminate|]. destruct (if b2z l <? 128 then _ else _) as [[len s4]|] eqn:HL; [|discriminate]. intros E.
    assert (t = {| tl_class := c; tl_tag := tag; tl_length := len; tl_compound := k |} /\ r = s4) as [-> ->] by (split; congruence). cbn [tl_class tl_tag tl_compound tl_length].
    assert (HI : exists id2, s1 = id2 ++ l :: s3 /\ identifier_octets c tag k (b :: id2)).
    { destruct (Z.eqb_spec g 31) as [G|G].
      - apply parseBase128_iff in HT as (d & -> & HO & HLd & HM). exists d. split; [reflexivity|]. split; [exact Hc|]. right. exists d. rewrite EBb, G. auto.
      - assert (tag = g /\ s1 = l :: s3) as [-> ->] by (split; congruence). exists []. split; [reflexivity|]. split; [exact Hc|]. left. split; [lia|]. rewrite EBb. reflexivity. }
    destruct HI as (id2 & -> & HI). pose proof (b2z_range l) as LB.
    assert (HD : exists d, s3 = d ++ s4 /\ definite_length len (l :: d)).
    { destruct (Z.ltb_spec (b2z l) 128) as [L|L].
      - assert (len = b2z l /\ s4 = s3) as [-> ->] by (split; congruence). exists []. split; [reflexivity|]. left. rewrite z2b_b2z. split; [lia|reflexivity].
      - destruct (Z.eqb_spec (b2z l mod 128) 0) as [Z0|Z0]; [discriminate|]. pose proof (Z.mod_pos_bound (b2z l) 128 ltac:(lia)).
        assert (b2z l mod 128 = b2z l - 128) as EM by (symmetry; apply Z.mod_unique with 1; lia).
        apply lengthBytes_iff in HL as (d & HLd & -> & -> & HB); [|lia]. rewrite Z2Nat.id in HLd by lia. exists d. split; [reflexivity|]. right. exists d. split; [lia|]. split; [|split; [reflexivity|exact HB]].
        f_equal. apply b2z_inj. rewrite b2z_z2b, Z.mod_small; lia. }
    destruct HD as (d & -> & HD). exists (b :: id2), (l :: d). split; [cbn [app]; rewrite <- ?app_assoc; reflexivity|]. split; assumption.
  - intros (id & l & -> & (Hc & HI) & HD).
    assert (HLen : exists l0 u, l = l0 :: u /\
       (if b2z l0 <? 128 then Some (b2z l0, u ++ r) else if b2z l0 mod 128 =? 0 then None else lengthBytes (Z.to_nat (b2z l0 mod 128)) 0 (u ++ r)) = Some (tl_length t, r)).
    { destruct HD as [(Hn & ->)|(d & Hd & -> & HV & HB)].
      - exists (z2b (tl_length t)), []. split; [reflexivity|]. rewrite b2z_z2b, Z.mod_small by lia. destruct (Z.ltb_spec (tl_length t) 128); [reflexivity|lia].
      - exists (z2b (128 + zlen d)), d. split; [reflexivity|]. rewrite b2z_z2b, (Z.mod_small (128 + _)) by lia. destruct (Z.ltb_spec (128 + zlen d) 128); [lia|].
        replace ((128 + zlen d) mod 128) with (zlen d mod 128) by (rewrite Z.add_comm; replace (zlen d + 128) with (zlen d + 1 * 128) by lia; rewrite Z.mod_add by lia; reflexivity).
        rewrite Z.mod_small by lia. destruct (Z.eqb_spec (zlen d) 0); [lia|]. apply lengthBytes_iff; [lia|]. exists d. rewrite Z2Nat.id by lia. auto. }
    destruct HLen as (l0 & u & -> & HP). destruct HI as [(Ht & ->)|(b & HO & HLb & HM & ->)].
    + cbn [app]. unfold parseTagAndLength. edestruct (land_bits (z2b (tl_class t * 64 + (if tl_compound t then 32 else 0) + tl_tag t)) (tl_class t) (tl_compound t) (tl_tag t)) as (B1 & B2 & B3); [lia|lia| |].
      { rewrite b2z_z2b, Z.mod_small; [reflexivity|]. destruct (tl_compound t); lia. }
      cbv zeta. rewrite B1, B2, B3. destruct (Z.eqb_spec (tl_tag t) 31); [lia|]. rewrite HP. destruct t; reflexivity.
    + cbn [app]. unfold parseTagAndLength. edestruct (land_bits (z2b (tl_class t * 64 + (if tl_compound t then 32 else 0) + 31)) (tl_class t) (tl_compound t) 31) as (B1 & B2 & B3); [lia|lia| |].
      { rewrite b2z_z2b, Z.mod_small; [reflexivity|]. destruct (tl_compound t); lia. }
      cbv zeta. rewrite B1, B2, B3. change (31 =? 31) with true. cbv iota.
      assert (parseBase128Int (b ++ l0 :: u ++ r) = Some (tl_tag t, l0 :: u ++ r)) as -> by (apply parseBase128_iff; exists b; auto). rewrite HP. destruct t; reflexivity.
Qed.

Lemma append_header_shortest t : valid_header t -> exists id l, appendTagAndLength t = id ++ l /\
  identifier_shortest (tl_class t) (tl_tag t) (tl_compound t) id /\ der_length (tl_length t) l.
Proof.
  intros (Hc & Ht & Hl). unfold appendTagAndLength. cbv zeta. rewrite (Z.mod_small (tl_class t) 4) by lia. eexists _, _. split; [reflexivity|]. split.
  - destruct (Z.leb_spec 31 (tl_tag t)) as [L|L].
    + destruct (appendBase128_octets (tl_tag t) Ht) as ((HO & HS) & HLn). split.
      * split; [exact Hc|]. right. exists (appendBase128Int (tl_tag t)). repeat split; try assumption; lia.
      * intros b c E _. assert (c = appendBase128Int (tl_tag t)) as -> by congruence. split; [exact L|]. split; assumption.
    + split.
      * split; [exact Hc|]. left. split; [lia|]. reflexivity.
      * intros b c E Hm. assert (b = z2b (tl_class t * 64 + (if tl_compound t then 32 else 0) + tl_tag t)) as -> by congruence.
        rewrite b2z_z2b, (Z.mod_small _ 256) in Hm by (destruct (tl_compound t); lia).
        assert (tl_tag t = (tl_class t * 64 + (if tl_compound t then 32 else 0) + tl_tag t) mod 32).
        { apply Z.mod_unique with (tl_class t * 2 + (if tl_compound t then 1 else 0)); [lia|]. destruct (tl_compound t); lia. } lia.
  - destruct (Z.leb_spec 128 (tl_length t)) as [L|L].
    + destruct (derLengthLength_spec 8 (tl_length t)) as (H1 & H2 & H3). { change (256 ^ (Z.of_nat 8 + 1)) with 4722366482869645213696. change (2 ^ 31) with 2147483648 in Hl. lia. }
      set (k := derLengthLength 8 (tl_length t)) in *.
      assert (Hk : (k <= 4)%nat). { destruct H3 as [->|H3]; [lia|]. destruct (le_gt_dec k 4) as [|G]; [assumption|exfalso].
        assert (256 ^ 4 <= 256 ^ (Z.of_nat k - 1)) by (apply Z.pow_le_mono_r; lia). change (256 ^ 4) with 4294967296 in H. change (2 ^ 31) with 2147483648 in Hl. lia. }
      assert (HK : Z.lor 128 (Z.of_nat k) = 128 + Z.of_nat k). { clearbody k. destruct k as [|[|[|[|[|]]]]]; try reflexivity. lia. }
      rewrite HK, <- (be_enc_len k (tl_length t)).
      assert (HV : be_val (be_enc k (tl_length t)) = tl_length t) by (rewrite be_enc_val; apply Z.mod_small; lia).
      destruct k as [|k]; [lia|]. rewrite <- HV at 1. cbn [be_enc]. apply long_min.
      * change (z2b (tl_length t / 256 ^ Z.of_nat k) :: be_enc k (tl_length t)) with (be_enc (Datatypes.S k) (tl_length t)). lia.
      * intros C. apply (f_equal b2z) in C. rewrite b2z_z2b in C. change (b2z x00) with 0 in C. pose proof (pow256_pos (Z.of_nat k) ltac:(lia)) as P.
        assert (HQ : 1 <= tl_length t / 256 ^ Z.of_nat k < 256).
        { split.
          - apply Z.div_le_lower_bound; [lia|]. destruct H3 as [H3|H3]; [assert (k = O) as -> by lia; change (256 ^ Z.of_nat 0) with 1; lia|]. replace (Z.of_nat (Datatypes.S k) - 1) with (Z.of_nat k) in H3 by lia. lia.
          - apply Z.div_lt_upper_bound; [lia|]. replace (Z.of_nat (Datatypes.S k)) with (Z.of_nat k + 1) in H2 by lia. rewrite Z.pow_add_r in H2 by lia. change (256 ^ 1) with 256 in H2. lia. }
        rewrite Z.mod_small in C; lia.
      * rewrite zlen_cons, be_enc_len. lia.
    + apply short_min. lia.
Qed.

(** *** BOOLEAN and BIT STRING *)
Lemma parseBool_iff b v : parseBool b = Some v <-> b = [if v then xff else x00].
Proof.
  split.
  - destruct b as [|x [|]]; try discriminate. cbn [parseBool]. destruct (Z.eqb_spec (b2z x) 0) as [E|]; [|destruct (Z.eqb_spec (b2z x) 255) as [E|]; [|discriminate]].
    + intros H. assert (v = false) as -> by congruence. f_equal. apply b2z_inj. exact E.
    + intros H. assert (v = true) as -> by congruence. f_equal. apply b2z_inj. exact E.
  - intros ->. destruct v; reflexivity.
Qed.
Lemma parseBits_iff b u n : parseBitString b = Some (u, n) <->
  exists pad, b = z2b pad :: u /\ 0 <= pad < 8 /\ n = 8 * zlen u - pad /\ (u = [] -> pad = 0) /\ (u <> [] -> b2z (last u x00) mod 2 ^ pad = 0).
Proof.
  destruct b as [|x t]; cbn [parseBitString].
  { split; [discriminate|]. intros (pad & H & _). discriminate. }
  cbv zeta. pose proof (b2z_range x) as X. rewrite zlen_cons. pose proof (zlen_nonneg t) as T.
  assert (HLand : 0 <= b2z x -> Z.land (b2z (last (x :: t) x)) (2 ^ b2z x - 1) = b2z (last (x :: t) x) mod 2 ^ b2z x).
  { intros _. rewrite <- Z.land_ones by lia. rewrite Z.ones_equiv. reflexivity. }
  rewrite HLand by lia.
  assert (HLast : t <> [] -> last (x :: t) x = last t x00).
  { intros N. destruct t as [|y t']; [congruence|]. clear. revert y. induction t' as [|z t' IH]; intros y; [reflexivity|]. specialize (IH z). cbn [last] in *. destruct t'; [reflexivity|exact IH]. }
  split.
  - destruct ((7 <? b2z x) || ((1 + zlen t =? 1) && (0 <? b2z x)) || negb (b2z (last (x :: t) x) mod 2 ^ b2z x =? 0)) eqn:C; [discriminate|].
    apply orb_false_iff in C as [C C3]. apply orb_false_iff in C as [C1 C2]. apply Z.ltb_ge in C1. apply negb_false_iff in C3. apply Z.eqb_eq in C3.
    intros E. assert (u = t /\ n = (1 + zlen t - 1) * 8 - b2z x) as [-> ->] by (split; congruence).
    exists (b2z x). rewrite z2b_b2z. split; [reflexivity|]. split; [lia|]. split; [lia|]. split.
    + intros ->. rewrite zlen_nil in C2. change (1 + 0 =? 1) with true in C2. cbn [andb] in C2. apply Z.ltb_ge in C2. lia.
    + intros N. rewrite <- HLast by exact N. exact C3.
  - intros (pad & HE & Hp & -> & H0 & H1). assert (x = z2b pad /\ u = t) as [-> ->] by (split; congruence).
    assert (HB : b2z (z2b pad) = pad) by (rewrite b2z_z2b; apply Z.mod_small; lia). rewrite HB in *. destruct (Z.ltb_spec 7 pad); [lia|]. cbn [orb].
    destruct (list_eq_dec Byte.byte_eq_dec t []) as [->|N].
    + rewrite (H0 eq_refl). cbn [last]. rewrite zlen_nil. change (2 ^ 0) with 1. rewrite Z.mod_1_r. reflexivity.
    + destruct (Z.eqb_spec (1 + zlen t) 1) as [C|C]; [destruct t; [congruence|rewrite zlen_cons in C; pose proof (zlen_nonneg t); lia]|]. cbn [andb orb].
      rewrite HLast, H1 by exact N. change (negb (0 =? 0)) with false. cbv iota. f_equal. f_equal. lia.
Qed.
