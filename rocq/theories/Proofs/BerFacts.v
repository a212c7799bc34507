(** ber2der *)
From Coq Require Import Lia.
From Verif.Model Require Import Bytes Ber.
From Verif.Spec Require Import Ber.
From Verif.Proofs Require Import BytesFacts.

Scheme ber_ind2 := Induction for ber Sort Prop with bers_ind2 := Induction for bers Sort Prop.
Combined Scheme ber_mut from ber_ind2, bers_ind2.
Scheme der_ind2 := Induction for der Sort Prop with ders_ind2 := Induction for ders Sort Prop.
Combined Scheme der_mut from der_ind2, ders_ind2.

(** *** big-endian numbers *)
Lemma be_fold d : forall acc, fold_left (fun a b => 256 * a + b2z b) d acc = acc * 256 ^ zlen d + be_val d.
Proof.
  induction d as [|x d IH]; intros acc.
  - unfold be_val. cbn [fold_left]. rewrite zlen_nil. change (256 ^ 0) with 1. lia.
  - unfold be_val. cbn [fold_left]. rewrite (IH (256 * acc + b2z x)), (IH (256 * 0 + b2z x)). rewrite zlen_cons, Z.pow_add_r by (pose proof (zlen_nonneg d); lia).
    change (256 ^ 1) with 256. ring.
Qed.
Lemma be_val_nil : be_val [] = 0. Proof. reflexivity. Qed.
Lemma be_val_cons x d : be_val (x :: d) = b2z x * 256 ^ zlen d + be_val d.
Proof. change (be_val (x :: d)) with (fold_left (fun a b => 256 * a + b2z b) d (256 * 0 + b2z x)). rewrite (be_fold d (256 * 0 + b2z x)). lia. Qed.
Lemma be_val_range d : 0 <= be_val d < 256 ^ zlen d.
Proof.
  induction d as [|x d IH]; [change (0 <= 0 < 1); lia|].
  rewrite be_val_cons, zlen_cons, Z.pow_add_r by (pose proof (zlen_nonneg d); lia). change (256 ^ 1) with 256.
  pose proof (b2z_range x). nia.
Qed.
Lemma be_val_inj a : forall b, zlen a = zlen b -> be_val a = be_val b -> a = b.
Proof.
  induction a as [|x a IH]; intros [|y b]; rewrite ?zlen_nil, ?zlen_cons; intros HL HV.
  - reflexivity.
  - pose proof (zlen_nonneg b). lia.
  - pose proof (zlen_nonneg a). lia.
  - assert (HL' : zlen a = zlen b) by lia. rewrite !be_val_cons in HV. rewrite HL' in HV.
    pose proof (be_val_range a) as Ra. pose proof (be_val_range b) as Rb. rewrite HL' in Ra.
    assert (b2z x = b2z y) by nia. assert (be_val a = be_val b) by nia. f_equal; [apply b2z_inj; assumption|apply IH; assumption].
Qed.

Lemma readLengthBytes_ok d : forall acc r, readLengthBytes (List.length d) acc (d ++ r) = BRet (acc * 256 ^ zlen d + be_val d, r).
Proof.
  induction d as [|x d IH]; intros acc r.
  - cbn [List.length readLengthBytes app]. rewrite zlen_nil, be_val_nil. change (256 ^ 0) with 1. do 2 f_equal. lia.
  - cbn [List.length readLengthBytes app]. rewrite IH, be_val_cons, zlen_cons, Z.pow_add_r by (pose proof (zlen_nonneg d); lia).
    change (256 ^ 1) with 256. do 2 f_equal. ring.
Qed.

Lemma land127 z : Z.land z 127 = z mod 128. Proof. change 127 with (Z.ones 7). apply Z.land_ones. lia. Qed.
Lemma land31 z : Z.land z 31 = z mod 32. Proof. change 31 with (Z.ones 5). apply Z.land_ones. lia. Qed.
Lemma land32 (b : byte) : (Z.land (b2z b) 32 =? 0) = ((b2z b / 32) mod 2 =? 0).
Proof. destruct b; reflexivity. Qed.

Lemma readLength_ok n l r : ber_length n l -> readLength (l ++ r) = BRet (n, false, r).
Proof.
  intros H. destruct H as [n Hn|d Hd Hv]; cbn [app readLength].
  - rewrite b2z_z2b, Z.mod_small by lia. destruct (Z.ltb_spec 128 n); [lia|]. destruct (Z.eqb_spec n 128); [lia|]. reflexivity.
  - rewrite b2z_z2b, Z.mod_small by lia. destruct (Z.ltb_spec 128 (128 + zlen d)); [|lia]. rewrite land127.
    replace ((128 + zlen d) mod 128) with (zlen d).
    2: { replace (128 + zlen d) with (zlen d + 1 * 128) by lia. rewrite Z.mod_add, Z.mod_small; lia. }
    destruct (Z.ltb_spec 4 (zlen d)); [lia|]. destruct d as [|x d]; [rewrite zlen_nil in Hd; lia|]. cbn [app].
    assert (HN : (zlen (x :: d) =? 4) && (127 <? b2z x) = false).
    { apply andb_false_iff. destruct (Z.eqb_spec (zlen (x :: d)) 4) as [E|E]; [right|left; reflexivity].
      apply Z.ltb_ge. rewrite be_val_cons in Hv. rewrite zlen_cons in E. replace (zlen d) with 3 in Hv by lia.
      pose proof (be_val_range d). change (256 ^ 3) with 16777216 in Hv. change (2 ^ 31) with 2147483648 in Hv. lia. }
    rewrite HN. destruct (Z.eqb_spec (b2z x) 0) as [E|E].
    + rewrite zlen_cons. replace (Z.to_nat (1 + zlen d - 1)) with (List.length d) by (unfold zlen; lia).
      rewrite readLengthBytes_ok. cbn [bbind fst snd]. rewrite be_val_cons, E. reflexivity.
    + replace (Z.to_nat (zlen (x :: d))) with (List.length (x :: d)) by (unfold zlen; lia).
      change (x :: d ++ r) with ((x :: d) ++ r). rewrite readLengthBytes_ok. reflexivity.
Qed.

Lemma readTagRest_ok hi lo r : Forall (fun c => 128 <= b2z c) hi -> b2z lo < 128 -> readTagRest ((hi ++ [lo]) ++ r) = BRet (hi ++ [lo], r).
Proof.
  intros H HL. induction H as [|c hi Hc H IH]; cbn [app readTagRest].
  - destruct (Z.ltb_spec (b2z lo) 128); [reflexivity|lia].
  - destruct (Z.ltb_spec (b2z c) 128); [lia|]. rewrite IH. reflexivity.
Qed.
Lemma readTag_ok k t r : identifier k t -> exists b, readTag (t ++ r) = BRet (t, b, r) /\ (Z.land (b2z b) 32 =? 0) = negb k.
Proof.
  intros (b & q & -> & Hk & [(H1 & ->)|(H1 & hi & lo & -> & H2 & H3)]); exists b; cbn [app readTag]; rewrite land31.
  - destruct (Z.eqb_spec (b2z b mod 32) 31); [contradiction|]. split; [reflexivity|]. rewrite land32, Hk. destruct k; reflexivity.
  - destruct (Z.eqb_spec (b2z b mod 32) 31); [|contradiction]. rewrite readTagRest_ok by assumption. split; [reflexivity|].
    rewrite land32, Hk. destruct k; reflexivity.
Qed.

Lemma identifier_len k t : identifier k t -> 1 <= zlen t.
Proof. intros (b & r & -> & _). rewrite zlen_cons. pose proof (zlen_nonneg r). lia. Qed.
Lemma ber_length_len n l : ber_length n l -> 1 <= zlen l.
Proof. intros [m Hm|d Hd Hv]; rewrite zlen_cons; [rewrite zlen_nil|pose proof (zlen_nonneg d)]; lia. Qed.
Lemma zlen_nat {A} (l : list A) : Z.of_nat (List.length l) = zlen l. Proof. reflexivity. Qed.

Lemma ber_nonempty e o b : ber e o b -> 2 <= zlen b.
Proof.
  intros H. destruct H as [t c l Ht Hl|t os body l Ht Hb Hl|t os body Ht Hb Ho Hf];
    rewrite !zlen_app; pose proof (identifier_len _ _ Ht).
  - pose proof (ber_length_len _ _ Hl). pose proof (zlen_nonneg c). lia.
  - pose proof (ber_length_len _ _ Hl). pose proof (zlen_nonneg body). lia.
  - change (zlen [x80]) with 1. change (zlen [x00; x00]) with 2. pose proof (zlen_nonneg body). lia.
Qed.

(** An encoding whose identifier is not 00 does not start with two zero bytes. *)
Lemma ber_head e o b r : ber e o b -> tag_of o <> [x00] ->
  exists x y t, b ++ r = x :: y :: t /\ (b2z x =? 0) && (b2z y =? 0) = false.
Proof.
  intros H Hn.
  assert (HI : exists k t q, identifier k t /\ tag_of o = t /\ b = t ++ q /\ 1 <= zlen q).
  { destruct H as [t c l Ht Hl|t os body l Ht Hb Hl|t os body Ht Hb Ho Hf]; eexists _, t, _; (split; [exact Ht|]); (split; [reflexivity|]); (split; [reflexivity|]).
    - rewrite zlen_app. pose proof (ber_length_len _ _ Hl). pose proof (zlen_nonneg c). lia.
    - rewrite zlen_app. pose proof (ber_length_len _ _ Hl). pose proof (zlen_nonneg body). lia.
    - rewrite !zlen_app. change (zlen [x80]) with 1. pose proof (zlen_nonneg body). pose proof (zlen_nonneg [x00; x00]). lia. }
  destruct HI as (k & t & q & (x & w & -> & Hk & HT) & Ht & -> & Hq).
  assert (Hx : exists y t', (x :: w ++ q) ++ r = x :: y :: t').
  { destruct HT as [(_ & ->)|(_ & hi & lo & -> & _ & _)].
    - destruct q as [|y q']; [rewrite zlen_nil in Hq; lia|]. eexists y, _. reflexivity.
    - destruct hi as [|y hi']; [exists lo|exists y]; eexists; reflexivity. }
  destruct Hx as (y & t' & E). exists x, y, t'. split; [exact E|].
  apply andb_false_iff. left. apply Z.eqb_neq. intros E0.
  destruct HT as [(_ & ->)|(H1 & _)].
  - apply Hn. rewrite Ht. f_equal. apply b2z_inj. rewrite E0. reflexivity.
  - rewrite E0 in H1. discriminate.
Qed.

Lemma read_ber_mut e : e = false ->
  (forall o b, ber e o b -> forall f r, (List.length b <= f)%nat -> readObject f (b ++ r) = BRet (o, r)) /\
  (forall os bs, bers e os bs -> forall f r, (List.length bs < f)%nat ->
     readChildren f (zlen r) false (bs ++ r) = BRet (os, r) /\
     (os <> [] -> Forall (fun o => tag_of o <> [x00]) os ->
      readChildren f (zlen r) true (bs ++ [x00; x00] ++ r) = BRet (os, [x00; x00] ++ r) /\
      forall k, readChildren f k true (bs ++ [x00; x00] ++ r) = BRet (os, [x00; x00] ++ r))).
Proof.
  intros He. apply (ber_mut e).
  - intros t c l Ht Hl f r Hf. destruct f as [|f]; [pose proof (ber_nonempty e _ _ (ber_prim e t c l Ht Hl)) as H2; rewrite <- zlen_nat in H2; lia|].
    cbn [readObject]. rewrite <- !app_assoc. destruct (readTag_ok _ _ (l ++ c ++ r) Ht) as (b & -> & Hk). cbn [bbind].
    rewrite (readLength_ok _ _ _ Hl). cbn [bbind]. rewrite Hk. cbn [negb andb].
    destruct (Z.ltb_spec (zlen (c ++ r)) (zlen c)) as [C|_]; [rewrite zlen_app in C; pose proof (zlen_nonneg r); lia|].
    rewrite takeZ_app, dropZ_app by reflexivity. reflexivity.
  - intros t os body l Ht Hb IH Hl f r Hf.
    assert (H2 : (List.length body + 2 <= List.length (t ++ l ++ body))%nat).
    { pose proof (identifier_len _ _ Ht) as A1. pose proof (ber_length_len _ _ Hl) as A2. rewrite <- zlen_nat in A1, A2. rewrite !app_length. lia. }
    destruct f as [|f]; [lia|].
    cbn [readObject]. rewrite <- !app_assoc. destruct (readTag_ok _ _ (l ++ body ++ r) Ht) as (b & -> & Hk). cbn [bbind].
    rewrite (readLength_ok _ _ _ Hl). cbn [bbind]. rewrite Hk. cbn [negb andb].
    destruct (Z.ltb_spec (zlen (body ++ r)) (zlen body)) as [C|_]; [rewrite zlen_app in C; pose proof (zlen_nonneg r); lia|].
    rewrite dropZ_app by reflexivity. destruct (IH f r) as [-> _]; [lia|]. reflexivity.
  - intros t os body Ht Hb IH Ho Hn f r Hf.
    assert (H2 : (List.length body + 2 <= List.length (t ++ [x80] ++ body ++ [x00; x00]))%nat) by (rewrite !app_length; cbn [List.length]; lia).
    destruct f as [|f]; [lia|].
    cbn [readObject]. rewrite <- !app_assoc. destruct (readTag_ok _ _ ([x80] ++ body ++ [x00; x00] ++ r) Ht) as (b & -> & Hk). cbn [bbind].
    change (readLength ([x80] ++ body ++ [x00; x00] ++ r)) with (BRet (0, true, body ++ [x00; x00] ++ r)). cbn [bbind]. rewrite Hk. cbn [negb andb].
    destruct (Z.ltb_spec (zlen (body ++ [x00; x00] ++ r)) 0) as [C|_]; [pose proof (zlen_nonneg (body ++ [x00; x00] ++ r)); lia|].
    rewrite dropZ_0 by lia.
    destruct (IH f r) as [_ H]; [lia|]. destruct H as [_ H]; [destruct Ho; [congruence|assumption]|assumption|].
    rewrite H. cbn [bbind]. rewrite dropZ_app by reflexivity. reflexivity.
  - intros f r Hf. destruct f as [|f]; [lia|]. split; [|congruence]. cbn [readChildren app]. rewrite Z.ltb_irrefl. reflexivity.
  - intros o b os bs Hb IHb Hbs IHbs f r Hf. rewrite app_length in Hf.
    pose proof (ber_nonempty _ _ _ Hb) as H2. pose proof (zlen_nat b) as HZ.
    destruct f as [|f]; [lia|]. split.
    + cbn [readChildren]. destruct (Z.ltb_spec (zlen r) (zlen ((b ++ bs) ++ r))) as [_|C]; [|rewrite !zlen_app in C; pose proof (zlen_nonneg bs); lia].
      cbn [orb]. rewrite <- app_assoc, IHb by lia. cbn [bbind]. destruct (IHbs f r) as [-> _]; [lia|]. reflexivity.
    + intros _ HF. inversion HF as [|? ? Ho HF' E1]; subst.
      assert (HK : forall k, readChildren (Datatypes.S f) k true ((b ++ bs) ++ [x00; x00] ++ r) = BRet (o :: os, [x00; x00] ++ r)).
      { intros k. cbn [readChildren]. rewrite orb_true_r. rewrite <- app_assoc, IHb by lia. cbn [bbind].
        destruct os as [|o2 os].
        - inversion Hbs; subst. cbn [app isIndefiniteTermination bbind b2z Byte.to_N]. reflexivity.
        - inversion Hbs as [|? b2 ? bs2 Hb2 Hbs2]; subst.
          assert (Ho2 : tag_of o2 <> [x00]) by (inversion HF'; assumption).
          destruct (ber_head _ _ _ (bs2 ++ [x00; x00] ++ r) Hb2 Ho2) as (x & y & t & Ex & Exy).
          replace (isIndefiniteTermination ((b2 ++ bs2) ++ [x00; x00] ++ r)) with (BRet false).
          2: { rewrite <- app_assoc, Ex. cbn [isIndefiniteTermination]. rewrite Exy. reflexivity. }
          cbn [bbind]. destruct (IHbs f r) as [_ H]; [lia|]. destruct H as [_ H]; [discriminate|assumption|]. rewrite H. reflexivity. }
      split; [apply HK|exact HK].
Qed.

(** *** what the reader can return *)
Inductive wf_obj : asn1obj -> Prop :=
| wf_prim t c : identifier false t -> wf_obj (Prim t c)
| wf_struct t os : identifier true t -> Forall wf_obj os -> wf_obj (Struct t os).

Lemma readTagRest_inv s q r : readTagRest s = BRet (q, r) -> s = q ++ r /\ exists hi lo, q = hi ++ [lo] /\ Forall (fun c => 128 <= b2z c) hi /\ b2z lo < 128.
Proof.
  revert q r. induction s as [|b s IH]; intros q r; cbn [readTagRest]; [discriminate|].
  destruct (Z.ltb_spec (b2z b) 128) as [Hb|Hb].
  - intros H. assert (q = [b] /\ r = s) as [-> ->] by (split; congruence). split; [reflexivity|]. exists [], b. repeat split; auto.
  - destruct (readTagRest s) as [[q' r']| | |]; try discriminate. cbn [bbind fst snd]. intros H.
    assert (q = b :: q' /\ r = r') as [-> ->] by (split; congruence).
    destruct (IH q' r' eq_refl) as (-> & hi & lo & -> & Hh & Hl). split; [reflexivity|]. exists (b :: hi), lo. repeat split; auto.
Qed.
Lemma readTag_inv s t b r : readTag s = BRet (t, b, r) -> s = t ++ r /\ identifier (negb (Z.land (b2z b) 32 =? 0)) t.
Proof.
  unfold readTag. destruct s as [|x s]; [discriminate|]. rewrite land31.
  destruct (Z.eqb_spec (b2z x mod 32) 31) as [E|E].
  - destruct (readTagRest s) as [[q r']| | |] eqn:ER; try discriminate. cbn [bbind fst snd]. intros H.
    assert (t = x :: q /\ b = x /\ r = r') as (-> & -> & ->) by (repeat split; congruence).
    apply readTagRest_inv in ER as (-> & hi & lo & -> & Hh & Hl). split; [reflexivity|]. exists x, (hi ++ [lo]).
    split; [reflexivity|]. split; [|right; split; [exact E|exists hi, lo; auto]]. rewrite land32.
    destruct (Z.eqb_spec ((b2z x / 32) mod 2) 0) as [Z0|Z0]; cbn [negb]; [exact Z0|]. pose proof (Z.mod_pos_bound (b2z x / 32) 2). lia.
  - intros H. assert (t = [x] /\ b = x /\ r = s) as (-> & -> & ->) by (repeat split; congruence). split; [reflexivity|].
    exists x, []. split; [reflexivity|]. split; [|left; auto]. rewrite land32.
    destruct (Z.eqb_spec ((b2z x / 32) mod 2) 0) as [Z0|Z0]; cbn [negb]; [exact Z0|]. pose proof (Z.mod_pos_bound (b2z x / 32) 2). lia.
Qed.

Lemma readLengthBytes_inv n : forall acc s z r, readLengthBytes n acc s = BRet (z, r) -> exists d, s = d ++ r /\ List.length d = n.
Proof.
  induction n as [|n IH]; intros acc s z r; cbn [readLengthBytes].
  - intros H. exists []. split; [cbn [app]; congruence|reflexivity].
  - destruct s as [|b s]; [discriminate|]. intros H. apply IH in H as (d & -> & <-). exists (b :: d). auto.
Qed.
Lemma readLength_inv s z i r : readLength s = BRet (z, i, r) -> exists l, s = l ++ r /\ 1 <= zlen l /\ (i = true -> z = 0 /\ l = [x80]).
Proof.
  unfold readLength. destruct s as [|l s]; [discriminate|].
  destruct (128 <? b2z l) eqn:E1.
  - destruct (4 <? Z.land (b2z l) 127); [discriminate|]. destruct s as [|d s]; [discriminate|].
    destruct (_ && _); [discriminate|]. destruct (b2z d =? 0).
    + destruct (readLengthBytes _ 0 s) as [[z' r']| | |] eqn:ER; try discriminate. cbn [bbind fst snd]. intros H.
      assert (z = z' /\ i = false /\ r = r') as (-> & -> & ->) by (repeat split; congruence).
      apply readLengthBytes_inv in ER as (q & -> & _). exists (l :: d :: q). split; [reflexivity|]. split; [|discriminate].
      rewrite zlen_cons. pose proof (zlen_nonneg (d :: q)). lia.
    + destruct (readLengthBytes _ 0 (d :: s)) as [[z' r']| | |] eqn:ER; try discriminate. cbn [bbind fst snd]. intros H.
      assert (z = z' /\ i = false /\ r = r') as (-> & -> & ->) by (repeat split; congruence).
      apply readLengthBytes_inv in ER as (q & -> & _). exists (l :: q). split; [reflexivity|]. split; [|discriminate].
      rewrite zlen_cons. pose proof (zlen_nonneg q). lia.
  - destruct (Z.eqb_spec (b2z l) 128) as [E2|E2]; intros H.
    + assert (z = 0 /\ i = true /\ r = s) as (-> & -> & ->) by (repeat split; congruence). exists [l]. split; [reflexivity|].
      split; [cbn; lia|]. intros _. split; [reflexivity|]. f_equal. apply b2z_inj. exact E2.
    + assert (i = false /\ r = s) as (-> & ->) by (repeat split; congruence). exists [l]. split; [reflexivity|].
      split; [cbn; lia|discriminate].
Qed.

Lemma bbind_ret {A B} (m : bres A) (f : A -> bres B) b : bbind m f = BRet b -> exists a, m = BRet a /\ f a = BRet b.
Proof. destruct m; cbn [bbind]; try discriminate. eauto. Qed.

Lemma read_inv f :
  (forall s o r, readObject f s = BRet (o, r) -> wf_obj o /\ exists c, s = c ++ r /\ 2 <= zlen c) /\
  (forall k i s os r, readChildren f k i s = BRet (os, r) -> Forall wf_obj os /\ exists c, s = c ++ r /\ (i = true -> exists x y t, r = x :: y :: t /\ b2z x = 0 /\ b2z y = 0)).
Proof.
  induction f as [|f [IHo IHc]]; [split; intros; discriminate|]. split.
  - intros s o r. cbn [readObject]. intros H.
    apply bbind_ret in H as ([[t b] s1] & Et & H). apply bbind_ret in H as ([[z i] s2] & El & H).
    apply readTag_inv in Et as (-> & Ht). apply readLength_inv in El as (l & -> & Hl & Hi).
    pose proof (identifier_len _ _ Ht) as Ht1.
    destruct (Z.ltb_spec (zlen s2) z) as [|Hz]; [discriminate|]. destruct (Z.eqb_spec (Z.land (b2z b) 32) 0) as [K|K].
    + rewrite andb_true_r in H. destruct i; [discriminate|]. assert (o = Prim t (takeZ z s2) /\ r = dropZ z s2) as (-> & ->) by (split; congruence).
      split; [constructor; exact Ht|]. exists (t ++ l ++ takeZ z s2). split; [rewrite <- !app_assoc, take_drop; reflexivity|].
      rewrite !zlen_app. pose proof (zlen_nonneg (takeZ z s2)). lia.
    + rewrite andb_false_r in H. apply bbind_ret in H as ([os s3] & Ec & H). apply IHc in Ec as (Hw & c & -> & Hti).
      destruct i.
      * destruct (Hti eq_refl) as (x & y & q & -> & _ & _).
        assert (o = Struct t os /\ r = q) as (-> & ->) by (split; [congruence|]; assert (r = dropZ 2 (x :: y :: q)) by congruence; subst r; destruct q; reflexivity).
        split; [constructor; assumption|]. exists (t ++ l ++ c ++ [x; y]). split; [rewrite <- !app_assoc; reflexivity|].
        rewrite !zlen_app. change (zlen [x; y]) with 2. pose proof (zlen_nonneg c). lia.
      * assert (o = Struct t os /\ r = dropZ z (c ++ s3)) as (-> & ->) by (split; congruence). split; [constructor; assumption|].
        exists (t ++ l ++ takeZ z (c ++ s3)). split; [rewrite <- !app_assoc, take_drop; reflexivity|].
        rewrite !zlen_app. pose proof (zlen_nonneg (takeZ z (c ++ s3))). lia.
  - intros k i s os r. cbn [readChildren]. destruct ((k <? zlen s) || i) eqn:EC; intros H.
    + apply bbind_ret in H as ([o s1] & Eo & H). apply IHo in Eo as (Ho & c & -> & _).
      assert (HC : bbind (readChildren f k i s1) (fun '(os, s2) => BRet (o :: os, s2)) = BRet (os, r) ->
                   Forall wf_obj os /\ exists c0, c ++ s1 = c0 ++ r /\ (i = true -> exists x y t, r = x :: y :: t /\ b2z x = 0 /\ b2z y = 0)).
      { intros HB. apply bbind_ret in HB as ([os' s2] & Ec & HB). assert (os = o :: os' /\ r = s2) as (-> & ->) by (split; congruence).
        apply IHc in Ec as (Hw & c' & -> & Hi). split; [constructor; assumption|]. exists (c ++ c'). split; [rewrite <- app_assoc; reflexivity|exact Hi]. }
      destruct i; [|apply HC; exact H].
      apply bbind_ret in H as (tm & Etm & H). destruct tm; [|apply HC; exact H].
      assert (os = [o] /\ r = s1) as (-> & ->) by (split; congruence). split; [constructor; [assumption|constructor]|]. exists c. split; [reflexivity|].
      intros _. destruct s1 as [|x [|y s1]]; try discriminate. cbn [isIndefiniteTermination] in Etm.
      assert (Exy : (b2z x =? 0) && (b2z y =? 0) = true) by congruence. apply andb_true_iff in Exy as [Ex Ey].
      exists x, y, s1. split; [reflexivity|]. split; apply Z.eqb_eq; assumption.
    + assert (os = [] /\ r = s) as (-> & ->) by (split; congruence). split; [constructor|]. exists []. split; [reflexivity|].
      intros ->. rewrite orb_true_r in EC. discriminate.
Qed.

(** *** termination *)
Lemma read_fuel f :
  (forall s, (List.length s < f)%nat -> readObject f s <> BFuel) /\
  (forall k i s, (List.length s + 1 < f)%nat -> readChildren f k i s <> BFuel).
Proof.
  induction f as [|f [IHo IHc]]; [split; intros; lia|]. split.
  - intros s Hs. cbn [readObject]. destruct (readTag s) as [[[t b] s1]| | |] eqn:Et; cbn [bbind]; try discriminate.
    2: { exfalso. unfold readTag in Et. destruct s as [|x s]; [discriminate|]. destruct (_ =? _); [|discriminate].
         assert (HF : forall q, readTagRest q <> BFuel). { induction q as [|y q IHq]; cbn [readTagRest]; [discriminate|]. destruct (_ <? _); [discriminate|]. destruct (readTagRest q); try discriminate. congruence. }
         specialize (HF s). destruct (readTagRest s); try discriminate. congruence. }
    destruct (readLength s1) as [[[z i] s2]| | |] eqn:El; cbn [bbind]; try discriminate.
    2: { exfalso. unfold readLength in El. destruct s1 as [|x s1]; [discriminate|].
         assert (HF : forall n a q, readLengthBytes n a q <> BFuel). { induction n as [|n IHn]; intros a q; cbn [readLengthBytes]; [discriminate|]. destruct q; [discriminate|apply IHn]. }
         destruct (128 <? b2z x).
         - destruct (4 <? _); [discriminate|]. destruct s1 as [|d s1]; [discriminate|]. destruct (_ && _); [discriminate|].
           destruct (b2z d =? 0); [pose proof (HF (Z.to_nat (Z.land (b2z x) 127 - 1)) 0 s1) as HX; destruct (readLengthBytes _ 0 s1)|pose proof (HF (Z.to_nat (Z.land (b2z x) 127)) 0 (d :: s1)) as HX; destruct (readLengthBytes _ 0 (d :: s1))]; try discriminate; congruence.
         - destruct (_ =? _); discriminate. }
    apply readTag_inv in Et as (-> & Ht). apply readLength_inv in El as (l & -> & Hl & _).
    pose proof (identifier_len _ _ Ht) as Ht1. rewrite <- zlen_nat in Ht1, Hl. rewrite !app_length in Hs.
    destruct (zlen s2 <? z); [discriminate|]. destruct (_ && _); [discriminate|]. destruct (_ =? 0); [discriminate|].
    pose proof (IHc (zlen (dropZ z s2)) i s2) as HX. destruct (readChildren f _ i s2) as [[? ?]| | |]; cbn [bbind]; try discriminate. intros _. apply HX; [lia|reflexivity].
  - intros k i s Hs. cbn [readChildren]. destruct (_ || _); [|discriminate].
    pose proof (IHo s) as HX. destruct (readObject f s) as [[o s1]| | |] eqn:Eo; cbn [bbind]; try discriminate; [|intros _; apply HX; [lia|reflexivity]].
    apply (proj1 (read_inv f)) in Eo as (_ & c & -> & Hc). rewrite <- zlen_nat in Hc. rewrite app_length in Hs.
    assert (HC : bbind (readChildren f k i s1) (fun '(os, s2) => BRet (o :: os, s2)) <> BFuel).
    { pose proof (IHc k i s1) as HY. destruct (readChildren f k i s1) as [[? ?]| | |]; cbn [bbind]; try discriminate. intros _. apply HY; [lia|reflexivity]. }
    destruct i; [|exact HC]. destruct (isIndefiniteTermination s1) as [[|]| | |] eqn:ET; cbn [bbind]; try discriminate; [exact HC|].
    destruct s1 as [|? [|? ?]]; discriminate.
Qed.

(** *** the encoder writes DER *)
Lemma split_unique p a b x y : 0 <= a < p -> 0 <= b < p -> a + p * x = b + p * y -> a = b /\ x = y.
Proof. intros Ha Hb E. destruct (Z.div_mod_unique p x y a b); [left; lia|left; lia|lia|auto]. Qed.
Lemma marshalLong_val n : forall i, 0 <= i < 256 ^ Z.of_nat n -> be_val (marshalLongLength n i) = i /\ List.length (marshalLongLength n i) = n.
Proof.
  assert (HL : forall n i, List.length (marshalLongLength n i) = n) by (induction n0 as [|n0 IHn]; intros; cbn [marshalLongLength List.length]; auto).
  assert (HM : forall n i j, i mod 256 ^ Z.of_nat n = j mod 256 ^ Z.of_nat n -> marshalLongLength n i = marshalLongLength n j).
  { induction n0 as [|m IH]; intros i j E; [reflexivity|]. cbn [marshalLongLength].
    assert (P : 0 < 256 ^ Z.of_nat m) by (apply Z.pow_pos_nonneg; lia).
    rewrite Nat2Z.inj_succ, Z.pow_succ_r in E by lia. set (p := 256 ^ Z.of_nat m) in *.
    f_equal.
    - assert (E' : (i / p) mod 256 = (j / p) mod 256).
      { rewrite (Z.mul_comm 256 p) in E. rewrite !Z.rem_mul_r in E by lia. apply (split_unique p _ _ _ _ (Z.mod_pos_bound i p P) (Z.mod_pos_bound j p P) E). }
      rewrite <- (z2b_b2z (z2b (i / p))), <- (z2b_b2z (z2b (j / p))), !b2z_z2b. rewrite E'. reflexivity.
    - apply IH. rewrite (Z.mul_comm 256 p) in E. rewrite !Z.rem_mul_r in E by lia. apply (split_unique p _ _ _ _ (Z.mod_pos_bound i p P) (Z.mod_pos_bound j p P) E). }
  induction n as [|n IH]; intros i Hi; (split; [|apply HL]).
  - cbn [marshalLongLength]. rewrite be_val_nil. cbn in Hi. lia.
  - cbn [marshalLongLength]. rewrite Nat2Z.inj_succ, Z.pow_succ_r in Hi by lia.
    assert (P : 0 < 256 ^ Z.of_nat n) by (apply Z.pow_pos_nonneg; lia).
    assert (HE : be_val (marshalLongLength n i) = i mod 256 ^ Z.of_nat n).
    { rewrite (HM n i (i mod 256 ^ Z.of_nat n)) by (rewrite Z.mod_mod; lia). apply IH. apply Z.mod_pos_bound. exact P. }
    rewrite be_val_cons, HE. replace (zlen (marshalLongLength n i)) with (Z.of_nat n) by (unfold zlen; rewrite HL; reflexivity).
    rewrite b2z_z2b. set (p := 256 ^ Z.of_nat n) in *.
    rewrite Z.mod_small. 2: { split; [apply Z.div_pos; lia|apply Z.div_lt_upper_bound; nia]. }
    rewrite Z.mul_comm. symmetry. apply Z.div_mod. lia.
Qed.

Lemma lengthLength_spec f : forall i, 1 <= i < 256 ^ (Z.of_nat f + 1) ->
  let n := lengthLength f i in (1 <= n <= Datatypes.S f)%nat /\ 256 ^ (Z.of_nat n - 1) <= i < 256 ^ Z.of_nat n.
Proof.
  induction f as [|f IH]; intros i Hi; cbn [lengthLength].
  - change (Z.of_nat 1 - 1) with 0. change (256 ^ 0) with 1. change (256 ^ Z.of_nat 1) with 256. cbn in Hi. split; [lia|lia].
  - destruct (Z.ltb_spec 255 i) as [H|H].
    + destruct (IH (i / 256)) as [H1 H2].
      * split; [apply Z.div_le_lower_bound; lia|]. apply Z.div_lt_upper_bound; [lia|].
        rewrite <- Z.pow_succ_r by lia. replace (Z.succ (Z.of_nat f + 1)) with (Z.of_nat (Datatypes.S f) + 1) by lia. lia.
      * set (n := lengthLength f (i / 256)) in *. cbv zeta. split; [lia|].
        replace (Z.of_nat (Datatypes.S n) - 1) with (Z.succ (Z.of_nat n - 1)) by lia.
        replace (Z.of_nat (Datatypes.S n)) with (Z.succ (Z.of_nat n)) by lia.
        rewrite !Z.pow_succ_r by lia. pose proof (Z.div_mod i 256). pose proof (Z.mod_pos_bound i 256). lia.
    + cbv zeta. change (Z.of_nat 1 - 1) with 0. change (256 ^ 0) with 1. change (256 ^ Z.of_nat 1) with 256. lia.
Qed.

Lemma lor128 (n : nat) : (n <= 9)%nat -> Z.lor 128 (Z.of_nat n) = 128 + Z.of_nat n.
Proof. intros H. do 10 (destruct n as [|n]; [reflexivity|]). lia. Qed.

Lemma encodeLength_der n : 0 <= n < 2 ^ 63 -> der_length n (encodeLength n).
Proof.
  intros Hn. unfold encodeLength. destruct (Z.leb_spec 128 n) as [H|H]; [|constructor; lia].
  cbv zeta. destruct (lengthLength_spec 8 n) as [H1 H2].
  { split; [lia|]. change (256 ^ (Z.of_nat 8 + 1)) with (2 ^ 72). change (2 ^ 63) with 9223372036854775808 in Hn. change (2 ^ 72) with 4722366482869645213696. lia. }
  set (k := lengthLength 8 n) in *. rewrite lor128 by lia.
  destruct (marshalLong_val k n) as [HV HL]; [lia|].
  remember (marshalLongLength k n) as d eqn:Ed. destruct d as [|c d]; [cbn [List.length] in HL; lia|].
  assert (EK : Z.of_nat k = zlen (c :: d)) by (unfold zlen; rewrite HL; reflexivity). rewrite EK.
  rewrite <- HV at 1. constructor.
  - lia.
  - intros ->. rewrite be_val_cons in HV. change (b2z x00) with 0 in HV. pose proof (be_val_range d) as R.
    assert (EZ : zlen d = Z.of_nat k - 1) by (rewrite <- zlen_nat; cbn [List.length] in HL; lia). rewrite EZ in R. rewrite Z.mul_0_l, Z.add_0_l in HV. lia.
  - rewrite <- zlen_nat, HL. lia.
Qed.

Lemma der_length_unique n a b : der_length n a -> der_length n b -> a = b.
Proof.
  intros Ha Hb.
  assert (HR : forall c d, c <> x00 -> 256 ^ zlen d <= be_val (c :: d) < 256 * 256 ^ zlen d).
  { intros c d Hc. rewrite be_val_cons. pose proof (be_val_range d). pose proof (b2z_range c).
    assert (b2z c <> 0) by (intros E; apply Hc; apply b2z_inj; rewrite E; reflexivity). nia. }
  destruct Ha as [n Hn|c d Hv Hc Hl].
  - inversion Hb as [m Hm|c d Hv Hc Hl]; subst; [reflexivity|lia].
  - inversion Hb as [m Hm E|c' d' Hv' Hc' Hl' E]; subst; [lia|].
    pose proof (HR c d Hc) as R1. pose proof (HR c' d' Hc') as R2.
    assert (EL : zlen d = zlen d').
    { pose proof (zlen_nonneg d). pose proof (zlen_nonneg d').
      destruct (Z.lt_trichotomy (zlen d) (zlen d')) as [L|[L|L]]; [|exact L|]; exfalso.
      - assert (256 * 256 ^ zlen d <= 256 ^ zlen d') by (rewrite <- Z.pow_succ_r by lia; apply Z.pow_le_mono_r; lia). lia.
      - assert (256 * 256 ^ zlen d' <= 256 ^ zlen d) by (rewrite <- Z.pow_succ_r by lia; apply Z.pow_le_mono_r; lia). lia. }
    assert (EV : c' :: d' = c :: d) by (apply be_val_inj; [rewrite !zlen_cons; lia|exact E]). rewrite EV. reflexivity.
Qed.

Lemma der_unique_mut : (forall o a, der o a -> forall b, der o b -> a = b) /\ (forall os a, ders os a -> forall b, ders os b -> a = b).
Proof.
  apply der_mut.
  - intros t c l Ht Hl b Hb. inversion Hb; subst. do 2 f_equal. eapply der_length_unique; eassumption.
  - intros t os body l Ht Hb IH Hl b Hb'. inversion Hb' as [|? ? body' l' ? HB HL]; subst.
    assert (body = body') as <- by (apply IH; assumption). do 2 f_equal. eapply der_length_unique; eassumption.
  - intros b Hb. inversion Hb. reflexivity.
  - intros o b os bs Hb IHb Hbs IHbs b' Hb'. inversion Hb'; subst. f_equal; auto.
Qed.

(* induction over objects *)
Fixpoint asn1obj_ind2 (P : asn1obj -> Prop) (HP : forall t c, P (Prim t c)) (HS : forall t os, Forall P os -> P (Struct t os)) (o : asn1obj) : P o :=
  match o with
  | Prim t c => HP t c
  | Struct t os => HS t os ((fix go l : Forall P l := match l with [] => Forall_nil P | x :: r => Forall_cons x (asn1obj_ind2 P HP HS x) (go r) end) os)
  end.

Lemma encodeTo_der o : wf_obj o -> zlen (encodeTo o) < 2 ^ 63 -> der o (encodeTo o).
Proof.
  induction o as [t c|t os IH] using asn1obj_ind2; intros Hw Hl; cbn [encodeTo] in *.
  - inversion Hw; subst. constructor; [assumption|]. apply encodeLength_der. rewrite !zlen_app in Hl.
    pose proof (zlen_nonneg t). pose proof (zlen_nonneg (encodeLength (zlen c))). pose proof (zlen_nonneg c). lia.
  - inversion Hw as [|? ? Ht HF]; subst. cbv zeta in *. set (inner := flat_map encodeTo os) in *.
    assert (Hi : 0 <= zlen inner < 2 ^ 63).
    { rewrite !zlen_app in Hl. pose proof (zlen_nonneg t). pose proof (zlen_nonneg (encodeLength (zlen inner))). pose proof (zlen_nonneg inner). lia. }
    constructor; [assumption| |apply encodeLength_der; exact Hi].
    destruct Hi as [_ Hi]. subst inner. clear Hl Hw. induction IH as [|x l Hx IH IHl]; cbn [flat_map]; [constructor|].
    inversion HF; subst. cbn [flat_map] in Hi. rewrite zlen_app in Hi. pose proof (zlen_nonneg (encodeTo x)). pose proof (zlen_nonneg (flat_map encodeTo l)).
    constructor; [apply Hx; [assumption|lia]|apply IHl; [assumption|lia]].
Qed.

(** *** DER is BER *)
Lemma der_length_ber n l : der_length n l -> n < 2 ^ 31 -> ber_length n l.
Proof.
  intros H Hn. destruct H as [n H|c d Hv Hc Hl]; [constructor; assumption|]. constructor; [|exact Hn].
  split; [rewrite zlen_cons; pose proof (zlen_nonneg d); lia|].
  rewrite zlen_cons. rewrite be_val_cons in Hn. pose proof (be_val_range d). pose proof (b2z_range c).
  assert (b2z c <> 0) by (intros E; apply Hc; apply b2z_inj; rewrite E; reflexivity).
  destruct (Z_le_gt_dec (zlen d) 3); [lia|]. exfalso.
  assert (256 ^ 4 <= 256 ^ zlen d) by (apply Z.pow_le_mono_r; lia). change (256 ^ 4) with 4294967296 in H2. change (2 ^ 31) with 2147483648 in Hn. nia.
Qed.
Lemma der_ber_mut e : (forall o a, der o a -> zlen a < 2 ^ 31 -> ber e o a) /\ (forall os a, ders os a -> zlen a < 2 ^ 31 -> bers e os a).
Proof.
  apply der_mut.
  - intros t c l Ht Hl H. constructor; [assumption|]. rewrite !zlen_app in H. apply der_length_ber; [assumption|]. pose proof (zlen_nonneg t). pose proof (zlen_nonneg l). lia.
  - intros t os body l Ht Hb IH Hl H. rewrite !zlen_app in H. pose proof (zlen_nonneg t). pose proof (zlen_nonneg l).
    constructor; [assumption|apply IH; lia|apply der_length_ber; [assumption|lia]].
  - intros _. constructor.
  - intros o b os bs Hb IHb Hbs IHbs H. rewrite zlen_app in H. pose proof (zlen_nonneg b). pose proof (zlen_nonneg bs).
    constructor; [apply IHb; lia|apply IHbs; lia].
Qed.

Lemma ber_wf_mut e : (forall o a, ber e o a -> wf_obj o) /\ (forall os a, bers e os a -> Forall wf_obj os).
Proof. apply ber_mut; intros; constructor; assumption. Qed.

Lemma ber2der_ber o b r : ber false o b -> ber2der (b ++ r) = BRet (encodeTo o).
Proof.
  intros H. unfold ber2der. pose proof (ber_nonempty _ _ _ H) as HN.
  destruct b as [|x b]; [rewrite zlen_nil in HN; lia|]. cbn [app]. change (x :: b ++ r) with ((x :: b) ++ r).
  rewrite (proj1 (read_ber_mut false eq_refl) _ _ H) by (rewrite app_length; lia). reflexivity.
Qed.

(** *** size of the output *)
Lemma der_length_size n l : der_length n l -> n < 2 ^ 32 ->
  (n < 128 -> zlen l = 1) /\ (n < 2 ^ 8 -> zlen l <= 2) /\ (n < 2 ^ 16 -> zlen l <= 3) /\ (n < 2 ^ 24 -> zlen l <= 4) /\ zlen l <= 5.
Proof.
  intros H Hn. destruct H as [n H|c d Hv Hc Hl].
  - repeat split; intros; rewrite zlen_cons, zlen_nil; lia.
  - assert (HK : forall k, 0 <= k -> be_val (c :: d) < 256 ^ k -> zlen (c :: d) <= k).
    { intros k Hk HL. destruct (Z_le_gt_dec (zlen (c :: d)) k) as [|G]; [assumption|]. exfalso. rewrite zlen_cons in G. rewrite be_val_cons in HL.
      assert (b2z c <> 0) by (intros E; apply Hc; apply b2z_inj; rewrite E; reflexivity). pose proof (b2z_range c). pose proof (be_val_range d).
      assert (256 ^ k <= 256 ^ zlen d) by (apply Z.pow_le_mono_r; lia). nia. }
    split; [intros; lia|]. rewrite (zlen_cons _ (c :: d)).
    split; [intros L; specialize (HK 1); change (256 ^ 1) with (2 ^ 8) in HK; lia|].
    split; [intros L; specialize (HK 2); change (256 ^ 2) with (2 ^ 16) in HK; lia|].
    split; [intros L; specialize (HK 3); change (256 ^ 3) with (2 ^ 24) in HK; lia|].
    specialize (HK 4); change (256 ^ 4) with (2 ^ 32) in HK. lia.
Qed.

Lemma ber_length_size n l : ber_length n l ->
  n < 2 ^ 31 /\ (128 <= n -> 2 <= zlen l) /\ (2 ^ 8 <= n -> 3 <= zlen l) /\ (2 ^ 16 <= n -> 4 <= zlen l) /\ (2 ^ 24 <= n -> 5 <= zlen l).
Proof.
  intros H. destruct H as [n H|d Hd Hv].
  - change (2 ^ 31) with 2147483648. change (2 ^ 8) with 256. change (2 ^ 16) with 65536. change (2 ^ 24) with 16777216. repeat split; intros; lia.
  - split; [exact Hv|]. rewrite zlen_cons. split; [intros; lia|]. pose proof (be_val_range d) as R.
    assert (HK : forall k, 0 <= k -> 256 ^ k <= be_val d -> k < zlen d).
    { intros k Hk HL. destruct (Z_lt_ge_dec k (zlen d)) as [|G]; [assumption|]. exfalso. assert (256 ^ zlen d <= 256 ^ k) by (apply Z.pow_le_mono_r; lia). lia. }
    split; [intros L; specialize (HK 1); change (256 ^ 1) with (2 ^ 8) in HK; lia|].
    split; [intros L; specialize (HK 2); change (256 ^ 2) with (2 ^ 16) in HK; lia|].
    intros L; specialize (HK 3); change (256 ^ 3) with (2 ^ 24) in HK; lia.
Qed.

Lemma encode_size_mut e :
  (forall o b, ber e o b -> zlen b < 2 ^ 31 -> zlen (encodeTo o) <= 2 * zlen b) /\
  (forall os b, bers e os b -> zlen b < 2 ^ 31 -> zlen (flat_map encodeTo os) <= 2 * zlen b).
Proof.
  apply ber_mut.
  - intros t c l Ht Hl Hb. cbn [encodeTo]. rewrite !zlen_app in *. pose proof (zlen_nonneg t). pose proof (zlen_nonneg c).
    destruct (ber_length_size _ _ Hl) as (B0 & B1 & B2 & B3 & B4). pose proof (ber_length_len _ _ Hl).
    destruct (der_length_size (zlen c) (encodeLength (zlen c))) as (D1 & D2 & D3 & D4 & D5).
    { apply encodeLength_der. change (2 ^ 63) with 9223372036854775808. change (2 ^ 31) with 2147483648 in *. lia. }
    { change (2 ^ 32) with 4294967296. change (2 ^ 31) with 2147483648 in *. lia. }
    change (2 ^ 31) with 2147483648 in *. change (2 ^ 8) with 256 in *. change (2 ^ 16) with 65536 in *. change (2 ^ 24) with 16777216 in *. lia.
  - intros t os body l Ht Hb IH Hl H. cbn [encodeTo]. cbv zeta. rewrite !zlen_app in *. set (inner := flat_map encodeTo os) in *.
    pose proof (zlen_nonneg t). pose proof (zlen_nonneg body). pose proof (zlen_nonneg inner). pose proof (ber_length_len _ _ Hl). pose proof (identifier_len _ _ Ht).
    destruct (ber_length_size _ _ Hl) as (B0 & B1 & B2 & B3 & B4). specialize (IH ltac:(lia)).
    destruct (der_length_size (zlen inner) (encodeLength (zlen inner))) as (D1 & D2 & D3 & D4 & D5).
    { apply encodeLength_der. change (2 ^ 63) with 9223372036854775808. change (2 ^ 31) with 2147483648 in *. lia. }
    { change (2 ^ 32) with 4294967296. change (2 ^ 31) with 2147483648 in *. lia. }
    change (2 ^ 31) with 2147483648 in *. change (2 ^ 8) with 256 in *. change (2 ^ 16) with 65536 in *. change (2 ^ 24) with 16777216 in *. lia.
  - intros t os body Ht Hb IH Ho Hf H. cbn [encodeTo]. cbv zeta. rewrite !zlen_app in *. set (inner := flat_map encodeTo os) in *.
    change (zlen [x80]) with 1 in *. change (zlen [x00; x00]) with 2 in *.
    pose proof (zlen_nonneg t). pose proof (zlen_nonneg body). pose proof (zlen_nonneg inner). pose proof (identifier_len _ _ Ht).
    specialize (IH ltac:(lia)).
    destruct (der_length_size (zlen inner) (encodeLength (zlen inner))) as (D1 & D2 & D3 & D4 & D5).
    { apply encodeLength_der. change (2 ^ 63) with 9223372036854775808. change (2 ^ 31) with 2147483648 in *. lia. }
    { change (2 ^ 32) with 4294967296. change (2 ^ 31) with 2147483648 in *. lia. }
    lia.
  - intros _. cbn [flat_map]. rewrite zlen_nil. lia.
  - intros o b os bs Hb IHb Hbs IHbs H. cbn [flat_map]. rewrite !zlen_app in *. pose proof (zlen_nonneg b). pose proof (zlen_nonneg bs).
    specialize (IHb ltac:(lia)). specialize (IHbs ltac:(lia)). lia.
Qed.

(** *** inputs with exponential output *)
Fixpoint bomb (n : nat) : bytes :=
  match n with
  | O => [x05; x00; x05; x00; x05; x00; x05; x00]
  | Datatypes.S m => [x30; x06; x30; x02] ++ bomb m
  end.
Lemma bomb_len n : List.length (bomb n) = (4 * n + 8)%nat.
Proof. induction n as [|n IH]; [reflexivity|]. cbn [bomb app List.length]. lia. Qed.
Fixpoint bombSize (n : nat) : Z * Z :=
  match n with O => (2, 2) | Datatypes.S m => (fst (bombSize m) + snd (bombSize m), fst (bombSize m)) end.

Lemma bomb_shape n : exists x y u, bomb n = x :: y :: u /\ List.length u = (4 * n + 6)%nat /\ dropZ 2 (bomb n) = u /\ dropZ 4 (bomb n) = dropZ 2 u.
Proof.
  pose proof (bomb_len n) as HL. destruct (bomb n) as [|x [|y u]]; cbn [List.length] in HL; try lia.
  exists x, y, u. split; [reflexivity|]. split; [lia|]. destruct u as [|a u]; [cbn [List.length] in HL; lia|]. split; reflexivity.
Qed.

Lemma bomb_step f s o r : (forall g, (f <= g)%nat -> readObject g s = BRet (o, r)) -> (2 <= List.length s)%nat ->
  forall g, (f + 2 <= g)%nat -> readObject g ([x30; x02] ++ s) = BRet (Struct [x30] [o], dropZ 2 s).
Proof.
  intros H HL g Hg. destruct g as [|[|[|g]]]; try lia.
  { assert (f = O) by lia. subst f. specialize (H O ltac:(lia)). discriminate. }
  cbn [app]. change (readObject (Datatypes.S (Datatypes.S (Datatypes.S g))) (x30 :: x02 :: s)) with
    (if zlen s <? 2 then BErr else
     bbind (readChildren (Datatypes.S (Datatypes.S g)) (zlen (dropZ 2 s)) false s) (fun '(subObjects, s3) => BRet (Struct [x30] subObjects, dropZ 2 s))).
  destruct (Z.ltb_spec (zlen s) 2) as [C|_]; [rewrite <- zlen_nat in C; lia|].
  assert (HD : zlen (dropZ 2 s) = zlen s - 2) by (rewrite zlen_dropZ; rewrite <- zlen_nat; lia).
  remember (Datatypes.S g) as g1 eqn:Eg1.
  cbn [readChildren]. rewrite HD. destruct (Z.ltb_spec (zlen s - 2) (zlen s)) as [_|C]; [|lia]. cbn [orb].
  pose proof (H g1 ltac:(lia)) as Hr. rewrite Hr. cbn [bbind]. subst g1.
  apply (proj1 (read_inv _)) in Hr as (_ & c & E & Hc).
  cbn [readChildren]. destruct (Z.ltb_spec (zlen s - 2) (zlen r)) as [C|_]; [rewrite E, zlen_app in C; lia|]. reflexivity.
Qed.

Lemma bomb_read n : exists o1 r1 o2 r2,
  (forall g, (4 * n + 4 <= g)%nat -> readObject g (bomb n) = BRet (o1, r1)) /\
  (forall g, (4 * n + 4 <= g)%nat -> readObject g (dropZ 2 (bomb n)) = BRet (o2, r2)) /\
  fst (bombSize n) <= zlen (encodeTo o1) /\ snd (bombSize n) <= zlen (encodeTo o2).
Proof.
  induction n as [|n (o1 & r1 & o2 & r2 & H1 & H2 & S1 & S2)].
  - exists (Prim [x05] []), [x05; x00; x05; x00; x05; x00], (Prim [x05] []), [x05; x00; x05; x00].
    split; [|split; [|split; vm_compute; discriminate]]; intros [|g] Hg; try lia; reflexivity.
  - destruct (bomb_shape n) as (x & y & u & Eb & Lu & D2 & D4).
    assert (HB : forall g, (4 * n + 6 <= g)%nat -> readObject g ([x30; x02] ++ bomb n) = BRet (Struct [x30] [o1], dropZ 2 (bomb n))).
    { intros g Hg. apply (bomb_step (4 * n + 4) (bomb n) o1 r1 H1); [rewrite bomb_len; lia|lia]. }
    exists (Struct [x30] [Struct [x30] [o1]; o2]), (dropZ 4 (bomb n)), (Struct [x30] [o1]), (dropZ 2 (bomb n)).
    split; [|split; [|split]].
    + intros g Hg. destruct g as [|[|[|[|g]]]]; try lia. cbn [bomb app].
      assert (EA : dropZ 6 (x30 :: x02 :: bomb n) = dropZ 4 (bomb n)) by reflexivity.
      remember (Datatypes.S (Datatypes.S (Datatypes.S g))) as g1 eqn:Eg1.
      assert (Estep : readObject (Datatypes.S g1) (x30 :: x06 :: x30 :: x02 :: bomb n) =
        (if zlen (x30 :: x02 :: bomb n) <? 6 then BErr else
         bbind (readChildren g1 (zlen (dropZ 6 (x30 :: x02 :: bomb n))) false (x30 :: x02 :: bomb n)) (fun '(subObjects, s3) => BRet (Struct [x30] subObjects, dropZ 6 (x30 :: x02 :: bomb n))))) by reflexivity.
      rewrite Estep, EA. clear Estep EA.
      assert (HZ : zlen (bomb n) = 4 * Z.of_nat n + 8) by (rewrite <- zlen_nat, bomb_len; lia).
      destruct (Z.ltb_spec (zlen (x30 :: x02 :: bomb n)) 6) as [C|_]; [rewrite !zlen_cons in C; lia|].
      assert (HD : zlen (dropZ 4 (bomb n)) = zlen (bomb n) - 4) by (rewrite zlen_dropZ; lia).
      assert (HD2 : zlen (dropZ 2 (bomb n)) = zlen (bomb n) - 2) by (rewrite zlen_dropZ; lia).
      rewrite HD. subst g1. remember (Datatypes.S (Datatypes.S g)) as g2 eqn:Eg2.
      cbn [readChildren]. destruct (Z.ltb_spec (zlen (bomb n) - 4) (zlen (x30 :: x02 :: bomb n))) as [_|C]; [|rewrite !zlen_cons in C; lia].
      cbn [orb]. change (x30 :: x02 :: bomb n) with ([x30; x02] ++ bomb n). rewrite HB by lia. cbn [bbind]. subst g2.
      remember (Datatypes.S g) as g3 eqn:Eg3.
      cbn [readChildren]. destruct (Z.ltb_spec (zlen (bomb n) - 4) (zlen (dropZ 2 (bomb n)))) as [_|C]; [|lia]. cbn [orb].
      pose proof (H2 g3 ltac:(lia)) as Hr. rewrite Hr. cbn [bbind]. subst g3.
      apply (proj1 (read_inv _)) in Hr as (_ & c & E & Hc).
      cbn [readChildren]. destruct (Z.ltb_spec (zlen (bomb n) - 4) (zlen r2)) as [C|_]; [|reflexivity].
      rewrite E, zlen_app in HD2. lia.
    + intros g Hg. replace (dropZ 2 (bomb (Datatypes.S n))) with ([x30; x02] ++ bomb n) by reflexivity. apply HB. lia.
    + cbn [bombSize fst]. cbn [encodeTo flat_map]. cbv zeta. rewrite !zlen_app, ?zlen_nil.
      pose proof (zlen_nonneg [x30]).
      repeat match goal with |- context [zlen (encodeLength ?z)] => pose proof (zlen_nonneg (encodeLength z)); set (zlen (encodeLength z)) in * end.
      lia.
    + cbn [bombSize snd]. cbn [encodeTo flat_map]. cbv zeta. rewrite !zlen_app, ?zlen_nil.
      pose proof (zlen_nonneg [x30]).
      repeat match goal with |- context [zlen (encodeLength ?z)] => pose proof (zlen_nonneg (encodeLength z)); set (zlen (encodeLength z)) in * end.
      lia.
Qed.
Lemma bombSize_exp n : 2 ^ Z.of_nat n <= fst (bombSize (2 * n)) /\ 2 ^ Z.of_nat n <= snd (bombSize (2 * n)).
Proof.
  induction n as [|n [IH1 IH2]]; [cbn; lia|]. replace (2 * Datatypes.S n)%nat with (Datatypes.S (Datatypes.S (2 * n))) by lia.
  cbn [bombSize fst snd]. rewrite Nat2Z.inj_succ, Z.pow_succ_r by lia. lia.
Qed.
