(** The content digests of Spec/Digests.v are functions of the contents, and injective up to
    collisions of the hash function. *)
From Coq Require Import Lia.
From Verif.Model Require Import Bytes Env.
From Verif.Spec Require Import Encoding Algorithms ApkLayout Digests.
From Verif.Proofs Require Import BytesFacts DigestFacts VerityFacts.

Lemma chunked_inj c cs c' cs' : chunked c cs -> chunked c' cs' -> c = c' -> cs = cs'.
Proof.
  intro H. revert c' cs'. induction H as [|c L|c rest cs L N C IH]; intros c' cs' H' E.
  - inversion H'; subst; [reflexivity | unfold zlen in *; cbn in *; lia|].
    destruct c; [unfold zlen in *; cbn in *; lia | discriminate].
  - inversion H' as [|c2 L2|c2 rest cs2 L2 N2 C2]; subst; [unfold zlen in *; cbn in *; lia | reflexivity|].
    exfalso. rewrite zlen_app in L. destruct rest; [contradiction|]. rewrite zlen_cons in L. pose proof (zlen_nonneg rest). lia.
  - inversion H' as [|c2 L2|c2 rest2 cs2 L2 N2 C2]; subst.
    + destruct c; [unfold zlen in *; cbn in *; lia | discriminate].
    + exfalso. rewrite zlen_app in L2. destruct rest; [contradiction|]. rewrite zlen_cons in L2. pose proof (zlen_nonneg rest). lia.
    + match goal with X : _ ++ _ = _ ++ _ |- _ => apply app_take_eq in X as [-> ->]; [|congruence] end. f_equal. eapply IH; [eassumption | reflexivity].
Qed.

Lemma chunked_all_inj a x y : Forall2 chunked a x -> Forall2 chunked a y -> x = y.
Proof.
  intro F. revert y. induction F as [|c cs a x H F IH]; intros y G; inversion G; subst; [reflexivity|].
  f_equal; [eapply chunked_inj; eauto | auto].
Qed.

Lemma chunked_all_concat a x : Forall2 chunked a x -> concat (concat x) = concat a.
Proof.
  induction 1 as [|c cs a x H F IH]; [reflexivity|]. cbn [concat]. rewrite concat_app, IH. f_equal. now apply chunked_concat.
Qed.

Lemma blocks_inj a : forall b, Forall is_block a -> Forall is_block b -> concat a = concat b -> a = b.
Proof.
  induction a as [|x a IH]; intros b Fa Fb E; inversion Fa; subst.
  - inversion Fb as [|y b' Hy]; subst; [reflexivity|]. exfalso. unfold is_block in Hy. destruct y; [discriminate|]. discriminate.
  - inversion Fb as [|y b' Hy Fb']; subst.
    + unfold is_block in *. destruct x; [discriminate|]. discriminate.
    + cbn [concat] in E. unfold is_block in *. apply app_take_eq in E as [-> E]; [|congruence]. f_equal. now apply IH.
Qed.

Lemma mod_pad n p : 0 <= p < 4096 -> (n + p) mod 4096 = 0 -> p = (- n) mod 4096.
Proof.
  intros P M. rewrite <- (Z.mod_small p 4096) by lia. replace p with ((n + p) + (- n)) at 1 by lia.
  rewrite Z.add_mod, M by lia. rewrite Z.add_0_l. apply Z.mod_mod. lia.
Qed.

Lemma padded_mod (c : bytes) p blocks : 0 <= p -> c ++ zeros p = concat blocks -> Forall is_block blocks -> (zlen c + p) mod 4096 = 0.
Proof.
  intros P E F. apply (f_equal zlen) in E. rewrite zlen_app, zeros_len, (concat_block_len _ F) in E by lia.
  rewrite E, Z.mul_comm. apply Z.mod_mul. lia.
Qed.

Section Hash.
  Variable H : bytes -> bytes.
  Variable size : Z.
  Hypothesis Hsize : forall m, zlen (H m) = size.
  Hypothesis Hpos : 0 < size.

  Definition collision (P Q : bytes -> Prop) : Prop := exists m m', P m /\ Q m' /\ m <> m' /\ H m = H m'.

  Lemma hash_inj (P Q : bytes -> Prop) m m' : P m -> Q m' -> H m = H m' -> m = m' \/ collision P Q.
  Proof.
    intros A B E. destruct (list_eq_dec Byte.byte_eq_dec m m'); [now left|]. right. exists m, m'. auto.
  Qed.
  Lemma collision_weaken (P Q P' Q' : bytes -> Prop) : (forall m, P m -> P' m) -> (forall m, Q m -> Q' m) ->
    collision P Q -> collision P' Q'.
  Proof. intros A B (m & m' & ? & ? & ? & ?). exists m, m'. auto. Qed.

  (** lists of hashes *)
  Lemma hashes_len (f : bytes -> bytes) l : zlen (concat (map (fun b => H (f b)) l)) = size * zlen l.
  Proof using Hsize.
    induction l as [|b l IH]; [unfold zlen; cbn; lia|]. cbn [map concat]. rewrite zlen_app, IH, zlen_cons, Hsize. lia.
  Qed.
  Lemma hashes_inj (P Q : bytes -> Prop) (f : bytes -> bytes) (Finj : forall a b, f a = f b -> a = b) l : forall l',
    (forall b, In b l -> P (f b)) -> (forall b, In b l' -> Q (f b)) ->
    zlen l = zlen l' -> concat (map (fun b => H (f b)) l) = concat (map (fun b => H (f b)) l') -> l = l' \/ collision P Q.
  Proof using Hsize.
    induction l as [|b l IH]; intros [|b' l'] PA QA L E.
    - now left.
    - unfold zlen in L. cbn in L. lia.
    - unfold zlen in L. cbn in L. lia.
    - rewrite !zlen_cons in L. cbn [map concat] in E. apply app_take_eq in E as [E1 E2]; [|now rewrite !Hsize].
      apply (hash_inj P Q) in E1 as [E1|C]; [|now right|apply PA; now left|apply QA; now left].
      apply IH in E2 as [->|C]; [|now right| | |lia]; [|intros; apply PA; now right|intros; apply QA; now right]. left. f_equal. auto.
  Qed.

  Lemma chunked_digest_fun s d d' : chunked_digest H s d -> chunked_digest H s d' -> d = d'.
  Proof. intros (x & X & ->) (y & Y & ->). now rewrite (chunked_all_inj _ _ _ X Y). Qed.

  Theorem chunked_digest_inj s s' d : chunked_digest H s d -> chunked_digest H s' d ->
    concat s = concat s' \/ collision (chunked_message H s) (chunked_message H s').
  Proof using Hsize Hpos.
    intros (x & X & ->) (y & Y & E). unfold top_hash in E.
    apply (hash_inj (chunked_message H s) (chunked_message H s')) in E as [E|C];
      [|now right|exists x; split; [exact X|now left]|exists y; split; [exact Y|now left]].
    apply (f_equal (fun l => match l with [] => l | _ :: t => t end)) in E. cbn beta iota in E.
    apply app_take_eq in E as [_ E]; [|unfold le32; now rewrite !le_enc_zlen].
    assert (L : zlen (concat x) = zlen (concat y)).
    { apply (f_equal zlen) in E. unfold chunk_hash in E. rewrite !hashes_len in E. apply Z.mul_cancel_l in E; lia. }
    unfold chunk_hash in E. apply (hashes_inj (chunked_message H s) (chunked_message H s') (fun c => xa5 :: le32 (zlen c) ++ c)) in E as [E|C]; [| now right| | | |assumption].
    - left. rewrite <- (chunked_all_concat _ _ X), <- (chunked_all_concat _ _ Y). now rewrite E.
    - intros a b E2. apply (f_equal (fun l => match l with [] => l | _ :: t => t end)) in E2. cbn beta iota in E2. apply app_take_eq in E2 as [_ E2]; [assumption|]. unfold le32. now rewrite !le_enc_zlen.
    - intros b Hb. exists x. split; [exact X|]. right. exists b. auto.
    - intros b Hb. exists y. split; [exact Y|]. right. exists b. auto.
  Qed.

  Lemma verity_level_fun c l l' : verity_level H c l -> verity_level H c l' -> l = l'.
  Proof using Hsize.
    intros (p & bs & q & P & Ec & F & Q & -> & M) (p' & bs' & q' & P' & Ec' & F' & Q' & -> & M').
    assert (p = p'). { rewrite (mod_pad (zlen c) p), (mod_pad (zlen c) p'); auto; eapply padded_mod; eauto; lia. }
    subst p'. rewrite Ec in Ec'. apply blocks_inj in Ec'; [|assumption|assumption]. subst bs'.
    rewrite zlen_app, zeros_len in M, M' by lia. f_equal. f_equal.
    rewrite (mod_pad _ q Q M), (mod_pad _ q' Q' M'). reflexivity.
  Qed.

  Lemma verity_root_fun c d d' : verity_root H c d -> verity_root H c d' -> d = d'.
  Proof using Hsize.
    intro R. revert d'. induction R as [c l L Z|c l d L Z R IH]; intros d' R'; inversion R' as [c2 l2 L2 Z2|c2 l2 d2 L2 Z2 R2]; subst;
      pose proof (verity_level_fun _ _ _ L L2); subst l2; try lia; auto.
  Qed.
  Lemma verity_digest_fun s d d' : verity_digest H s d -> verity_digest H s d' -> d = d'.
  Proof using Hsize. intros (r & R & ->) (r' & R' & ->). now rewrite (verity_root_fun _ _ _ R R'). Qed.

  Lemma verity_level_len c c' l l' : zlen c = zlen c' -> verity_level H c l -> verity_level H c' l' -> zlen l = zlen l'.
  Proof using Hsize.
    intros Lc (p & bs & q & P & Ec & F & Q & -> & M) (p' & bs' & q' & P' & Ec' & F' & Q' & -> & M').
    assert (p = p'). { rewrite (mod_pad (zlen c) p), (mod_pad (zlen c') p'); try congruence; eapply padded_mod; eauto; lia. }
    subst p'. assert (zlen bs = zlen bs').
    { apply (f_equal zlen) in Ec, Ec'. rewrite zlen_app, concat_block_len in Ec, Ec' by assumption. lia. }
    rewrite zlen_app, zeros_len, hashes_len in M, M' by lia. rewrite !zlen_app, !zeros_len, !hashes_len by lia.
    rewrite (mod_pad _ q Q M), (mod_pad _ q' Q' M'). congruence.
  Qed.

  Lemma verity_level_inj c c' l : zlen c = zlen c' -> verity_level H c l -> verity_level H c' l -> c = c' \/ collision (verity_message H c) (verity_message H c').
  Proof using Hsize Hpos.
    intros Lc (p & bs & q & P & Ec & F & Q & El & M) (p' & bs' & q' & P' & Ec' & F' & Q' & El' & M').
    assert (p = p'). { rewrite (mod_pad (zlen c) p), (mod_pad (zlen c') p'); try congruence; eapply padded_mod; eauto; lia. }
    subst p'. assert (Lb : zlen bs = zlen bs').
    { apply (f_equal zlen) in Ec, Ec'. rewrite zlen_app, concat_block_len in Ec, Ec' by assumption. lia. }
    rewrite El in El'. apply app_take_eq in El' as [El' _]; [|now rewrite !hashes_len, Lb].
    apply (hashes_inj (verity_message H c) (verity_message H c')) in El' as [->|C]; [|now right| | | |assumption].
    - left. rewrite <- Ec' in Ec. apply app_take_eq in Ec; [tauto | assumption].
    - intros a b Eab. apply app_take_eq in Eab; [tauto | reflexivity].
    - intros b Hb. apply vmsg_block with (p := p) (blocks := bs); assumption.
    - intros b Hb. apply vmsg_block with (p := p) (blocks := bs'); assumption.
  Qed.

  Lemma verity_root_inj c d : verity_root H c d -> forall c', verity_root H c' d -> zlen c = zlen c' -> c = c' \/ collision (verity_message H c) (verity_message H c').
  Proof using Hsize Hpos.
    induction 1 as [c l L Z|c l d L Z R IH]; intros c' R' Lc; inversion R' as [c2 l2 L2 Z2 E2|c2 l2 d2 L2 Z2 R2]; subst;
      pose proof (verity_level_len _ _ _ _ Lc L L2) as Ll; try lia.
    - match goal with X : H _ = H _ |- _ => symmetry in X; apply (hash_inj (verity_message H c) (verity_message H c')) in X as [E2|C];
        [|now right|eapply vmsg_top; eassumption|eapply vmsg_top; eassumption] end. injection E2 as ->.
      eapply verity_level_inj; eassumption.
    - destruct (IH l2 R2 Ll) as [->|C]; [eapply verity_level_inj; eassumption|].
      right. eapply collision_weaken; [| |exact C]; intros m Hm; eapply vmsg_up; eassumption.
  Qed.

  Theorem verity_digest_inj s s' d : zlen (concat s) < 18446744073709551616 -> zlen (concat s') < 18446744073709551616 ->
    verity_digest H s d -> verity_digest H s' d -> concat s = concat s' \/ collision (verity_message H (concat s)) (verity_message H (concat s')).
  Proof using Hsize Hpos.
    intros B B' (r & R & ->) (r' & R' & E).
    assert (Lr : zlen r = size /\ zlen r' = size).
    { split; [clear - R Hsize; induction R; auto | clear - R' Hsize; induction R'; auto]. }
    apply app_take_eq in E as [<- E]; [|lia]. unfold le64 in E. apply le_enc_inj_small in E.
    - eapply verity_root_inj; eassumption.
    - pose proof (zlen_nonneg (concat s)). cbn [Z.of_nat]. lia.
    - pose proof (zlen_nonneg (concat s')). cbn [Z.of_nat]. lia.
  Qed.
End Hash.

Lemma content_digest_fun E k s d d' : hash_sizes_ok E -> content_digest E k s d -> content_digest E k s d' -> d = d'.
Proof.
  intro HS. destruct k; cbn [content_digest].
  - apply chunked_digest_fun.
  - apply chunked_digest_fun.
  - intros [_ A] [_ B]. eapply verity_digest_fun; [|exact A|exact B]. intro m. apply HS.
Qed.
