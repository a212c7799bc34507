(** DER elements: uniqueness, decoding, encoding *)
From Coq Require Import Lia.
From Verif.Model Require Import Bytes Env Ber Asn1.
From Verif.Spec Require Import Ber Asn1 Asn1Value Pkcs7.
From Verif.Proofs Require Import BytesFacts BerFacts Asn1Codec Asn1Header Asn1Value.

Lemma gval_snoc l g : gval 0 (l ++ [g]) = 128 * gval 0 l + g.
Proof. rewrite gval_app. reflexivity. Qed.
Definition nlz (l : list Z) : Prop := match l with [] => True | g :: _ => g <> 0 end.
Lemma nlz_prefix l g : nlz (l ++ [g]) -> nlz l.
Proof. destruct l; cbn; auto. Qed.
Lemma gval_pos l : l <> [] -> nlz l -> Forall (fun g => 0 <= g < 128) l -> 0 < gval 0 l.
Proof.
  induction l as [|g l IH] using rev_ind; intros HN HZ HF; [congruence|]. apply Forall_app in HF as [HF1 HF2]. inversion HF2; subst. rewrite gval_snoc.
  destruct l as [|x l]; [cbn in *; lia|]. assert (0 < gval 0 (x :: l)) by (apply IH; [discriminate|exact (nlz_prefix _ _ HZ)|exact HF1]). lia.
Qed.
Lemma gval_inj a : forall b, nlz a -> nlz b -> Forall (fun g => 0 <= g < 128) a -> Forall (fun g => 0 <= g < 128) b -> gval 0 a = gval 0 b -> a = b.
Proof.
  induction a as [|g a IH] using rev_ind; intros b Ha Hb Fa Fb E.
  - destruct b as [|x b]; [reflexivity|]. pose proof (gval_pos (x :: b) ltac:(discriminate) Hb Fb). change (gval 0 []) with 0 in E. lia.
  - destruct b as [|h b] using rev_ind.
    + pose proof (gval_pos (a ++ [g]) ltac:(destruct a; discriminate) Ha Fa). change (gval 0 []) with 0 in E. lia.
    + clear IHb. rewrite !gval_snoc in E. apply Forall_app in Fa as [Fa Fg]. apply Forall_app in Fb as [Fb Fh]. inversion Fg; inversion Fh; subst.
      assert (g = h /\ gval 0 a = gval 0 b) as [-> E2] by lia. f_equal. apply IH; eauto using nlz_prefix.
Qed.
Lemma z2b_inj x y : 0 <= x < 256 -> 0 <= y < 256 -> z2b x = z2b y -> x = y.
Proof. intros Hx Hy E. apply (f_equal b2z) in E. rewrite !b2z_z2b, !Z.mod_small in E by lia. exact E. Qed.
Lemma base128_shortest_unique n a b : base128_shortest a n -> base128_shortest b n -> a = b.
Proof.
  intros ((hi & lo & Fh & Fl & -> & En) & Ha) ((hi' & lo' & Fh' & Fl' & -> & En') & Hb).
  assert (N : forall h (l : bytes), Forall (fun g => 0 <= g < 128) h -> (forall t, map (fun g => z2b (g + 128)) h ++ l <> x80 :: t) -> nlz h).
  { intros [|g h] l F H; [exact I|]. cbn. intros ->. apply (H (map (fun g => z2b (g + 128)) h ++ l)). reflexivity. }
  apply N in Ha; [|exact Fh]. apply N in Hb; [|exact Fh'].
  change (groups_val (hi ++ [lo])) with (gval 0 (hi ++ [lo])) in En. change (groups_val (hi' ++ [lo'])) with (gval 0 (hi' ++ [lo'])) in En'. rewrite gval_snoc in En, En'.
  assert (lo = lo' /\ gval 0 hi = gval 0 hi') as [-> E2] by lia. rewrite (gval_inj hi hi' Ha Hb Fh Fh' E2). reflexivity.
Qed.
Lemma numbers_shortest_unique l : forall a b, numbers_shortest l a -> numbers_shortest l b -> a = b.
Proof.
  induction l as [|n l IH]; intros a b Ha Hb; inversion Ha; inversion Hb; subst; [reflexivity|].
  f_equal; [eapply base128_shortest_unique; eassumption|]. apply IH; assumption.
Qed.
Lemma oid_der_unique o a b : oid_der o a -> oid_der o b -> a = b.
Proof.
  intros (x & y & r & -> & _ & _ & _ & H1) (x' & y' & r' & E & _ & _ & _ & H2). assert (x' = x /\ y' = y /\ r' = r) as (-> & -> & ->) by (repeat split; congruence).
  eapply numbers_shortest_unique; eassumption.
Qed.
Lemma identifier_shortest_unique c t k a b : identifier_shortest c t k a -> identifier_shortest c t k b -> a = b.
Proof.
  intros ((Hc & Ha) & Hsa) ((_ & Hb) & Hsb). set (v := c * 64 + (if k then 32 else 0)) in *.
  assert (Hv : 0 <= v /\ v + 31 < 256 /\ v mod 32 = 0). { unfold v. destruct k; split; try lia; split; try lia; [replace (c * 64 + 32) with ((2 * c + 1) * 32) by lia|replace (c * 64 + 0) with (2 * c * 32) by lia]; apply Z.mod_mul; lia. }
  destruct Hv as (Hv1 & Hv2 & Hv3). clearbody v.
  assert (L : b2z (z2b (v + 31)) mod 32 = 31). { rewrite b2z_z2b, (Z.mod_small (v + 31) 256) by lia. rewrite <- Zplus_mod_idemp_l. rewrite Hv3. reflexivity. }
  destruct Ha as [(Ht & ->)|(x & Hx & Hl & Hm & ->)], Hb as [(Ht' & ->)|(y & Hy & Hl' & Hm' & ->)].
  - reflexivity.
  - destruct (Hsb _ _ eq_refl L). lia.
  - destruct (Hsa _ _ eq_refl L). lia.
  - destruct (Hsa _ _ eq_refl L) as (_ & S1). destruct (Hsb _ _ eq_refl L) as (_ & S2). f_equal. eapply base128_shortest_unique; eassumption.
Qed.
Lemma der_element_unique c t k b x y : der_element c t k b x -> der_element c t k b y -> x = y.
Proof.
  intros (i & l & -> & H1 & H2) (i' & l' & -> & H3 & H4). rewrite (identifier_shortest_unique _ _ _ _ _ H1 H3), (der_length_unique _ _ _ H2 H4). reflexivity.
Qed.
Lemma der_definite n l : der_length n l -> n < 2 ^ 31 -> definite_length n l.
Proof.
  intros H Hn. apply der_length_ber in H; [|exact Hn]. destruct H as [n H|d Hd Hv]; [left; auto|]. right. exists d. repeat split; try assumption; lia.
Qed.
Lemma der_element_element c t k b f : der_element c t k b f -> zlen b < 2 ^ 31 -> element c t k b f.
Proof. intros (i & l & -> & (H1 & _) & H2) HL. exists i, l. split; [reflexivity|]. split; [exact H1|]. apply der_definite; assumption. Qed.
Lemma append_der_element c t k b : 0 <= c < 4 -> 0 <= t <= max_int32 -> zlen b < 2 ^ 31 -> der_element c t k b (appendTagAndLength (hd c t (zlen b) k) ++ b).
Proof.
  intros Hc Ht Hb. pose proof (zlen_nonneg b). destruct (append_header_shortest (hd c t (zlen b) k)) as (i & l & E & H1 & H2); [unfold valid_header, hd; cbn; lia|].
  exists i, l. rewrite E, <- app_assoc. auto.
Qed.
Lemma der_element_append c t k b f : der_element c t k b f -> 0 <= t <= max_int32 -> zlen b < 2 ^ 31 -> f = appendTagAndLength (hd c t (zlen b) k) ++ b.
Proof.
  intros H Ht Hb. eapply der_element_unique; [exact H|]. apply append_der_element; [|exact Ht|exact Hb]. destruct H as (_ & _ & _ & ((Hc & _) & _) & _). exact Hc.
Qed.
Lemma der_element_size c t k b f : der_element c t k b f -> zlen b + 2 <= zlen f.
Proof.
  intros (i & l & -> & ((_ & Hi) & _) & Hl). rewrite !zlen_app.
  assert (1 <= zlen i) by (destruct Hi as [(_ & ->)|(x & _ & _ & _ & ->)]; rewrite zlen_cons; [change (zlen ([] : bytes)) with 0; lia|pose proof (zlen_nonneg x); lia]).
  assert (1 <= zlen l) by (destruct Hl; rewrite zlen_cons; [change (zlen ([] : bytes)) with 0; lia|]; match goal with |- 1 <= 1 + zlen ?d => pose proof (zlen_nonneg d); lia end). lia.
Qed.
(** X.690: an element's contents and kind can be read off it. *)
Lemma element_unique c t k b c' t' k' b' f : element c t k b f -> element c' t' k' b' f -> c = c' /\ t = t' /\ k = k' /\ b = b'.
Proof.
  intros H1 H2. pose proof (element_parse _ _ _ _ _ [] H1) as E1. pose proof (element_parse _ _ _ _ _ [] H2) as E2. rewrite E1 in E2.
  unfold hd in E2. injection E2 as E3 E4 E5 E6 E7. rewrite !app_nil_r in E7. auto.
Qed.
Lemma encodeOid_der o : valid_oid o -> exists b, encodeOid o = Some b /\ oid_der o b.
Proof.
  intros H. destruct (encodeOid_octets o H) as (bs & E & a & b & r & -> & Ha & Hb & Hab & F). exists (concat bs). split; [exact E|]. exists a, b, r. repeat split; try assumption; try lia.
  clear -F. induction F as [|n c l bs (H1 & _) F IH]; cbn [concat]; constructor; assumption.
Qed.
Lemma oid_der_encode o b : valid_oid o -> oid_der o b -> encodeOid o = Some b.
Proof. intros H HD. destruct (encodeOid_der o H) as (b' & E & HD'). rewrite (oid_der_unique o b b' HD HD'). exact E. Qed.
