(** DER is the shortest encoding *)
From Coq Require Import Lia.
From Verif.Model Require Import Bytes Env Ber Asn1.
From Verif.Spec Require Import Ber Asn1 Asn1Value Pkcs7.
From Verif.Proofs Require Import BytesFacts BerFacts Asn1Codec Asn1Header Asn1Value DerFacts.

Lemma gval_upper l : Forall (fun g => 0 <= g < 128) l -> 0 <= gval 0 l < 128 ^ zlen l.
Proof.
  induction l as [|g l IH] using rev_ind; intros F; [cbn; lia|]. apply Forall_app in F as [F1 F2]. inversion F2; subst. rewrite gval_snoc, zlen_app. specialize (IH F1).
  change (zlen [g]) with 1. rewrite Z.pow_add_r by (try apply zlen_nonneg; lia). change (128 ^ 1) with 128. lia.
Qed.
Lemma gval_lower l : nlz l -> l <> [] -> Forall (fun g => 0 <= g < 128) l -> 128 ^ (zlen l - 1) <= gval 0 l.
Proof.
  induction l as [|g l IH] using rev_ind; intros HZ HN F; [congruence|]. apply Forall_app in F as [F1 F2]. inversion F2; subst. rewrite gval_snoc, zlen_app.
  change (zlen [g]) with 1. destruct l as [|x l]; [cbn in *; lia|]. specialize (IH (nlz_prefix _ _ HZ) ltac:(discriminate) F1).
  assert (1 <= zlen (x :: l)) by (rewrite zlen_cons; pose proof (zlen_nonneg l); lia).
  replace (zlen (x :: l) + 1 - 1) with ((zlen (x :: l) - 1) + 1) by lia. rewrite Z.pow_add_r by lia. change (128 ^ 1) with 128. lia.
Qed.
Lemma zlen_map {A B} (f : A -> B) l : zlen (map f l) = zlen l.
Proof. unfold zlen. rewrite map_length. reflexivity. Qed.
Lemma base128_min a b n : base128_shortest a n -> base128_octets b n -> zlen a <= zlen b.
Proof.
  intros ((hi & lo & Fh & Fl & -> & En) & Ha) (hi' & lo' & Fh' & Fl' & -> & En').
  change (groups_val (hi ++ [lo])) with (gval 0 (hi ++ [lo])) in En. change (groups_val (hi' ++ [lo'])) with (gval 0 (hi' ++ [lo'])) in En'.
  rewrite !zlen_app, !zlen_map. change (zlen [z2b lo]) with 1. change (zlen [z2b lo']) with 1.
  destruct hi as [|g hi]; [change (zlen ([] : list Z)) with 0; pose proof (zlen_nonneg hi'); lia|].
  assert (HZ : nlz ((g :: hi) ++ [lo])). { cbn. intros ->. apply (Ha (map (fun g => z2b (g + 128)) hi ++ [z2b lo])). reflexivity. }
  pose proof (gval_lower _ HZ ltac:(discriminate) ltac:(apply Forall_app; split; [exact Fh|constructor; [exact Fl|constructor]])) as L.
  pose proof (gval_upper (hi' ++ [lo']) ltac:(apply Forall_app; split; [exact Fh'|constructor; [exact Fl'|constructor]])) as U.
  rewrite zlen_app in L, U. change (zlen [lo]) with 1 in L. change (zlen [lo']) with 1 in U.
  destruct (Z_le_gt_dec (zlen (g :: hi)) (zlen hi')) as [|G]; [lia|]. exfalso.
  assert (128 ^ (zlen hi' + 1) <= 128 ^ (zlen (g :: hi) + 1 - 1)) by (apply Z.pow_le_mono_r; lia). lia.
Qed.
Lemma numbers_min l : forall a b, numbers_shortest l a -> numbers_octets l b -> zlen a <= zlen b.
Proof.
  induction l as [|n l IH]; intros a b Ha Hb; inversion Ha; inversion Hb; subst; [lia|]. rewrite !zlen_app.
  pose proof (base128_min b0 b1 n ltac:(assumption) ltac:(assumption)). pose proof (IH bs bs0 ltac:(assumption) ltac:(assumption)). lia.
Qed.
Lemma oid_min o a b : oid_der o a -> oid_octets o b -> zlen a <= zlen b.
Proof.
  intros (x & y & r & -> & _ & _ & _ & H1) (x' & y' & r' & E & _ & _ & _ & H2). assert (x' = x /\ y' = y /\ r' = r) as (-> & -> & ->) by (repeat split; congruence).
  eapply numbers_min; eassumption.
Qed.
Lemma identifier_min c t k a b : identifier_shortest c t k a -> identifier_octets c t k b -> zlen a <= zlen b.
Proof.
  intros ((Hc & Ha) & Hsa) (_ & Hb). set (v := c * 64 + (if k then 32 else 0)) in *.
  assert (Hv : 0 <= v /\ v + 31 < 256 /\ v mod 32 = 0). { unfold v. destruct k; split; try lia; split; try lia; [replace (c * 64 + 32) with ((2 * c + 1) * 32) by lia|replace (c * 64 + 0) with (2 * c * 32) by lia]; apply Z.mod_mul; lia. }
  destruct Hv as (Hv1 & Hv2 & Hv3). clearbody v.
  assert (L : b2z (z2b (v + 31)) mod 32 = 31). { rewrite b2z_z2b, (Z.mod_small (v + 31) 256) by lia. rewrite <- Zplus_mod_idemp_l. rewrite Hv3. reflexivity. }
  destruct Ha as [(Ht & ->)|(x & Hx & Hl & Hm & ->)].
  - destruct Hb as [(_ & ->)|(y & _ & _ & _ & ->)]; rewrite !zlen_cons; [lia|]. change (zlen ([] : bytes)) with 0. pose proof (zlen_nonneg y). lia.
  - destruct (Hsa _ _ eq_refl L) as (H31 & S1). destruct Hb as [(Ht & _)|(y & Hy & _ & _ & ->)]; [lia|]. rewrite !zlen_cons. pose proof (base128_min _ _ _ S1 Hy). lia.
Qed.
Lemma length_min n m a b : der_length n a -> definite_length m b -> n <= m -> zlen a <= zlen b.
Proof.
  intros Ha Hb Hnm. destruct Hb as [(Hm & ->)|(d & Hd & -> & -> & Hlt)].
  - destruct Ha as [k Hk|c d Hv Hc Hl]; [rewrite !zlen_cons; lia|lia].
  - destruct Ha as [k Hk|c e Hv Hc Hl]; [rewrite !zlen_cons; change (zlen ([] : bytes)) with 0; lia|].
    change (zlen (z2b (128 + zlen (c :: e)) :: c :: e)) with (zlen (z2b 0 :: c :: e)). rewrite !(zlen_cons (z2b _)).
    destruct (Z_le_gt_dec (zlen (c :: e)) (zlen d)) as [|G]; [lia|]. exfalso. pose proof (be_val_range d). rewrite be_val_cons in Hnm. rewrite zlen_cons in G.
    pose proof (be_val_range e) as Re. assert (1 <= b2z c). { pose proof (b2z_range c). destruct (Z.eq_dec (b2z c) 0) as [E|]; [|lia]. exfalso. apply Hc. destruct c; try reflexivity; discriminate E. }
    assert (256 ^ zlen d <= 256 ^ zlen e) by (apply Z.pow_le_mono_r; lia). nia.
Qed.
Lemma identifier_shortest_exists c t k : 0 <= c < 4 -> 0 <= t <= max_int32 -> exists i, identifier_shortest c t k i.
Proof.
  intros Hc Ht. destruct (append_header_shortest (hd c t 0 k)) as (i & l & _ & H & _); [unfold valid_header, hd; cbn; lia|]. exists i. exact H.
Qed.
Lemma identifier_tag c t k i : identifier_octets c t k i -> 0 <= c < 4 /\ 0 <= t <= max_int32.
Proof.
  intros (Hc & [(Ht & _)|(b & Hb & _ & Hm & _)]); split; try exact Hc.
  - unfold max_int32. lia.
  - apply base128_octets_nonneg in Hb. lia.
Qed.
(** An element with shorter contents of the same kind *)
Lemma element_min c t k b f b' : element c t k b f -> zlen b' <= zlen b ->
  exists f', der_element c t k b' f' /\ zlen f' <= zlen f /\ zlen f' - zlen b' <= zlen f - zlen b.
Proof.
  intros (i & l & -> & Hi & Hl) Hb. destruct (identifier_tag _ _ _ _ Hi) as (Hc & Ht).
  assert (HL : zlen b < 2 ^ 31). { destruct Hl as [(H & _)|(d & _ & _ & _ & H)]; [change (2 ^ 31) with 2147483648; lia|exact H]. }
  pose proof (append_der_element c t k b' Hc Ht ltac:(lia)) as (i' & l' & E & Hi' & Hl'). exists (i' ++ l' ++ b'). split; [exists i', l'; auto|].
  pose proof (identifier_min _ _ _ _ _ Hi' Hi). pose proof (length_min _ _ _ _ Hl' Hl Hb). rewrite !zlen_app. lia.
Qed.
