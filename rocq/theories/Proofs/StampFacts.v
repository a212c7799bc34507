(** Lemmas about Model/SourceStamp.v *)
From Coq Require Import String.
From Coq Require Import Lia Permutation Sorted.
From Verif.Model Require Import Bytes ApiLevel Env Utils SigBlock Result Signer SchemeV3 SourceStamp.
From Verif.Spec Require Import Encoding Algorithms Nondet Entries Signer SignerV3 Stamp.
From Verif.Proofs Require Import BytesFacts UtilsFacts SignerFacts LineageFacts.

(** the signed message *)
Lemma encodePair_enc p : encodePair p = enc_digest p.
Proof.
  unfold encodePair, enc_digest, lp, le32. rewrite !zlen_app, !le_enc_zlen. f_equal. f_equal. lia.
Qed.
Lemma flat_map_ext' {A B} (f g : A -> list B) l : (forall x, f x = g x) -> flat_map f l = flat_map g l.
Proof. intro H. induction l as [|x l IH]; cbn; [reflexivity|]. now rewrite H, IH. Qed.

Lemma less_weak l : strict_weak (fun a b : Z * bytes => fst a <? fst b) l.
Proof.
  split; [intros; apply Z.ltb_irrefl|]. split; intros x y z _ _ _.
  - rewrite !Z.ltb_lt. lia.
  - rewrite !Z.ltb_ge. lia.
Qed.
Lemma message_spec S m l : sched_ok S -> Permutation l m -> stamp_message m (getSignatureSchemeDigest S l).
Proof.
  intros HS P. unfold getSignatureSchemeDigest. exists (srt S _ (fun a b => fst a <? fst b) l).
  split; [etransitivity; [apply (srt_perm S HS)|exact P]|]. split.
  - pose proof (srt_sorted S HS _ _ l (less_weak l)) as H. revert H. generalize (srt S _ (fun a b : Z * bytes => fst a <? fst b) l).
    induction 1 as [|a t _ IH F]; constructor; [assumption|]. eapply Forall_impl; [|exact F]. intros b. cbn. rewrite Z.ltb_ge. auto.
  - apply flat_map_ext'. apply encodePair_enc.
Qed.
Lemma sorted_unique (l l' : list (Z * bytes)) : NoDup (map fst l) -> Permutation l l' ->
  StronglySorted (fun a b => fst a <= fst b) l -> StronglySorted (fun a b => fst a <= fst b) l' -> l = l'.
Proof.
  revert l'. induction l as [|a l IH]; intros l' N P S S'.
  - apply Permutation_nil in P. now subst.
  - destruct l' as [|b l']; [symmetry in P; apply Permutation_nil in P; discriminate|].
    inversion S as [|? ? S1 F1]; subst. inversion S' as [|? ? S2 F2]; subst. cbn in N. inversion N as [|? ? Na Nl]; subst.
    assert (a = b).
    { assert (Ia : In a (b :: l')) by (eapply Permutation_in; [exact P|now left]). assert (Ib : In b (a :: l)) by (eapply Permutation_in; [symmetry; exact P|now left]).
      destruct Ia as [->|Ia]; [reflexivity|]. destruct Ib as [->|Ib]; [reflexivity|]. rewrite Forall_forall in F1, F2. apply F1 in Ib as L1. apply F2 in Ia as L2.
      exfalso. apply Na. apply in_map_iff. exists b. split; [|assumption]. destruct a, b; cbn in *; lia. }
    subst b. f_equal. apply IH; try assumption. eapply Permutation_cons_inv; exact P.
Qed.
Lemma message_fun m m' msg msg' : NoDup (map fst m) -> Permutation m m' -> stamp_message m msg -> stamp_message m' msg' -> msg = msg'.
Proof.
  intros N P (l & Pl & Sl & ->) (l' & Pl' & Sl' & ->). f_equal. apply sorted_unique; try assumption.
  - eapply Permutation_NoDup; [|exact N]. apply Permutation_map. now symmetry.
  - rewrite Pl, P. now symmetry.
Qed.
Lemma cons_inv {A} (x y : A) l l' : x :: l = y :: l' -> x = y /\ l = l'.
Proof. intro H. now inversion H. Qed.
Lemma digests_inj l l' : Forall (fun p => is_int32 (fst p) /\ fits (enc_rec (fst p, lp (snd p)))) l -> Forall (fun p => is_int32 (fst p) /\ fits (enc_rec (fst p, lp (snd p)))) l' ->
  flat_map enc_digest l = flat_map enc_digest l' -> l = l'.
Proof.
  assert (W : forall l, flat_map enc_digest l = lps (map (fun p => enc_rec (fst p, lp (snd p))) l)).
  { clear. induction l as [|p l IH]; cbn [flat_map map lps]; [reflexivity|]. rewrite IH. reflexivity. }
  intros F F'. rewrite !W. intro H. apply lps_inj in H.
  - revert l' F' H. induction F as [|p l [R Fi] F IH]; intros [|q l'] F' H; try discriminate; [reflexivity|].
    inversion F' as [|? ? [R' Fi'] F'']; subst. cbn [map] in H. apply cons_inv in H as [H1 H2]. f_equal; [|now apply IH].
    unfold enc_rec in H1. cbn [fst snd] in H1. apply app_take_eq in H1 as [A B]; [|unfold le32; now rewrite !le_enc_zlen].
    destruct p as [a d], q as [a' d']. cbn [fst snd] in *. f_equal.
    + assert (X : wrap32 a = wrap32 a'). { assert (read_i32 (le_enc 4 a ++ []) = read_i32 (le_enc 4 a' ++ [])) by (unfold le32 in A; now rewrite A). rewrite !read_i32_enc in H. congruence. }
      rewrite !wrap32_id in X by (unfold min_int32, max_int32, is_int32 in *; lia). exact X.
    + unfold lp in B. apply app_take_eq in B as [_ B]; [assumption|]. unfold le32. now rewrite !le_enc_zlen.
  - clear - F. induction F as [|? ? [_ ?] ? ?]; constructor; assumption.
  - clear - F'. induction F' as [|? ? [_ ?] ? ?]; constructor; assumption.
Qed.

(** reading the signatures *)
Lemma last_entry_snoc rs a f : last_entry (rs ++ [(a, f)]) a f.
Proof. exists rs, []. split; [reflexivity | intros []]. Qed.
Lemma last_entry_snoc_other rs a b f g : a <> b -> (last_entry (rs ++ [(b, g)]) a f <-> last_entry rs a f).
Proof.
  intro N. split.
  - intros (p & q & Q & Nq). destruct q as [|x q] using rev_ind.
    + apply app_inj_tail in Q as [_ Q]. congruence.
    + clear IHq. rewrite app_comm_cons, app_assoc in Q. apply app_inj_tail in Q as [Q _]. subst rs. exists p, q. split; [reflexivity|].
      intro I. apply Nq. rewrite map_app, in_app_iff. auto.
  - intros (p & q & -> & Nq). exists p, (q ++ [(b, g)]). rewrite <- app_assoc. split; [reflexivity|]. rewrite map_app, in_app_iff. cbn. intros [I|[I|[]]]; auto.
Qed.
Lemma last_entry_inj rs (a : Z) (f g : bytes) : last_entry rs a f -> last_entry rs a g -> f = g.
Proof.
  revert f g. induction rs as [|[b h] rs IH] using rev_ind; intros f g A B.
  - destruct A as ([|] & ? & A & _); discriminate.
  - destruct (Z.eq_dec a b) as [->|N].
    + assert (W : forall f, last_entry (rs ++ [(b, h)]) b f -> f = h).
      { intros f0 (p & q & Q & Nq). destruct q as [|x q] using rev_ind; [apply app_inj_tail in Q as [_ Q]; congruence|].
        exfalso. rewrite app_comm_cons, app_assoc in Q. apply app_inj_tail in Q as [_ Q]. subst x. apply Nq. rewrite map_app, in_app_iff. right. now left. }
      rewrite (W _ A), (W _ B). reflexivity.
    + apply last_entry_snoc_other in A, B; try assumption. eauto.
Qed.
Lemma holds_value_inj f v w : holds_value f v -> holds_value f w -> v = w.
Proof. intros (j & -> & F) (j' & Q & F'). pose proof (getLP_enc v j F) as A. rewrite Q, getLP_enc in A by assumption. congruence. Qed.
Lemma offered_inj rs a s s' : offered rs a s -> offered rs a s' -> s = s'.
Proof. intros (_ & f & L & H) (_ & g & L' & H'). assert (f = g) by (eapply last_entry_inj; eassumption). subst g. eapply holds_value_inj; eassumption. Qed.

Definition recok (r : Z * bytes) : Prop := is_int32 (fst r) /\ fits (enc_rec r) /\ (supported (fst r) -> exists s, holds_value (snd r) s).
Lemma offered_snoc rs a f x s : recok (a, f) ->
  (offered (rs ++ [(a, f)]) x s <-> (supported a /\ x = a /\ holds_value f s) \/ (x <> a /\ offered rs x s)).
Proof.
  intros R. unfold offered. destruct (Z.eq_dec x a) as [->|N].
  - split.
    + intros (Su & g & L & H). left. split; [assumption|]. split; [reflexivity|]. assert (g = f) by (eapply last_entry_inj; [exact L|apply last_entry_snoc]). now subst g.
    + intros [(Su & _ & H)|(X & _)]; [|congruence]. split; [assumption|]. exists f. split; [apply last_entry_snoc | assumption].
  - split.
    + intros (Su & g & L & H). right. split; [assumption|]. split; [assumption|]. exists g. split; [|assumption]. now apply last_entry_snoc_other in L.
    + intros [(_ & X & _)|(_ & Su & g & L & H)]; [contradiction|]. split; [assumption|]. exists g. split; [|assumption]. now apply last_entry_snoc_other.
Qed.

Lemma enc_rec_read b a r : read_i32 b = Some (a, r) -> b = enc_rec (a, r) /\ is_int32 a.
Proof. intro H. apply read_i32_inv in H as [-> R]. split; [reflexivity|]. exact R. Qed.


(** maps with any values *)
Lemma mget_mset {V} (k k' : Z) (v : V) m : zget k (zset k' v m) = if k =? k' then Some v else zget k m.
Proof.
  induction m as [|[a w] m IH]; cbn; [reflexivity|]. destruct (Z.eqb_spec k' a) as [->|]; cbn.
  - destruct (Z.eqb_spec k a); reflexivity.
  - destruct (Z.eqb_spec k a) as [->|]; [destruct (Z.eqb_spec a k'); [congruence|reflexivity]|assumption].
Qed.
Lemma mset_in_keys {V} (k : Z) (v : V) m x : In x (map fst (zset k v m)) -> x = k \/ In x (map fst m).
Proof.
  induction m as [|[a w] m IH]; cbn; [intros [<-|[]]; auto|].
  destruct (Z.eqb_spec k a) as [->|]; cbn; [tauto|]. intros [<-|I]; [auto|]. apply IH in I. tauto.
Qed.
Lemma mset_nodup_keys {V} (k : Z) (v : V) m : NoDup (map fst m) -> NoDup (map fst (zset k v m)).
Proof.
  induction m as [|[a w] m IH]; cbn; intro N; [repeat constructor; intros []|]. inversion N as [|? ? Na Nm]; subst.
  destruct (Z.eqb_spec k a) as [->|Ne]; cbn; [constructor; assumption|]. constructor; [|auto].
  intro I. apply mset_in_keys in I as [Y|Y]; [congruence | contradiction].
Qed.
Lemma mget_in {V} (k : Z) (v : V) m : zget k m = Some v -> In (k, v) m.
Proof. induction m as [|[a w] m IH]; cbn; [discriminate|]. destruct (Z.eqb_spec k a) as [->|]; [intro H; inversion H; auto | auto]. Qed.
Lemma in_mget {V} (k : Z) (v : V) m : NoDup (map fst m) -> In (k, v) m -> zget k m = Some v.
Proof.
  induction m as [|[a w] m IH]; cbn; [intros _ []|]. intros N [Q|I]; inversion N as [|? ? Na Nm]; subst.
  - inversion Q; subst. now rewrite Z.eqb_refl.
  - destruct (Z.eqb_spec k a) as [->|]; [|auto]. exfalso. apply Na. apply in_map_iff. exists (a, v). auto.
Qed.
Lemma mget_iff {V} (k : Z) (v : V) m : NoDup (map fst m) -> (zget k m = Some v <-> In (k, v) m).
Proof. split; [apply mget_in | now apply in_mget]. Qed.
Lemma mget_none {V} (k : Z) (m : list (Z * V)) : zget k m = None <-> forall v, ~ In (k, v) m.
Proof.
  induction m as [|[a w] m IH]; cbn; [split; auto|]. destruct (Z.eqb_spec k a) as [->|N].
  - split; [discriminate|]. intro H. exfalso. apply (H w). auto.
  - rewrite IH. split; intros H v; specialize (H v); [intros [Q|Q]; [congruence|auto] | tauto].
Qed.

Lemma stampReadSigs_ok items : Forall fits items -> forall done m s m' s',
  Forall recok done -> NoDup (map fst m) -> (forall a x, zget a m = Some x <-> offered done a x) ->
  forall ok, stampReadSigs items ok m s = (Some m', s') ->
  exists rs, ok = true /\ items = map enc_rec rs /\ Forall recok rs /\
    NoDup (map fst m') /\ (forall a x, zget a m' = Some x <-> offered (done ++ rs) a x) /\ (st_errors s' = st_errors s /\ st_cert s' = st_cert s /\ st_time s' = st_time s /\ st_lineage s' = st_lineage s).
Proof.
  induction 1 as [|b items Fb Fi IH]; intros done m s m' s' Fd Nm Hm ok H; cbn [stampReadSigs] in H.
  - destruct ok; [|discriminate]. inversion H; subst. exists []. rewrite app_nil_r. repeat (split; [auto|]). auto.
  - destruct (read_i32 b) as [[a r]|] eqn:R; [|discriminate]. apply enc_rec_read in R as [-> Ra].
    destruct (isSupported a) eqn:Su; cbn [negb] in H.
    + destruct (getLengthPrefixedSlice r) as [[x j]|] eqn:G; [|discriminate]. apply getLP_inv in G as [Er Fx]. apply isSupported_iff in Su.
      assert (Hv : holds_value r x) by (exists j; auto). assert (Rk : recok (a, r)) by (split; [assumption|]; split; [assumption|]; intros _; exists x; assumption).
      destruct (IH (done ++ [(a, r)]) (zset a x m) s m' s') with (ok := ok) as (rs & Ok & -> & Fr & N' & Hm' & Se); try assumption.
      * apply Forall_app; split; [assumption | constructor; [assumption | constructor]].
      * now apply mset_nodup_keys.
      * intros y v. rewrite mget_mset, offered_snoc by assumption. destruct (Z.eqb_spec y a) as [->|N].
        -- split; [intro Q; left; repeat (split; [auto|]); congruence|]. intros [(_ & _ & H')|[X _]]; [|congruence]. f_equal. eapply holds_value_inj; eassumption.
        -- rewrite Hm. split; [auto|]. intros [(_ & X & _)|[_ X]]; [congruence | assumption].
      * exists ((a, r) :: rs). split; [assumption|]. split; [reflexivity|]. split; [now constructor|]. split; [assumption|]. split; [|assumption].
        intros y v. rewrite Hm', <- app_assoc. reflexivity.
    + apply isSupported_false in Su. assert (Rk : recok (a, r)) by (split; [assumption|]; split; [assumption|]; intro X; contradiction).
      destruct (IH (done ++ [(a, r)]) m (stAddWarning s "unsupported signature algo") m' s') with (ok := ok) as (rs & Ok & -> & Fr & N' & Hm' & Se); try assumption.
      * apply Forall_app; split; [assumption | constructor; [assumption | constructor]].
      * intros y v. rewrite offered_snoc by assumption. rewrite Hm. split.
        -- intro O. right. split; [|assumption]. intros ->. apply Su. apply O.
        -- intros [(X & _)|[_ X]]; [contradiction | assumption].
      * exists ((a, r) :: rs). split; [assumption|]. split; [reflexivity|]. split; [now constructor|]. split; [assumption|]. split; [|assumption].
        intros y v. rewrite Hm', <- app_assoc. reflexivity.
Qed.

(** candidates: the best algorithm per level *)
Definition level_of (a m : Z) : Prop := exists k, In (a, k, m) algorithm_table.
Definition cand_ok (done : list (Z * bytes)) (maxSdk : Z) (cand : list (Z * (Z * bytes))) : Prop :=
  NoDup (map fst cand) /\
  (forall m a s, zget m cand = Some (a, s) -> In (a, s) done /\ level_of a m /\ m <= maxSdk) /\
  (forall a s k m, In (a, s) done -> In (a, k, m) algorithm_table -> m <= maxSdk ->
     exists a' s' k', zget m cand = Some (a', s') /\ In (a', k', m) algorithm_table /\ strength k <= strength k').
Definition min_ok (done : list (Z * bytes)) (maxSdk mp : Z) : Prop :=
  (forall a s m, In (a, s) done -> level_of a m -> m <= maxSdk -> mp <= m) /\
  (mp = max_int32 \/ exists a s, In (a, s) done /\ level_of a mp /\ mp <= maxSdk).

Lemma level_fun a k m k' m' : In (a, k, m) algorithm_table -> In (a, k', m') algorithm_table -> k = k' /\ m = m'.
Proof.
  intros A B. split.
  - eapply has_kind_fun; [exists m; exact A | exists m'; exact B].
  - apply getMinSdkJca_row in A, B. congruence.
Qed.

Lemma stampCandidates_ok sigs : forall done maxSdk cand mp cand' mp',
  Forall (fun x => supported (fst x)) sigs -> cand_ok done maxSdk cand -> min_ok done maxSdk mp ->
  stampCandidates sigs maxSdk cand mp = Ret (cand', mp') ->
  cand_ok (done ++ sigs) maxSdk cand' /\ min_ok (done ++ sigs) maxSdk mp'.
Proof.
  induction sigs as [|[a s] sigs IH]; intros done maxSdk cand mp cand' mp' F C M H; cbn [stampCandidates] in H.
  - inversion H; subst. rewrite app_nil_r. auto.
  - inversion F as [|? ? (k & m & T) F']; subst. cbn [fst] in T. rewrite (getMinSdkJca_row _ _ _ T) in H.
    replace (done ++ (a, s) :: sigs) with ((done ++ [(a, s)]) ++ sigs) by (rewrite <- app_assoc; reflexivity).
    destruct C as (N & C1 & C2). destruct M as (M1 & M2).
    destruct (Z.ltb_spec maxSdk m) as [L|L].
    + eapply IH; [assumption| | |exact H].
      * split; [assumption|]. split.
        -- intros m' a' s' Z. apply C1 in Z as (I & X). split; [apply in_or_app; auto | assumption].
        -- intros a' s' k' m' I T' L'. apply in_app_or in I as [I|[I|[]]]; [eapply C2; eassumption|]. inversion I; subst.
           destruct (level_fun _ _ _ _ _ T T') as [_ ->]. lia.
      * split.
        -- intros a' s' m' I (k' & T') L'. apply in_app_or in I as [I|[I|[]]]; [eapply M1; [eassumption|exists k'; eassumption|assumption]|]. inversion I; subst.
           destruct (level_fun _ _ _ _ _ T T') as [_ ->]. lia.
        -- destruct M2 as [M2|(a' & s' & I & X)]; [auto|]. right. exists a', s'. split; [apply in_or_app; auto | assumption].
    + apply obind_ret in H as (better & B & H). eapply IH; [assumption| | |exact H].
      * split; [destruct better; [now apply mset_nodup_keys | assumption]|].
        assert (Bt : better = true -> forall a0 s0 k0, zget m cand = Some (a0, s0) -> In (a0, k0, m) algorithm_table -> strength k0 < strength k).
        { intros -> a0 s0 k0 Z T0. rewrite Z in B. destruct (compareAlgos_strength a a0 k k0) as (d & Cd & Gt & _); [exists m; assumption | exists m; assumption|].
          rewrite Cd in B. cbn [obind] in B. assert (Q : (0 <? d) = true) by congruence. apply Z.ltb_lt in Q. lia. }
        assert (Bf : better = false -> exists a0 s0 k0, zget m cand = Some (a0, s0) /\ In (a0, k0, m) algorithm_table /\ strength k <= strength k0).
        { intros ->. destruct (zget m cand) as [[a0 s0]|] eqn:Z; [|inversion B]. exists a0, s0. destruct (C1 _ _ _ Z) as (_ & (k0 & T0) & _). exists k0. split; [reflexivity|]. split; [assumption|].
          destruct (compareAlgos_strength a a0 k k0) as (d & Cd & Gt & _); [exists m; assumption | exists m; assumption|]. rewrite Cd in B. cbn [obind] in B. assert (Q : (0 <? d) = false) by congruence. apply Z.ltb_ge in Q. lia. }
        split.
        -- intros m' a' s' Z. destruct better.
           ++ rewrite mget_mset in Z. destruct (Z.eqb_spec m' m) as [->|].
              ** inversion Z; subst. split; [apply in_or_app; right; now left|]. split; [exists k; assumption | assumption].
              ** apply C1 in Z as (I & X). split; [apply in_or_app; auto | assumption].
           ++ apply C1 in Z as (I & X). split; [apply in_or_app; auto | assumption].
        -- intros a' s' k' m' I T' L'. destruct better.
           ++ rewrite mget_mset. destruct (Z.eqb_spec m' m) as [->|].
              ** exists a, s, k. split; [reflexivity|]. split; [assumption|]. apply in_app_or in I as [I|[I|[]]].
                 --- destruct (C2 _ _ _ _ I T' L') as (a0 & s0 & k0 & Z & T0 & St). specialize (Bt eq_refl _ _ _ Z T0). lia.
                 --- inversion I; subst. destruct (level_fun _ _ _ _ _ T T') as [-> _]. lia.
              ** apply in_app_or in I as [I|[I|[]]]; [eapply C2; eassumption|]. inversion I; subst. destruct (level_fun _ _ _ _ _ T T') as [_ ->]. congruence.
           ++ apply in_app_or in I as [I|[I|[]]]; [eapply C2; eassumption|]. inversion I; subst. destruct (level_fun _ _ _ _ _ T T') as [-> ->]. now apply Bf.
      * split.
        -- intros a' s' m' I (k' & T') L'. apply in_app_or in I as [I|[I|[]]].
           ++ assert (mp <= m') by (eapply M1; [eassumption|exists k'; eassumption|assumption]). destruct (Z.ltb_spec m mp); lia.
           ++ inversion I; subst. destruct (level_fun _ _ _ _ _ T T') as [_ ->]. destruct (Z.ltb_spec m' mp); lia.
        -- destruct (Z.ltb_spec m mp) as [Q|Q].
           ++ right. exists a, s. split; [apply in_or_app; right; now left|]. split; [exists k; assumption | assumption].
           ++ destruct M2 as [M2|(a' & s' & I & X)]; [auto|]. right. exists a', s'. split; [apply in_or_app; auto | assumption].
Qed.

Lemma fold_zset_get (l : list (Z * (Z * bytes))) : forall m0,
  (forall x y, In x l -> In y l -> fst (snd x) = fst (snd y) -> snd (snd x) = snd (snd y)) ->
  (forall x v, In x l -> zget (fst (snd x)) m0 = Some v -> v = snd (snd x)) ->
  forall a s, zget a (fold_left (fun m kv => zset (fst (snd kv)) (snd (snd kv)) m) l m0) = Some s <->
    zget a m0 = Some s \/ exists k, In (k, (a, s)) l.
Proof.
  induction l as [|[k [b t]] l IH]; intros m0 U U0 a s; cbn [fold_left fst snd].
  - split; [auto|]. intros [H|(k & [])]. assumption.
  - rewrite IH.
    + rewrite mget_mset. destruct (Z.eqb_spec a b) as [->|N].
      * split.
        -- intros [H|(k' & I)]; [inversion H; subst; right; exists k; now left|]. right. exists k'. now right.
        -- intros [H|(k' & [I|I])].
           ++ left. f_equal. symmetry. exact (U0 _ _ (or_introl eq_refl) H).
           ++ inversion I; subst. auto.
           ++ left. f_equal. exact (U _ _ (or_introl eq_refl) (or_intror I) eq_refl).
      * split; [intros [H|(k' & I)]; [auto|right; exists k'; now right]|]. intros [H|(k' & [I|I])]; [auto| |right; exists k'; assumption]. inversion I; subst. congruence.
    + intros x y I J. apply U; now right.
    + intros x v I. rewrite mget_mset. destruct (Z.eqb_spec (fst (snd x)) b) as [Q|Q].
      * intro H. apply Some_inj in H. subst v. exact (U _ _ (or_introl eq_refl) (or_intror I) (eq_sym Q)).
      * apply U0. now right.
Qed.
Lemma fold_zset_nodup (l : list (Z * (Z * bytes))) : forall m0 : list (Z * bytes), NoDup (map fst m0) ->
  NoDup (map fst (fold_left (fun m kv => zset (fst (snd kv)) (snd (snd kv)) m) l m0)).
Proof. induction l as [|x l IH]; intros m0 N; cbn; [assumption|]. apply IH. now apply mset_nodup_keys. Qed.

(** the rest of the result is left alone *)
Definition st_frame (s s' : stamp_result) : Prop :=
  st_errors s' = st_errors s /\ st_cert s' = st_cert s /\ st_time s' = st_time s /\ st_lineage s' = st_lineage s.
Lemma st_frame_refl s : st_frame s s.
Proof. repeat split. Qed.
Lemma st_frame_trans a b c : st_frame a b -> st_frame b c -> st_frame a c.
Proof. intros (A1 & A2 & A3 & A4) (B1 & B2 & B3 & B4). repeat split; congruence. Qed.
Lemma table_level a k m : In (a, k, m) algorithm_table -> m < max_int32.
Proof. intro T. unfold max_int32. in_table T; lia. Qed.

Section Sigs.
  Variables (E : env) (S : sched).
  Hypothesis HS : sched_ok S.

  Lemma stampVerifyAll_true key data l s s' : stampVerifyAll E key data l s = Ret (true, s') ->
    s' = s /\ Forall (fun x => sig_valid E key (fst x) data (snd x)) l.
  Proof.
    revert s. induction l as [|[a g] l IH]; intros s H; cbn [stampVerifyAll] in H; [inversion H; auto|].
    apply obind_ret in H as (v & V & H). destruct v; [|inversion H]. apply IH in H as [-> F]. split; [reflexivity|]. constructor; [|assumption]. now apply verifySignature_true.
  Qed.
  Lemma stampVerifyAll_false key data l s s' : stampVerifyAll E key data l s = Ret (false, s') -> st_errors s' <> [].
  Proof.
    revert s. induction l as [|[a g] l IH]; intros s H; cbn [stampVerifyAll] in H; [inversion H|].
    apply obind_ret in H as (v & V & H). destruct v; [eauto|]. inversion H. cbn. destruct (st_errors s); discriminate.
  Qed.
  Lemma addError_ne s m : st_errors (stAddError s m) <> [].
  Proof. cbn. destruct (st_errors s); discriminate. Qed.

  Lemma offered_map m rs a x : (forall a x, zget a m = Some x <-> offered rs a x) -> NoDup (map fst m) -> (In (a, x) m <-> offered rs a x).
  Proof. intros H N. rewrite <- H. symmetry. now apply mget_iff. Qed.

  (** the chosen signatures *)
  Lemma chosen_spec k minSdk maxSdk sigs rs s toVerify s' :
    NoDup (map fst sigs) -> (forall a x, zget a sigs = Some x <-> offered rs a x) ->
    filterSignaturesToVerify S k minSdk maxSdk sigs s = Ret (toVerify, s') -> toVerify <> [] ->
    s' = s /\ NoDup (map fst toVerify) /\
    (forall a x, In (a, x) toVerify -> offered rs a x /\ exists m, level_of a m /\ m <= maxSdk) /\
    (forall a x k m, offered rs a x -> In (a, k, m) algorithm_table -> m <= maxSdk ->
       exists a' x' k', In (a', x') toVerify /\ In (a', k', m) algorithm_table /\ strength k <= strength k') /\
    (exists a x k m, In (a, x) toVerify /\ In (a, k, m) algorithm_table /\ m <= minSdk /\ m <= maxSdk).
  Proof.
    intros N Hm H Ne. unfold filterSignaturesToVerify in H. apply obind_ret in H as ([cand mp] & C & H).
    pose proof (ord_perm S HS _ 10%nat k sigs) as P10.
    assert (Io : forall a x, In (a, x) (ord S _ 10 k sigs) <-> offered rs a x).
    { intros a x. rewrite <- (offered_map sigs rs) by assumption. split; intro I; eapply Permutation_in; [exact P10|exact I|symmetry; exact P10|exact I]. }
    destruct (stampCandidates_ok (ord S _ 10 k sigs) [] maxSdk [] max_int32 cand mp) as [(Nc & C1 & C2) (M1 & M2)]; try assumption.
    { apply Forall_forall. intros [a x] I. apply Io in I. apply I. }
    { split; [constructor|]. split; [discriminate|]. intros ? ? ? ? []. }
    { split; [intros ? ? ? []|auto]. }
    cbn [app] in *. destruct cand as [|c0 cand0]; [inversion H; subst; congruence|]. set (cand := c0 :: cand0) in *.
    destruct (Z.ltb_spec minSdk mp) as [L|L]; [inversion H; subst; congruence|].
    pose proof (ord_perm S HS _ 11%nat k cand) as P11.
    inversion H as [[T Es]]. clear H. split; [reflexivity|]. rewrite T.
    assert (Ic : forall m a x, In (m, (a, x)) (ord S _ 11 k cand) <-> zget m cand = Some (a, x)).
    { intros m a x. rewrite mget_iff by assumption. split; intro I; eapply Permutation_in; [exact P11|exact I|symmetry; exact P11|exact I]. }
    assert (Nt : NoDup (map fst toVerify)) by (rewrite <- T; apply fold_zset_nodup; constructor).
    assert (It : forall a x, In (a, x) toVerify <-> exists m, zget m cand = Some (a, x)).
    { intros a x. rewrite <- mget_iff by assumption. rewrite <- T. rewrite fold_zset_get.
      - setoid_rewrite Ic. cbn. split; [intros [X|X]; [discriminate|assumption] | auto].
      - intros [m1 [a1 x1]] [m2 [a2 x2]] I J Q. cbn in *. subst a2. apply Ic in I, J. apply C1 in I as [I _], J as [J _]. apply Io in I, J. eapply offered_inj; eassumption.
      - intros ? ? _ X. discriminate. }
    split; [assumption|]. split; [|split].
    - intros a x I. apply It in I as (m & Z). apply C1 in Z as (I & Lv & Le). split; [now apply Io | eauto].
    - intros a x kk m O Tb Le. apply Io in O. destruct (C2 _ _ _ _ O Tb Le) as (a' & x' & k' & Z & T' & St). exists a', x', k'. split; [apply It; eauto | auto].
    - destruct M2 as [M2|(a & x & I & (kk & Tb) & Le)].
      + exfalso. destruct c0 as [m [a x]]. assert (Z : zget m cand = Some (a, x)) by (unfold cand; cbn; now rewrite Z.eqb_refl).
        apply C1 in Z as (I & (kk & Tb) & Le). specialize (M1 _ _ _ I (ex_intro _ kk Tb) Le). apply table_level in Tb. lia.
      + destruct (C2 _ _ _ _ I Tb Le) as (a' & x' & k' & Z & T' & St). exists a', x', k', mp. split; [apply It; eauto | auto].
  Qed.

  Theorem stampSig_sound k minSdk maxSdk data c slice s s' :
    stampVerifySignature E S k minSdk maxSdk data c slice s = Ret (true, s') ->
    stamp_signed E (c_key c) minSdk maxSdk data slice /\ st_frame s s'.
  Proof.
    unfold stampVerifySignature. destruct (lpItems slice) as [items ok] eqn:L. destruct (stampReadSigs items ok [] s) as [[m|] s1] eqn:R; [|discriminate].
    destruct m as [|p m]; [discriminate|]. set (sigs := p :: m) in *. intro H.
    assert (Fi : Forall fits items).
    { destruct ok; [apply lpItems_inv in L as [_ F]; exact F|]. apply lpItems_false in L as (t & _ & F & _). exact F. }
    destruct (stampReadSigs_ok items Fi [] [] s sigs s1) with (ok := ok) as (rs & -> & -> & Fr & N & Hm & Fm); try assumption; [constructor | constructor| |].
    { intros a x. cbn. split; [discriminate|]. intros (_ & f & ([|] & ? & Q & _) & _); discriminate. }
    apply lpItems_inv in L as [-> _]. cbn [app] in Hm.
    apply obind_ret in H as ([tv s2] & F & H). destruct tv as [|t0 tv]; [discriminate|]. set (toVerify := t0 :: tv) in *.
    destruct (chosen_spec _ _ _ _ _ _ _ _ N Hm F) as (-> & Nt & T1 & T2 & T3); [discriminate|].
    apply stampVerifyAll_true in H as [-> V]. split; [|exact Fm].
    exists rs, toVerify. split; [split; [reflexivity|exact Fr]|]. split; [|split; [exact T2|exact T3]].
    intros a x I. split; [now apply T1|]. rewrite Forall_forall in V. apply (V (a, x)). eapply Permutation_in; [symmetry; apply (ord_perm S HS)|exact I].
  Qed.
  Theorem stampSig_false k minSdk maxSdk data c slice s s' :
    stampVerifySignature E S k minSdk maxSdk data c slice s = Ret (false, s') -> st_errors s' <> [].
  Proof.
    unfold stampVerifySignature. destruct (lpItems slice) as [items ok]. destruct (stampReadSigs items ok [] s) as [[m|] s1] eqn:R.
    - destruct m as [|p m]; [intro H; inversion H; apply addError_ne|]. intro H. apply obind_ret in H as ([tv s2] & F & H). destruct tv; [inversion H; apply addError_ne|]. now apply stampVerifyAll_false in H.
    - intro H. inversion H; subst. clear H. revert R. generalize (@nil (Z * bytes)) as m. revert s. induction items as [|b items IH]; intros s m R; cbn [stampReadSigs] in R.
      + destruct ok; inversion R. apply addError_ne.
      + destruct (read_i32 b) as [[a r]|]; [|inversion R; apply addError_ne]. destruct (negb (isSupported a)); [eauto|].
        destruct (getLengthPrefixedSlice r) as [[x j]|]; [eauto|]. inversion R; apply addError_ne.
  Qed.
End Sigs.

Lemma stampSchemes_ok items needed : Forall fits items -> forall ok done found s r s',
  (forall x, found = Some x <-> exists f, last_entry done needed f /\ holds_value f x) ->
  stampSchemes items ok needed found s = (Some r, s') ->
  exists rs, ok = true /\ s' = s /\ items = map enc_rec rs /\
    Forall (fun r => is_int32 (fst r) /\ fits (enc_rec r) /\ exists x, holds_value (snd r) x) rs /\
    (forall x, r = Some x <-> exists f, last_entry (done ++ rs) needed f /\ holds_value f x).
Proof.
  induction 1 as [|b items Fb Fi IH]; intros ok done found s r s' Hf H; cbn [stampSchemes] in H.
  - destruct ok; [|discriminate]. inversion H; subst. exists []. rewrite app_nil_r. split; [reflexivity|]. split; [reflexivity|]. split; [reflexivity|]. split; [constructor | exact Hf].
  - destruct (read_i32 b) as [[a f]|] eqn:R; [|discriminate]. apply enc_rec_read in R as [-> Ra].
    destruct (getLengthPrefixedSlice f) as [[x j]|] eqn:G; [|discriminate]. apply getLP_inv in G as [Ef Fx].
    assert (Hv : holds_value f x) by (exists j; auto).
    apply (IH ok (done ++ [(a, f)])) in H as (rs & -> & -> & -> & Fr & Hr).
    + exists ((a, f) :: rs). split; [reflexivity|]. split; [reflexivity|]. split; [reflexivity|].
      split; [constructor; [split; [assumption|]; split; [assumption|]; eauto|assumption]|]. rewrite <- app_assoc in Hr. exact Hr.
    + intro y. destruct (Z.eqb_spec a needed) as [->|N].
      * split.
        -- intro Q. apply Some_inj in Q; subst y. exists f. split; [apply last_entry_snoc | assumption].
        -- intros (g & L & Hg). assert (g = f) by (eapply last_entry_inj; [exact L|apply last_entry_snoc]). subst g. f_equal. eapply holds_value_inj; eassumption.
      * rewrite Hf. split; intros (g & L & Hg); exists g; (split; [|assumption]); [apply last_entry_snoc_other | apply last_entry_snoc_other in L]; auto.
Qed.
Lemma stampSchemes_err items ok needed : forall found s s', stampSchemes items ok needed found s = (None, s') -> st_errors s' <> [].
Proof.
  induction items as [|b items IH]; intros found s s' H; cbn [stampSchemes] in H.
  - destruct ok; inversion H. apply addError_ne.
  - destruct (read_i32 b) as [[a f]|]; [|inversion H; apply addError_ne]. destruct (getLengthPrefixedSlice f) as [[x j]|]; [eauto|inversion H; apply addError_ne].
Qed.

(** lineages: the node parser is that of schemev3lineage.go with the other certificate parser *)
Lemma stampLoop_eq E items ok : forall last hist res, stampLineageLoop E items ok last hist res = lineageLoop (andr_certs E) items ok last hist res.
Proof.
  assert (V : forall k a d x, verifySignature (andr_certs E) k a d x = verifySignature E k a d x) by reflexivity.
  induction items as [|b items IH]; intros; cbn [stampLineageLoop lineageLoop]; [reflexivity|].
  change (lineageNode (andr_certs E) b last hist) with (stampLineageNode E b last hist). destruct (stampLineageNode E b last hist) as [[n|]|]; cbn [obind]; [apply IH | reflexivity | reflexivity].
Qed.
Lemma parseStampCertLineage_ok E v s ns s' : parseStampCertLineage E v s = Ret (ns, s') ->
  (s' = s /\ lineage_of (andr_certs E) v ns) \/ (ns = [] /\ st_errors s' <> []).
Proof.
  unfold parseStampCertLineage. destruct (read_i32 v) as [[ver rest]|] eqn:R; [|intro H; inversion H; right; split; [reflexivity | apply addError_ne]].
  destruct (Z.eqb_spec ver 1) as [->|]; cbn [negb]; [|intro H; inversion H; right; split; [reflexivity | apply addError_ne]].
  destruct (lpItems rest) as [items ok] eqn:L. intro H. apply obind_ret in H as (r & Lo & H).
  destruct r as [nodes|]; [|inversion H; right; split; [reflexivity | apply addError_ne]]. inversion H; subst. left. split; [reflexivity|].
  assert (Re : readSigningCertificateLineage (andr_certs E) v = Ret (Some ns)).
  { unfold readSigningCertificateLineage. destruct v; [discriminate|]. rewrite R. cbn [Z.eqb negb lineageVersionFirst Pos.eqb]. rewrite L. now rewrite <- stampLoop_eq. }
  apply readLineage_iff in Re as [[-> ->]|X]; [|exact X]. discriminate.
Qed.

Section Attrs.
  Variables (E : env) (c : cert).
  Definition attr_inv (done : list (Z * bytes)) (s : stamp_result) : Prop :=
    (st_lineage s <> [] -> exists v, last_entry done id_stamp_rotation v /\ stamp_lineage E c v (st_lineage s)) /\
    (forall t, st_time s = Some t -> 0 < t /\ exists rest, last_entry done id_stamp_time (le64 t ++ rest)).

  Lemma attr_inv_other done s a f : attr_inv done s -> a <> id_stamp_rotation -> a <> id_stamp_time -> attr_inv (done ++ [(a, f)]) s.
  Proof.
    intros [A B] N1 N2. split.
    - intro H. destruct (A H) as (v & L & X). exists v. split; [|assumption]. apply last_entry_snoc_other; auto.
    - intros t H. destruct (B t H) as (P & rest & L). split; [assumption|]. exists rest. apply last_entry_snoc_other; auto.
  Qed.

  Lemma stampAttrLoop_ok items : Forall fits items -> forall ok done s b s',
    attr_inv done s -> stampAttrLoop E c items ok s = Ret (b, s') -> st_errors s' = [] ->
    st_errors s = [] /\ st_cert s' = st_cert s /\
    exists al rest, items = map enc_rec al ++ rest /\ (rest = [] -> st_lineage s' = [] \/ ok = true) /\ (rest <> [] -> st_lineage s' = []) /\
      Forall (fun a => is_uint32 (fst a) /\ fits (enc_rec a)) al /\ attr_inv (done ++ al) s'.
  Proof.
    induction 1 as [|x items Fx Fi IH]; intros ok done s b s' I H Er; cbn [stampAttrLoop] in H.
    - destruct ok; inversion H; subst; [|exfalso; exact (addError_ne _ _ Er)]. split; [assumption|]. split; [reflexivity|]. exists [], [].
      split; [reflexivity|]. split; [auto|]. split; [intro X; exfalso; apply X; reflexivity|]. split; [constructor | rewrite app_nil_r; assumption].
    - destruct (read_u32 x) as [[id v]|] eqn:R; [|inversion H; subst; exfalso; exact (addError_ne _ _ Er)].
      apply read_u32_inv in R as [-> Rid]. change (le_enc 4 id ++ v) with (enc_rec (id, v)) in *.
      assert (Ok : is_uint32 (fst (id, v)) /\ fits (enc_rec (id, v))) by (split; assumption).
      destruct (Z.eqb_spec id sourceStampAttrProofOfRotation) as [->|N1].
      + apply obind_ret in H as ([nodes s1] & Pl & H). apply parseStampCertLineage_ok in Pl.
        destruct nodes as [|n0 nodes].
        { inversion H; subst. destruct Pl as [[-> Li]|[_ X]]; [|cbn in Er; contradiction]. cbn in Er. split; [assumption|]. split; [reflexivity|].
          exists [(sourceStampAttrProofOfRotation, v)], items. split; [reflexivity|]. split; [auto|]. split; [auto|]. split; [constructor; [assumption|constructor]|]. split; [intro X; exfalso; apply X; reflexivity|].
          cbn. intros t Ht. destruct I as [_ B]. destruct (B t Ht) as (P & rest & L). split; [assumption|]. exists rest. apply last_entry_snoc_other; [discriminate|assumption]. }
        destruct Pl as [[-> Li]|[X _]]; [|discriminate]. cbv zeta in H.
        destruct (cert_equal c (ln_cert (last (n0 :: nodes) n0))) eqn:Ce; [|inversion H; subst; exfalso; exact (addError_ne _ _ Er)].
        apply (IH ok (done ++ [(sourceStampAttrProofOfRotation, v)])) in H as (Er' & Ec & al & rest & -> & R1 & R2 & Fa & I'); [|split|assumption].
        * cbn in Er', Ec. split; [assumption|]. split; [assumption|]. exists ((sourceStampAttrProofOfRotation, v) :: al), rest. rewrite <- app_assoc in I'.
          split; [reflexivity|]. split; [assumption|]. split; [assumption|]. split; [now constructor | exact I'].
        * intros _. exists v. split; [apply last_entry_snoc|]. split; [exact Li|]. cbn [st_lineage].
          destruct (@exists_last _ (n0 :: nodes)) as (l & n & Q); [discriminate|]. rewrite Q in *. exists l, n. split; [reflexivity|].
          rewrite last_last in Ce. unfold cert_equal in Ce. apply bytes_eqb_eq in Ce. auto.
        * cbn [st_time]. intros t Ht. destruct I as [_ B]. destruct (B t Ht) as (P & rest & L). split; [assumption|]. exists rest. apply last_entry_snoc_other; [discriminate|assumption].
      + destruct (Z.eqb_spec id sourceStampAttrTime) as [->|N2].
        * destruct (read_i64 v) as [[ts r]|] eqn:R; [|inversion H; subst; exfalso; exact (addError_ne _ _ Er)]. apply read_i64_inv in R as ->.
          destruct (Z.leb_spec ts 0) as [L0|L0].
          -- exfalso. assert (G : forall items ok s b s', stampAttrLoop E c items ok s = Ret (b, s') -> st_errors s <> [] -> st_errors s' <> []).
             { clear. induction items as [|x items IH]; intros ok s b s' H Ne; cbn [stampAttrLoop] in H.
               - destruct ok; inversion H; subst; [assumption | apply addError_ne].
               - destruct (read_u32 x) as [[id v]|]; [|inversion H; subst; apply addError_ne]. destruct (id =? sourceStampAttrProofOfRotation).
                 + apply obind_ret in H as ([nodes s1] & Pl & H). apply parseStampCertLineage_ok in Pl. assert (st_errors s1 <> []) by (destruct Pl as [[-> _]|[_ X]]; assumption).
                   destruct nodes; [inversion H; subst; assumption|]. destruct (cert_equal _ _); [eapply IH; [exact H|assumption]|inversion H; subst; apply addError_ne].
                 + destruct (id =? sourceStampAttrTime); [|eapply IH; [exact H|assumption]]. destruct (read_i64 v) as [[ts r]|]; [|inversion H; subst; apply addError_ne].
                   eapply IH; [exact H|]. destruct (ts <=? 0); [apply addError_ne | assumption]. }
             apply (G _ _ _ _ _ H); [apply addError_ne | assumption].
          -- apply (IH ok (done ++ [(sourceStampAttrTime, le_enc 8 ts ++ r)])) in H as (Er' & Ec & al & rest & -> & R1 & R2 & Fa & I'); [|split|assumption].
             ++ cbn in Er', Ec. split; [assumption|]. split; [assumption|]. exists ((sourceStampAttrTime, le_enc 8 ts ++ r) :: al), rest. rewrite <- app_assoc in I'.
                split; [reflexivity|]. split; [assumption|]. split; [assumption|]. split; [now constructor | exact I'].
             ++ cbn [st_lineage]. intro X. destruct I as [A _]. destruct (A X) as (v & L & Y). exists v. split; [|assumption]. apply last_entry_snoc_other; [discriminate|assumption].
             ++ cbn [st_time]. intros t Ht. apply Some_inj in Ht. subst t. split; [assumption|]. exists r. apply last_entry_snoc.
        * apply (IH ok (done ++ [(id, v)])) in H as (Er' & Ec & al & rest & -> & R1 & R2 & Fa & I'); [| |assumption].
          -- cbn in Er', Ec. split; [assumption|]. split; [assumption|]. exists ((id, v) :: al), rest. rewrite <- app_assoc in I'.
             split; [reflexivity|]. split; [assumption|]. split; [assumption|]. split; [now constructor | exact I'].
          -- apply attr_inv_other with (a := id) (f := v) in I; [exact I | exact N1 | exact N2].
  Qed.
End Attrs.
