(** The digest map accumulated over the signers. *)
From Coq Require Import Lia.
From Verif.Model Require Import Bytes Env Utils Result.
From Verif.Spec Require Import Encoding Algorithms Signer.
From Verif.Proofs Require Import BytesFacts UtilsFacts SignerFacts.

Inductive collects : digests -> list signer_info -> digests -> Prop :=
| c_nil cds : collects cds [] cds
| c_cons cds i k rest cds' : has_kind (si_algo i) k -> digest_agrees cds (kind_id k) (si_digest i) ->
    collects (zset (kind_id k) (si_digest i) cds) rest cds' -> collects cds (i :: rest) cds'.

Lemma mset_keys (k : Z) (v : bytes) m : In k (map fst m) -> map fst (zset k v m) = map fst m.
Proof.
  induction m as [|[k' v'] m IH]; intro H; [destruct H|]. cbn. destruct (Z.eqb_spec k k'); cbn; [now subst|].
  f_equal. apply IH. destruct H; [cbn in *; congruence | assumption].
Qed.
Lemma mset_keys_new (k : Z) (v : bytes) m : ~ In k (map fst m) -> map fst (zset k v m) = map fst m ++ [k].
Proof.
  induction m as [|[k' v'] m IH]; intro H; [reflexivity|]. cbn. destruct (Z.eqb_spec k k') as [->|]; cbn.
  - exfalso. apply H. now left.
  - f_equal. apply IH. intro X. apply H. now right.
Qed.
Lemma mset_nodup (k : Z) (v : bytes) m : NoDup (map fst m) -> NoDup (map fst (zset k v m)).
Proof.
  intro H. destruct (in_dec Z.eq_dec k (map fst m)) as [I|N].
  - now rewrite mset_keys.
  - rewrite mset_keys_new by assumption. apply NoDup_rev in H. rewrite <- (rev_involutive (map fst m ++ [k])).
    apply NoDup_rev. rewrite rev_app_distr. cbn. constructor; [|assumption]. now rewrite <- in_rev.
Qed.

Lemma zget_in (k : Z) (m : list (Z * bytes)) v : zget k m = Some v -> In (k, v) m.
Proof.
  induction m as [|[k' v'] m IH]; cbn; [discriminate|]. destruct (Z.eqb_spec k k').
  - intro H; inversion H; subst. now left.
  - right. auto.
Qed.
Lemma zget_none (k : Z) (m : list (Z * bytes)) : zget k m = None <-> ~ In k (map fst m).
Proof.
  induction m as [|[k' v'] m IH]; cbn; [tauto|]. destruct (Z.eqb_spec k k') as [->|].
  - split; [discriminate|]. intro H. exfalso. apply H. now left.
  - rewrite IH. intuition.
Qed.
Lemma zget_key (k : Z) (m : list (Z * bytes)) : In k (map fst m) <-> exists v, zget k m = Some v.
Proof.
  destruct (zget k m) eqn:G.
  - split; [eauto|]. intros _. apply zget_in in G. now apply (in_map fst) in G.
  - apply zget_none in G. split; [contradiction|]. intros [v H]. discriminate.
Qed.
Lemma zget_zset (k k' : Z) (v : bytes) m : zget k (zset k' v m) = if k =? k' then Some v else zget k m.
Proof.
  destruct (Z.eqb_spec k k') as [->|N]; [apply zget_set_same|]. now apply zget_set_other.
Qed.

Lemma collects_get cds is cds' : collects cds is cds' -> forall key d,
  zget key cds' = Some d <-> zget key cds = Some d \/
    exists i k, In i is /\ has_kind (si_algo i) k /\ key = kind_id k /\ d = si_digest i.
Proof.
  induction 1 as [|cds i k rest cds' K A C IH]; intros key d.
  - split; [auto|]. intros [H|(i & k & [] & _)]. assumption.
  - rewrite IH, zget_zset. destruct (Z.eqb_spec key (kind_id k)) as [->|N].
    + split.
      * intros [H|(j & k' & I & H)].
        -- inversion H; subst. right. exists i, k. repeat split; try assumption. now left.
        -- right. exists j, k'. split; [now right | assumption].
      * intros [H|(j & k' & [I|I] & K' & E & D)].
        -- left. now rewrite (A d H).
        -- subst j d. now left.
        -- right. exists j, k'. auto.
    + split.
      * intros [H|(j & k' & I & H)]; [now left|]. right. exists j, k'. split; [now right | assumption].
      * intros [H|(j & k' & [I|I] & K' & E & D)]; [now left | | right; exists j, k'; auto].
        subst j. exfalso. apply N. rewrite E. f_equal. eapply has_kind_fun; eassumption.
Qed.

Lemma collects_nodup cds is cds' : collects cds is cds' -> NoDup (map fst cds) -> NoDup (map fst cds').
Proof. induction 1; intro H'; [assumption|]. apply IHcollects. now apply mset_nodup. Qed.

Lemma collects_recorded is m : collects [] is m -> recorded_digests is m.
Proof.
  intro C. split.
  - eapply collects_nodup; [eassumption | constructor].
  - intros key d. rewrite (collects_get _ _ _ C). cbn. split; [intros [H|H]; [discriminate | assumption] | auto].
Qed.

Lemma collects_consistent is m : collects [] is m -> consistent is.
Proof.
  intros C i j k Ii Ij Ki Kj. apply collects_recorded in C as [_ R].
  assert (A : zget (kind_id k) m = Some (si_digest i)) by (apply R; eauto 6).
  assert (B : zget (kind_id k) m = Some (si_digest j)) by (apply R; eauto 6).
  congruence.
Qed.

Lemma collects_kinds cds is cds' : collects cds is cds' -> Forall (fun i => exists k, has_kind (si_algo i) k) is.
Proof. induction 1; constructor; eauto. Qed.

Lemma collects_app cds is is' cds' cds'' : collects cds is cds' -> collects cds' is' cds'' -> collects cds (is ++ is') cds''.
Proof. intro H. induction H; intro H'; cbn; [assumption|]. econstructor; eauto. Qed.

Lemma collects_total is : forall prev cds, collects [] prev cds -> consistent (prev ++ is) ->
  Forall (fun i => exists k, has_kind (si_algo i) k) is ->
  exists cds', collects cds is cds'.
Proof.
  induction is as [|i is IH]; intros prev cds C Co F; [exists cds; constructor|].
  inversion F as [|? ? [k K] F']; subst.
  assert (A : digest_agrees cds (kind_id k) (si_digest i)).
  { intros p H. apply collects_recorded in C as [_ R]. apply R in H as (j & k' & I & K' & E & ->).
    apply kind_id_inj in E. subst k'. apply (Co j i k); try assumption; apply in_or_app; [now left | right; now left]. }
  destruct (IH (prev ++ [i]) (zset (kind_id k) (si_digest i) cds)) as (cds' & C').
  - eapply collects_app; [exact C|]. econstructor; [exact K | exact A | constructor].
  - now rewrite <- app_assoc.
  - assumption.
  - exists cds'. econstructor; eassumption.
Qed.

Lemma collects_det cds is c1 c2 : collects cds is c1 -> collects cds is c2 -> c1 = c2.
Proof.
  intro H. revert c2. induction H as [|cds i k rest cds' K A C IH]; intros c2 H'; inversion H'; subst; [reflexivity|].
  assert (k0 = k) by (eapply has_kind_fun; eassumption). subst. auto.
Qed.
