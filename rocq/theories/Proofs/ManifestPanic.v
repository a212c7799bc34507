(** When the manifest parser panics *)
From Coq Require Import String Lia.
From Verif.Model Require Import Bytes Env Manifest.
From Verif.Spec Require Import JarManifest.
From Verif.Proofs Require Import BytesFacts ManifestFacts ManifestSections.

Lemma empty_continuation_app p r : empty_continuation r -> empty_continuation (p ++ r).
Proof. intros (q & b & l & t & -> & H). exists (p ++ q), b, l, t. rewrite <- app_assoc. split; [reflexivity|exact H]. Qed.
Lemma ends_with_colon_app p r : ends_with_colon r -> ends_with_colon (p ++ r).
Proof. intros (q & ->). exists (p ++ q). apply app_assoc. Qed.

Definition vinv (p : bytes) (s : vstate) : Prop :=
  exists p1, p = p1 ++ vl_junk s /\ Forall is_lb (vl_junk s) /\ ((1 <= vl_clb s)%nat -> vl_junk s <> []) /\
    (vl_ok s = false -> exists p0 b, p1 = p0 ++ [b; x20] /\ is_lb b).

Lemma valueLoop_panic r : forall p s q, vinv p s -> valueLoop r s = Panic q -> empty_continuation (p ++ r).
Proof.
  induction r as [|c r IH]; intros p s q Hi H; [discriminate|]. cbn [valueLoop] in H.
  assert (Sp : forall x, p ++ x :: r = (p ++ [x]) ++ r) by (intro; rewrite <- app_assoc; reflexivity).
  destruct Hi as (p1 & Ep & Hl & Hc & Ho).
  destruct (byte_eqb c x00); [discriminate|].
  destruct (byte_eqb c x0a) eqn:Ea.
  { apply byte_eqb_eq in Ea. subst c.
    assert (K : forall n, vinv (p ++ [x0a]) (mkV (vl_value s) (vl_cur s) (vl_junk s ++ [x0a]) (vl_ok s) false n)).
    { intro n. exists p1. cbn [vl_junk vl_clb vl_ok]. split; [rewrite Ep, <- app_assoc; reflexivity|].
      split; [apply Forall_app; split; [exact Hl|constructor; [left; reflexivity|constructor]]|].
      split; [intros _ E; destruct (vl_junk s); discriminate|exact Ho]. }
    rewrite Sp. destruct (vl_cr s); eapply IH; try exact H; apply K. }
  destruct (byte_eqb c x0d) eqn:Ed.
  { apply byte_eqb_eq in Ed. subst c. rewrite Sp. eapply IH; [|exact H]. exists p1. cbn [vl_junk vl_clb vl_ok].
    split; [rewrite Ep, <- app_assoc; reflexivity|].
    split; [apply Forall_app; split; [exact Hl|constructor; [right; reflexivity|constructor]]|].
    split; [intros _ E; destruct (vl_junk s); discriminate|exact Ho]. }
  destruct (byte_eqb c x20 && Nat.eqb (vl_clb s) 1) eqn:Es.
  { apply andb_true_iff in Es. destruct Es as [Es En]. apply byte_eqb_eq in Es. subst c. apply Nat.eqb_eq in En.
    assert (Hj : vl_junk s <> []) by (apply Hc; lia).
    destruct (vl_ok s) eqn:Eo.
    - rewrite Sp. eapply IH; [|exact H].
      destruct (exists_last Hj) as (j0 & b & Ej). rewrite Ej in *.
      exists (p ++ [x20]). cbn [vl_junk vl_clb vl_ok]. rewrite app_nil_r. split; [reflexivity|].
      split; [constructor|]. split; [lia|]. intros _. exists (p1 ++ j0), b. rewrite Ep, <- !app_assoc. split; [reflexivity|].
      apply Forall_app in Hl. destruct Hl as [_ Hl]. apply Forall_inv in Hl. exact Hl.
    - destruct (Ho eq_refl) as (p0 & b & E1 & Hb).
      exists p0, b, (vl_junk s), r. split; [rewrite Ep, E1, <- !app_assoc; reflexivity|]. repeat (split; [assumption|]). assumption. }
  destruct (Nat.leb 1 (vl_clb s)) eqn:El; [discriminate|].
  rewrite Sp. eapply IH; [|exact H]. exists (p ++ [c]). cbn [vl_junk vl_clb vl_ok]. rewrite app_nil_r.
  apply Nat.leb_gt in El. repeat (split; [first [reflexivity|constructor|lia]|]). discriminate.
Qed.

Definition bad (data : bytes) : Prop := ends_with_colon data \/ empty_continuation data.
Lemma bad_app p r : bad r -> bad (p ++ r).
Proof. intros [H|H]; [left; apply ends_with_colon_app | right; apply empty_continuation_app]; exact H. Qed.

Lemma vinv0 p : vinv p v0.
Proof. exists p. cbn [v0 vl_junk vl_clb vl_ok]. rewrite app_nil_r. split; [reflexivity|]. split; [constructor|]. split; [lia|discriminate]. Qed.

Lemma readHeader_panic r clb q : readHeader r clb = Panic q -> bad r.
Proof.
  unfold readHeader. destruct (Nat.ltb 1 clb); [discriminate|].
  destruct (findColon r) as [[name after]|] eqn:Ef; [|discriminate].
  destruct (findColon_some _ _ _ Ef) as [-> _].
  destruct after as [|c rest]; [intros _; left; exists name; reflexivity|].
  destruct (negb (byte_eqb c x20)); [discriminate|]. destruct (negb (isValidName name)); [discriminate|].
  destruct (valueLoop rest v0) as [[[]|]|] eqn:Ev; cbn [obind]; try discriminate. intros _. right.
  pose proof (valueLoop_panic rest [] v0 p (vinv0 _) Ev) as K. cbn [app] in K.
  apply (empty_continuation_app (name ++ [":"%byte; c])) in K. rewrite <- app_assoc in K. exact K.
Qed.

Lemma attrsLoop_panic fuel : forall r clb m q, attrsLoop fuel r clb m = Panic q -> bad r.
Proof.
  induction fuel as [|fuel IH]; intros r clb m q H; [discriminate|]. cbn [attrsLoop] in H.
  destruct (readHeader r clb) as [[h|e]|] eqn:Er; cbn [obind] in H; try discriminate.
  - destruct (h_single h) eqn:Es; [|discriminate]. apply IH in H.
    destruct (readHeader_single _ _ _ Er Es) as (_ & _ & _ & _ & c & _ & -> & _). apply bad_app. exact H.
  - eapply readHeader_panic. exact Er.
Qed.

Lemma sectionsLoop_panic fuel : forall wc mk r clb e c q, sectionsLoop fuel wc mk r clb e c = Panic q -> bad r.
Proof.
  induction fuel as [|fuel IH]; intros wc mk r clb e c q H; [discriminate|]. cbn [sectionsLoop] in H.
  destruct (readHeader r clb) as [[h|er]|] eqn:Er; cbn [obind] in H; try discriminate.
  2: { eapply readHeader_panic. exact Er. }
  destruct (h_single h) eqn:Es; cbn [negb] in H; [|discriminate].
  destruct (readHeader_single _ _ _ Er Es) as (_ & _ & _ & _ & ch & _ & -> & _). apply bad_app.
  destruct (negb (bytes_eqb (h_name h) attrName)); [discriminate|].
  destruct (attrsLoop _ _ _ _) as [[[[e' r'] clb']|er]|] eqn:Ea; cbn [obind] in H; try discriminate.
  2: { eapply attrsLoop_panic. exact Ea. }
  destruct (attrsLoop_local _ _ _ _ _ _ _ Ea) as [_ (c2 & E2 & _)]. rewrite E2. apply bad_app.
  destruct wc; [|eapply IH; exact H]. destruct (sget (h_value h) c); [discriminate|]. eapply IH; exact H.
Qed.

Theorem parseBytes_panic wc data q : parseBytes wc data = Panic q -> bad data.
Proof.
  unfold parseBytes. intro H.
  destruct (attrsLoop _ data _ _) as [[[[main r] clb]|e]|] eqn:Ea; cbn [obind] in H; try discriminate.
  2: { eapply attrsLoop_panic. exact Ea. }
  destruct (attrsLoop_local _ _ _ _ _ _ _ Ea) as [_ (c & -> & _)]. apply bad_app.
  destruct (sectionsLoop _ _ _ _ _ _ _) as [[[en ch]|e]|] eqn:Es; cbn [obind] in H; try discriminate.
  eapply sectionsLoop_panic. exact Es.
Qed.
