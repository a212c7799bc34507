(** v3ParseSigners decides [v3_block]. *)
From Coq Require Import String.
From Coq Require Import Lia.
From Verif.Model Require Import Bytes ApiLevel Env Utils SigBlock Result Signer SchemeV3.
From Verif.Spec Require Import Encoding Algorithms Signer SignerV3.
From Verif.Proofs Require Import BytesFacts UtilsFacts SignerFacts SchemeV2Facts CollectFacts LineageFacts SchemeV3Facts.

Definition chain3 (i : v3_info) : list cert := si_chain (i3_signer i).

Section Block.
  Variable E : env.
  Variable cfg : v3cfg.
  Notation v3ok := (v3_signer E (cfg_maxSdk cfg) (rotationMin cfg)).

  Lemma v3Signers_sound ok items : forall sigs cds r sigs' cds' r',
    v3Signers E cfg items ok sigs cds r = Ret (sigs', cds', r') ->
    ext r r' /\
    (errors r' = errors r -> ok = true /\ exists is,
       Forall2 v3ok items is /\ collects cds (map i3_signer is) cds' /\
       certs r' = certs r ++ map chain3 is /\ sigs' = sigs ++ map kept is).
  Proof.
    induction items as [|s items IH]; intros sigs cds r sigs' cds' r' H; cbn [v3Signers] in H.
    - destruct ok; inversion H; subst; clear H.
      + split; [auto using ext_refl|]. intros _. split; [reflexivity|]. exists []. cbn. rewrite !app_nil_r. repeat split; constructor.
      + split; [auto|]. intro H. exfalso. eapply addError_worse; eassumption.
    - apply obind_ret in H as ([[o cds1] r1] & V & H). apply IH in H as (X & T).
      apply v3VerifySigner_sound in V as [W|(i & k & VS & K & A & ->)].
      + split; [eapply ext_trans; [apply W | exact X]|]. intro Eq. exfalso.
        assert (W' : worse r r') by (eapply worse_trans_r; eassumption). now apply W'.
      + pose proof (accepted_ext _ _ _ _ _ _ _ A) as X1. pose proof (accepted_errors _ _ _ _ _ _ _ A) as (E1 & C1 & _).
        split; [eapply ext_trans; eassumption|]. intro Eq. rewrite <- E1 in Eq.
        destruct (T Eq) as (-> & is & F & C & Hc & ->). split; [reflexivity|].
        exists (i :: is). destruct A as (A1 & -> & _).
        split; [constructor; assumption|]. split; [econstructor; cbn; eassumption|].
        rewrite Hc, C1. cbn. now rewrite <- !app_assoc.
  Qed.

  Lemma v3Signers_complete items is : is_int32 (rotationMin cfg) -> forall sigs cds r cds',
    Forall2 v3ok items is -> collects cds (map i3_signer is) cds' ->
    exists r', v3Signers E cfg items true sigs cds r = Ret (sigs ++ map kept is, cds', r') /\
      quiet (mkCore (certs r ++ map chain3 is) (signingLineage r) (warnings r) (errors r)) r'.
  Proof.
    intro Rot. revert is. induction items as [|s items IH]; intros is sigs cds r cds' F C; inversion F; subst; cbn [v3Signers].
    - inversion C; subst. exists r. cbn. rewrite !app_nil_r. split; [reflexivity|]. destruct r; apply quiet_refl.
    - inversion C as [|? ? k ? ? K A C']; subst.
      destruct (v3VerifySigner_complete E cfg Rot s cds r _ k H1 K A) as (r1 & -> & Acc).
      cbn [obind]. destruct (IH _ (sigs ++ [kept y]) _ r1 _ H3 C') as (r' & -> & Q). exists r'. cbn [map].
      rewrite <- app_assoc. split; [reflexivity|].
      destruct Acc as (_ & _ & w & ->). destruct Q as (w' & ->). cbn. exists (w ++ w').
      cbn. now rewrite <- !app_assoc.
  Qed.

  Theorem v3ParseSigners_sound block cds r sigs' cds' r' :
    v3ParseSigners E cfg block cds r = Ret (sigs', cds', r') ->
    ext r r' /\
    (errors r' = errors r -> exists signers junk is,
      block = lp (lps signers) ++ junk /\ fits (lps signers) /\ Forall fits signers /\
      Forall2 v3ok signers is /\ collects cds (map i3_signer is) cds' /\
      certs r' = certs r ++ map chain3 is /\ sigs' = map kept is).
  Proof.
    unfold v3ParseSigners. destruct (getLengthPrefixedSlice block) as [[signers junk]|] eqn:G.
    2:{ intro H. inversion H; subst. split; [auto|]. intro Eq. exfalso. eapply addError_worse; eassumption. }
    destruct (lpItems signers) as [items ok] eqn:L. intro H. apply v3Signers_sound in H as (X & T). split; [exact X|].
    intro Eq. destruct (T Eq) as (-> & is & F & C & Hc & ->). apply getLP_inv in G as [-> Fi]. apply lpItems_inv in L as [-> Fs].
    exists items, junk, is. repeat split; assumption.
  Qed.

  Lemma v3_infos_kinds signers is : Forall2 v3ok signers is -> Forall (fun i => exists k, has_kind (si_algo i) k) (map i3_signer is).
  Proof.
    induction 1 as [|s i ss is V F IH]; cbn; constructor; [|assumption].
    destruct V as (? & ? & ? & ? & ? & ? & ? & ? & ? & ? & ? & H). decompose [and] H.
    match goal with X : signed_by _ _ _ _ _ _ _ _ _ |- _ => destruct X as (? & ? & ? & ? & ? & SL & _) end.
    eapply signature_list_kind; eassumption.
  Qed.

  Theorem v3ParseSigners_complete block is r : is_int32 (rotationMin cfg) -> v3_block E (cfg_maxSdk cfg) (rotationMin cfg) block is ->
    exists cds r', v3ParseSigners E cfg block [] r = Ret (map kept is, cds, r') /\ recorded_digests (map i3_signer is) cds /\
      quiet (mkCore (certs r ++ map chain3 is) (signingLineage r) (warnings r) (errors r)) r'.
  Proof.
    intros Rot (signers & junk & -> & F1 & F2 & F & Co).
    destruct (collects_total (map i3_signer is) [] [] (c_nil _)) as (m & C); [assumption | eapply v3_infos_kinds; eassumption|].
    unfold v3ParseSigners. rewrite getLP_enc by assumption. rewrite lpItems_enc by assumption.
    destruct (v3Signers_complete signers is Rot [] [] r m F C) as (r' & -> & Q). exists m, r'. split; [reflexivity|].
    split; [now apply collects_recorded | exact Q].
  Qed.

  Theorem v3ParseSigners_iff block r sigs cds r' : is_int32 (rotationMin cfg) ->
    v3ParseSigners E cfg block [] r = Ret (sigs, cds, r') ->
    (errors r' = errors r <-> exists is, v3_block E (cfg_maxSdk cfg) (rotationMin cfg) block is) /\
    (forall is, v3_block E (cfg_maxSdk cfg) (rotationMin cfg) block is ->
       sigs = map kept is /\ recorded_digests (map i3_signer is) cds /\
       quiet (mkCore (certs r ++ map chain3 is) (signingLineage r) (warnings r) (errors r)) r').
  Proof.
    intros Rot H.
    assert (Rev : forall is, v3_block E (cfg_maxSdk cfg) (rotationMin cfg) block is ->
       sigs = map kept is /\ recorded_digests (map i3_signer is) cds /\
       quiet (mkCore (certs r ++ map chain3 is) (signingLineage r) (warnings r) (errors r)) r').
    { intros is B. destruct (v3ParseSigners_complete block is r Rot B) as (cds2 & r2 & E2 & R & Q). rewrite H in E2. inversion E2; subst. auto. }
    split; [|exact Rev]. split.
    - intro Eq. apply v3ParseSigners_sound in H as (X & T). destruct (T Eq) as (signers & junk & is & -> & F1 & F2 & F & C & _ & _).
      exists is, signers, junk. repeat split; try assumption. eapply collects_consistent; eassumption.
    - intros [is B]. destruct (Rev is B) as (_ & _ & Q). now apply quiet_errors in Q.
  Qed.
End Block.

(** a block determines its signers *)
Lemma v3_block_det E maxSdk rot block a b : is_int32 rot ->
  v3_block E maxSdk rot block a -> v3_block E maxSdk rot block b -> map kept a = map kept b /\ map chain3 a = map chain3 b.
Proof.
  intros Rot A B. set (cfg := mkV3Cfg false maxSdk rot).
  destruct (v3ParseSigners_complete E cfg block a core0 Rot A) as (c1 & r1 & H1 & _ & w1 & Q1).
  destruct (v3ParseSigners_complete E cfg block b core0 Rot B) as (c2 & r2 & H2 & _ & w2 & Q2).
  rewrite H1 in H2. assert (map kept a = map kept b /\ r1 = r2) as [K R] by (split; congruence). split; [exact K|].
  assert (certs r1 = certs r2) as C by congruence. rewrite Q1, Q2 in C. exact C.
Qed.
