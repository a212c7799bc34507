(** v2ParseSigners decides [v2_block]. *)
From Coq Require Import String.
From Coq Require Import Lia.
From Verif.Model Require Import Bytes ApiLevel Env Utils SigBlock Result Signer SchemeV2.
From Verif.Spec Require Import Encoding Algorithms Signer.
From Verif.Proofs Require Import BytesFacts UtilsFacts SignerFacts SchemeV2Facts CollectFacts.

Definition v2_info_ok E maxSdk xb (s : bytes) (i : signer_info) : Prop :=
  v2_signer E maxSdk (has xb) s (si_chain i) (si_algo i) (si_digest i).

Lemma v2Signers_sound E maxSdk xb ok items : forall cds r cds' r' b,
  v2Signers E maxSdk xb items ok cds r = Ret (cds', r', b) ->
  ext r r' /\
  (errors r' = errors r -> b = true /\ ok = true /\ exists is,
     Forall2 (v2_info_ok E maxSdk xb) items is /\ collects cds is cds' /\
     certs r' = certs r ++ map si_chain is).
Proof.
  induction items as [|s items IH]; intros cds r cds' r' b H; cbn [v2Signers] in H.
  - destruct ok; inversion H; subst; clear H.
    + split; [auto|]. intros _. split; [reflexivity|]. split; [reflexivity|]. exists [].
      split; [constructor|]. split; [constructor|]. cbn. now rewrite app_nil_r.
    + split; [auto|]. intro H. exfalso. eapply addError_worse; eassumption.
  - apply obind_ret in H as ([cds1 r1] & V & H). apply IH in H as (X & T).
    apply v2VerifySigner_sound in V as [W|(chain & algo & d & k & VS & K & A)].
    + split; [eapply ext_trans; [apply W | exact X]|]. intro Eq. exfalso.
      assert (W' : worse r r') by (eapply worse_trans_r; eassumption). now apply W'.
    + pose proof (accepted_ext _ _ _ _ _ _ _ A) as X1. pose proof (accepted_errors _ _ _ _ _ _ _ A) as (E1 & C1 & _).
      split; [eapply ext_trans; eassumption|]. intro Eq. rewrite <- E1 in Eq.
      destruct (T Eq) as (-> & -> & is & F & C & Hc). split; [reflexivity|]. split; [reflexivity|].
      exists ({| si_chain := chain; si_algo := algo; si_digest := d |} :: is).
      destruct A as (A1 & -> & _).
      split; [constructor; assumption|]. split; [econstructor; cbn; eassumption|].
      rewrite Hc, C1. cbn. now rewrite <- app_assoc.
Qed.

Lemma v2Signers_complete E maxSdk xb items is : forall cds r cds',
  Forall2 (v2_info_ok E maxSdk xb) items is -> collects cds is cds' ->
  exists r', v2Signers E maxSdk xb items true cds r = Ret (cds', r', true) /\
    quiet (mkCore (certs r ++ map si_chain is) (signingLineage r) (warnings r) (errors r)) r'.
Proof.
  revert is. induction items as [|s items IH]; intros is cds r cds' F C; inversion F; subst; cbn [v2Signers].
  - inversion C; subst. exists r. split; [reflexivity|]. cbn. rewrite app_nil_r. now destruct r.
  - inversion C as [|? ? k ? ? K A C']; subst.
    destruct (v2VerifySigner_complete E maxSdk xb s cds r _ _ _ k H1 K A) as (r1 & -> & Acc).
    cbn [obind]. destruct (IH _ _ r1 _ H3 C') as (r' & -> & Q). exists r'. split; [reflexivity|].
    destruct Acc as (_ & _ & w & ->). destruct Q as (w' & ->). cbn. exists (w ++ w').
    cbn. now rewrite <- !app_assoc.
Qed.

Theorem v2ParseSigners_sound E maxSdk xb block cds r cds' r' :
  v2ParseSigners E maxSdk xb block cds r = Ret (cds', r') ->
  ext r r' /\
  (errors r' = errors r -> exists signers junk is,
    block = lp (lps signers) ++ junk /\ fits (lps signers) /\ Forall fits signers /\
    Forall2 (v2_info_ok E maxSdk xb) signers is /\ collects cds is cds' /\
    certs r' = certs r ++ map si_chain is /\ zlen (certs r) + zlen is <= 10).
Proof.
  unfold v2ParseSigners. destruct (getLengthPrefixedSlice block) as [[signers junk]|] eqn:G.
  2:{ intro H. inversion H; subst. split; [auto|]. intro Eq. exfalso. eapply addError_worse; eassumption. }
  destruct (lpItems signers) as [items ok] eqn:L. intro H. apply obind_ret in H as ([[cds1 r1] good] & V & H).
  apply v2Signers_sound in V as (X & T). destruct good; cbn [negb] in H.
  - destruct (Z.ltb_spec maxApkSigners (zlen (certs r1))); inversion H; subst; clear H.
    + split; [eauto using ext_trans|]. intro Eq. exfalso.
      assert (W : worse r (addError r1 "APK Signature Scheme V2 only supports a maximum of 10 signers")) by (eapply worse_trans_l; eauto).
      now apply W.
    + split; [assumption|]. intro Eq. destruct (T Eq) as (_ & -> & is & F & C & Hc).
      apply getLP_inv in G as [-> Fs]. apply lpItems_inv in L as [-> Fi].
      exists items, junk, is. repeat split; try assumption.
      rewrite Hc, zlen_app, zlen_map in *. unfold maxApkSigners in *. lia.
  - inversion H; subst. split; [assumption|]. intro Eq. destruct (T Eq) as (Hb & _). discriminate.
Qed.

Theorem v2ParseSigners_complete E maxSdk xb signers junk is cds cds' r :
  fits (lps signers) -> Forall fits signers ->
  Forall2 (v2_info_ok E maxSdk xb) signers is -> collects cds is cds' -> zlen (certs r) + zlen is <= 10 ->
  exists r', v2ParseSigners E maxSdk xb (lp (lps signers) ++ junk) cds r = Ret (cds', r') /\
    quiet (mkCore (certs r ++ map si_chain is) (signingLineage r) (warnings r) (errors r)) r'.
Proof.
  intros F1 F2 F C L. unfold v2ParseSigners. rewrite getLP_enc by assumption. rewrite lpItems_enc by assumption.
  destruct (v2Signers_complete E maxSdk xb signers is cds r cds' F C) as (r' & -> & Q). cbn [obind negb].
  exists r'. split; [|assumption].
  assert (Hc : certs r' = certs r ++ map si_chain is) by (destruct Q as (w & ->); reflexivity).
  destruct (Z.ltb_spec maxApkSigners (zlen (certs r'))); [|reflexivity].
  exfalso. rewrite Hc, zlen_app, zlen_map in *. unfold maxApkSigners in *. lia.
Qed.

Lemma v2_infos_kinds E maxSdk xb signers is : Forall2 (v2_info_ok E maxSdk xb) signers is ->
  Forall (fun i => exists k, has_kind (si_algo i) k) is.
Proof.
  induction 1 as [|s i l l' H _ IH]; constructor; [|assumption].
  destruct H as (?&?&?&?&?&?&?&?&?&_&_&_&_&_&_&_&_&(algos & sig & key & main & others & SL & _)&_).
  now apply signature_list_kind in SL.
Qed.

(** On a fresh result: exactly the v2 blocks are accepted. *)
Theorem v2ParseSigners_iff E maxSdk xb block r cds' r' : certs r = [] ->
  v2ParseSigners E maxSdk xb block [] r = Ret (cds', r') ->
  (errors r' = errors r <-> exists is, v2_block E maxSdk (has xb) block is) /\
  (forall is, v2_block E maxSdk (has xb) block is ->
     recorded_digests is cds' /\ quiet (mkCore (map si_chain is) (signingLineage r) (warnings r) (errors r)) r').
Proof.
  intros Hc H.
  assert (Rev : forall is, v2_block E maxSdk (has xb) block is ->
     recorded_digests is cds' /\ quiet (mkCore (map si_chain is) (signingLineage r) (warnings r) (errors r)) r').
  { intros is (signers & junk & -> & F1 & F2 & F & Co & Le).
    destruct (collects_total is [] [] (c_nil _)) as (m & C); [assumption | eapply v2_infos_kinds; eassumption|].
    destruct (v2ParseSigners_complete E maxSdk xb signers junk is [] m r F1 F2 F C) as (r2 & E2 & Q).
    { rewrite Hc. cbn. lia. }
    rewrite H in E2. inversion E2; subst. split; [now apply collects_recorded|]. now rewrite Hc in Q. }
  split; [|assumption]. split.
  - intro Eq. apply v2ParseSigners_sound in H as (X & T). destruct (T Eq) as (signers & junk & is & -> & F1 & F2 & F & C & _ & L).
    exists is, signers, junk. repeat split; try assumption; [eapply collects_consistent; eassumption|].
    rewrite Hc in L. cbn in L. lia.
  - intros [is B]. destruct (Rev is B) as [_ Q]. now apply quiet_errors in Q.
Qed.
