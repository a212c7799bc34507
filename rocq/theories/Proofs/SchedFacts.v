(** The verdict does not depend on map iteration order or on the sort algorithm. *)
From Coq Require Import String.
From Coq Require Import Lia Permutation.
From Verif.Model Require Import Bytes ApiLevel Env Utils SigBlock Result Signer SchemeV2 SchemeV3 DataSource Digest Frosting SourceStamp Verify.
From Verif.Spec Require Import Encoding Algorithms Nondet Signer SignerV3 Ranges ApkLayout Digests Entries Verified.
From Verif.Proofs Require Import BytesFacts UtilsFacts SigBlockFacts SignerFacts SchemeV2Facts CollectFacts V2BlockFacts LineageFacts SchemeV3Facts V3BlockFacts RangeFacts CoveringFacts IntegrityFacts EntriesFacts VerifyFacts ApkFacts TotalFacts CallFacts.

Section Sched.
  Variable E : env.
  Hypothesis HE : hash_sizes_ok E.

  Lemma verify_certs S k file s id b minSdk maxSdk r cds r' : verifyScheme E S k file s id b minSdk maxSdk r = Ret (cds, r') ->
    exists st cds0 r1, extractCertsScheme E id maxSdk b r = Ret (st, cds0, r1) /\ certs (v_core r') = certs (v_core r1).
  Proof.
    unfold verifyScheme. intros H. apply obind_ret in H as ([[st cds0] r1] & Ex & H). exists st, cds0, r1. split; [exact Ex|].
    destruct (certs (v_core r1)) eqn:Cc; [inversion H; subst; exact Cc|]. rewrite <- Cc. clear Cc.
    destruct cds0; [inversion H; subst; reflexivity|].
    apply obind_ret in H as ([c good] & V & H). apply integrity_grows in V. destruct good; cbn [negb] in H; [|inversion H; subst; apply V].
    apply obind_ret in H as (r3 & Fi & H). inversion H; subst. clear H. destruct st; cbn [finalizeScheme] in Fi.
    - inversion Fi; subst. apply V.
    - apply obind_ret in Fi as (c2 & Fi & H). inversion H; subst. apply finalize_grows in Fi. eapply grows_trans in Fi; [|exact V]. apply Fi.
    - apply obind_ret in Fi as ([c2 ex] & Fi & H). inversion H; subst. unfold v31FinalizeWith in Fi. apply obind_ret in Fi as (c4 & Fi & Fx). apply finalize_grows in Fi.
      pose proof (grows_trans _ _ _ V Fi) as G. destruct (v_extraResult3 (withCore r1 c)) as [x|].
      + apply obind_ret in Fx as (x' & _ & Fx). inversion Fx; subst. apply G.
      + inversion Fx; subst. apply G.
  Qed.
  Lemma pick_certs S S' k file s bl minSdk maxSdk r cds r' cds' r'' :
    pickAndVerify E S k file s bl minSdk maxSdk r = Ret (cds, r') -> pickAndVerify E S' k file s bl minSdk maxSdk r = Ret (cds', r'') ->
    certs (v_core r') = certs (v_core r'') /\ v_schemeId r' = v_schemeId r''.
  Proof.
    unfold pickAndVerify. destruct (negb _); [intros H H'; inversion H; inversion H'; subst; auto|]. destruct (pickScheme bl) as [id [b|]]; [|intros H H'; inversion H; inversion H'; subst; auto].
    intros H H'. split.
    - apply verify_certs in H as (? & ? & ? & X & ->), H' as (? & ? & ? & X' & ->). congruence.
    - apply verifyScheme_frame in H as (-> & _), H' as (-> & _). reflexivity.
  Qed.

  Theorem verdict_sched S S' file minSdk maxSdk z vr vr' : sched_ok S -> sched_ok S' ->
    verifySigningBlock E S file minSdk maxSdk z = Ret vr -> verifySigningBlock E S' file minSdk maxSdk z = Ret vr' ->
    vr_err vr = None -> vr_err vr' = None /\
      exists res res', vr_res vr = Some res /\ vr_res vr' = Some res' /\ v_schemeId res' = v_schemeId res /\ certs (v_core res') = certs (v_core res).
  Proof.
    intros HS HS'. unfold verifySigningBlock. destruct (newSigningBlock file) as [magic|]; [|intro H; inversion H; subst; discriminate].
    intros H H'. apply obind_ret in H as (fr & Fi & H). rewrite Fi in H'. cbn [obind] in H'.
    destruct fr as [st s|st s]; [apply obind_ret in H as (? & _ & H); inversion H; subst; discriminate|].
    apply findSignatureBlocks_ok in Fi as (before & pairs & cd & rec & es & A & -> & En & [Ib Ie [Nb Ne] Ic Ir] & _).
    destruct (protected_exists _ _ _ _ _ A) as (sections & P).
    apply obind_ret in H as (res & Fr & H). rewrite Fr in H'. cbn [obind] in H'. apply applyFrosting_frame in Fr as (Fc & Fx & _).
    apply obind_ret in H as ([cds res1] & Pv & H). apply obind_ret in H as ([cds2 res2] & Fb & H). apply obind_ret in H as (stamp & _ & H).
    apply obind_ret in H' as ([cds' res1'] & Pv' & H'). apply obind_ret in H' as ([cds2' res2'] & Fb' & H'). apply obind_ret in H' as (stamp' & _ & H').
    inversion H; inversion H'; subst. clear H H'. cbn [vr_err vr_res v_core v_schemeId]. intro Er. apply getLastError_none in Er. rewrite getLastError_none.
    assert (Rc : quiet core0 (v_core res)) by (now rewrite Fc).
    pose proof (pick_certs _ _ _ _ _ _ _ _ _ _ _ _ _ Pv Pv') as [Cs Sc].
    destruct (whole E S file before pairs cd rec sections es minSdk maxSdk HE HS A P (en_blocks st) Ib _ Ie res Rc Fx Nb _ _ _ _ Pv Fb Er)
      as [[-> ->]|(Id & N31 & V3 & Mi & Er1 & is & w & Vd & Hc & _)].
    - assert (Er' : errors (v_core res1') = []).
      { destruct (Z_lt_le_dec maxSdk 24) as [M|M].
        { rewrite run_old in Pv' by assumption. inversion Pv'; subst. pose proof (fresh_core _ Rc) as (_ & _ & X). exact X. }
        destruct (in_cases maxSdk es) as ([I31|I31] & [I3|I3] & [I2|I2]).
        1-4: apply (first_31 E S file before pairs cd rec sections es minSdk maxSdk HE HS A P (en_blocks st) Ib _ Ie res Rc Fx) in Pv as (_ & Sd & _); [|assumption];
             apply (first_31 E S' file before pairs cd rec sections es minSdk maxSdk HE HS' A P (en_blocks st) Ib _ Ie res Rc Fx) in Pv' as (_ & _ & Cm); [|assumption];
             destruct (Sd Er) as (is31 & is3 & V & _); eapply Cm; exact V.
        1-2: apply (first_3 E S file before pairs cd rec sections es minSdk maxSdk HE HS A P (en_blocks st) Ib _ Ie res Rc Fx) in Pv as (_ & Sd & _); [|assumption|assumption];
             apply (first_3 E S' file before pairs cd rec sections es minSdk maxSdk HE HS' A P (en_blocks st) Ib _ Ie res Rc Fx) in Pv' as (_ & _ & Cm); [|assumption|assumption];
             destruct (Sd Er) as (is & V & _); eapply Cm; exact V.
        - apply (first_2 E S file before pairs cd rec sections es minSdk maxSdk HE HS A P (en_blocks st) Ib _ Ie res Rc Fx) in Pv as (_ & Sd & _); [|assumption|assumption|assumption].
          apply (first_2 E S' file before pairs cd rec sections es minSdk maxSdk HE HS' A P (en_blocks st) Ib _ Ie res Rc Fx) in Pv' as (_ & _ & Cm); [|assumption|assumption|assumption].
          destruct (Sd Er) as (is & V & _). eapply Cm; exact V.
        - apply (first_1 E S file before pairs cd rec es minSdk maxSdk (en_blocks st) Ib _ Ie res Rc Fx) in Pv as (_ & X); try assumption. congruence. }
      rewrite fallback_ok in Fb' by assumption. inversion Fb'; subst. split; [assumption|]. eexists _, _. split; [reflexivity|]. split; [reflexivity|]. cbn. split; congruence.
    - assert (Er' : errors (v_core res1') <> []).
      { intro X. apply Er1.
        apply (first_3 E S' file before pairs cd rec sections es minSdk maxSdk HE HS' A P (en_blocks st) Ib _ Ie res Rc Fx) in Pv' as (_ & Sd & _); [|assumption|assumption].
        apply (first_3 E S file before pairs cd rec sections es minSdk maxSdk HE HS A P (en_blocks st) Ib _ Ie res Rc Fx) in Pv as (_ & _ & Cm); [|assumption|assumption].
        destruct (Sd X) as (is' & V & _). eapply Cm; exact V. }
      apply (fallback_cond E S file before pairs cd rec es minSdk maxSdk (en_blocks st) Ib) in Fb as [[_ ->]|(_ & Id3 & _ & V2 & F)]; [contradiction|].
      destruct (pick_3 es maxSdk (en_blocks st) Ib N31 V3) as (b3 & Pk & L3 & Z3).
      assert (exists b, zget blockIdSchemeV2 (en_blocks st) = Some b) as (b & Z2) by (eapply block_v2; eassumption).
      unfold fallback in Fb'. assert (Ce : containsErrors (v_core res1') = true) by (unfold containsErrors; destruct (errors (v_core res1')); [contradiction | reflexivity]).
      rewrite Ce, <- Sc, Z2, Z3 in Fb'. unfold V9_0_Pie, schemeIdV3 in Fb'.
      destruct (Z.leb_spec 3 (v_schemeId res1)); [|lia]. destruct (Z.ltb_spec minSdk 28); [|lia]. cbn [andb] in Fb'. cbn zeta in F. rewrite Z3 in F.
      assert (M24 : 24 <= maxSdk) by apply V2.
      assert (Pk2 : pickScheme (zdel blockIdSchemeV3 (en_blocks st)) = (schemeIdV2, Some b)).
      { unfold pickScheme. rewrite !zget_zdel by assumption. change (blockIdSchemeV31 =? blockIdSchemeV3) with false.
        change (blockIdSchemeV3 =? blockIdSchemeV3) with true. change (blockIdSchemeV2 =? blockIdSchemeV3) with false. cbv iota.
        rewrite Z2. destruct (zget blockIdSchemeV31 (en_blocks st)) eqn:Q; [|reflexivity]. exfalso. apply N31. eapply block_v31; [eassumption|eauto]. }
      rewrite run_unfold in F, Fb' by assumption. rewrite Pk2 in F, Fb'.
      pose proof (verifyScheme_frame _ _ _ _ _ _ _ _ _ _ _ _ F) as (Fi & _). pose proof (verifyScheme_frame _ _ _ _ _ _ _ _ _ _ _ _ Fb') as (Fi' & _). cbn in Fi, Fi'.
      apply pick_frame in Pv, Pv'.
      destruct (verify_v2_sound E S file before pairs cd rec sections HE HS A P _ _ _ _ _ _ _ F Er) as (_ & is2 & Ok & Le & _ & w2 & ->).
      cbn [v_core setScheme certs] in Le.
      match type of Fb' with verifyScheme _ _ _ _ _ _ _ _ _ ?r0 = _ =>
        destruct (verify_v2_more E S' file before pairs cd rec sections HE HS' A P 1 b minSdk maxSdk r0 is2) as (cds3 & w3 & Q & _) end.
      { reflexivity. } { cbn [v_core setScheme certs]. rewrite <- Cs. exact Le. } { cbn [v_extraBlocks setScheme] in *. rewrite Pv'. rewrite Pv in Ok. exact Ok. }
      rewrite Q in Fb'. inversion Fb'; subst. split; [reflexivity|]. eexists _, _. split; [reflexivity|]. split; [reflexivity|]. cbn. split; [reflexivity | now rewrite Cs].
  Qed.
End Sched.
