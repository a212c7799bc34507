(** C77: the verdict of Verify does not depend on map iteration order. *)
From Coq Require Import String Lia.
From Verif.Model Require Import Bytes Env ApiLevel Utils SigBlock Manifest Result Verify SchemeV1 ApkVerifier.
From Verif.Spec Require Import Encoding ApkLayout Nondet Digests Entries Signer SignerV3 Verified Calls JarSigned AndroidManifest TopLevel.
From Verif.Proofs Require Import BytesFacts EntriesFacts ApkFacts PropFacts SchedFacts TopFacts PlainApkFacts.
From Verif.Props Require Import Stamp SchemeV1 TopLevel.
From Verif.Examples Require Import Toy ToyApk ToyJar.

Lemma notfound_sched E S S' file minSdk maxSdk z vr vr' : verifySigningBlock E S file minSdk maxSdk z = Ret vr -> verifySigningBlock E S' file minSdk maxSdk z = Ret vr' ->
  isNotFound (vr_err vr) = true -> isNotFound (vr_err vr') = true.
Proof.
  intros H H' HN. pose proof H as H0. unfold verifySigningBlock in H, H'. destruct (newSigningBlock file) as [magic|]; [|match type of H' with Ret ?x = _ => assert (vr' = x) as -> by congruence end; match type of H with Ret ?x = _ => assert (vr = x) as -> by congruence end; exact HN].
  apply obind_ret in H as (fr & Fi & H). rewrite Fi in H'. cbn [obind] in H'. destruct fr as [st s|st s].
  { apply obind_ret in H' as (r & _ & H'). match type of H' with Ret ?x = _ => assert (vr' = x) as -> by congruence end. reflexivity. }
  apply obind_ret in H as (res & Fr & H). rewrite Fr in H'. cbn [obind] in H'.
  destruct (Z_lt_le_dec maxSdk 24) as [M|M].
  { assert (G : forall T, pickAndVerify E T 0 file s (en_blocks st) minSdk maxSdk res = Ret ([], setScheme res 1)) by (intros T; unfold pickAndVerify, SupportsSigV2, V7_0_Nougat; destruct (Z.leb_spec 24 maxSdk); [lia|reflexivity]).
    rewrite G in H, H'. cbn [obind] in H, H'.
    assert (F : forall T, fallback E T file s (en_blocks st) minSdk maxSdk [] (setScheme res 1) = Ret ([], setScheme res 1)) by (intros T; unfold fallback; destruct (containsErrors _); reflexivity).
    rewrite F in H, H'. cbn [obind] in H, H'. apply obind_ret in H as (sp & _ & H). apply obind_ret in H' as (sp' & _ & H').
    match type of H' with Ret ?x = _ => assert (vr' = x) as -> by congruence end. match type of H with Ret ?x = _ => assert (vr = x) as -> by congruence end. exact HN. }
  destruct (snd (pickScheme (en_blocks st))) as [b|] eqn:EP.
  - exfalso. apply findSignatureBlocks_ok in Fi as (before & pairs & cd & rec & es & A & -> & En & [Ib Ie [Nb Ne] Ic Ir] & _). destruct (protected_exists _ _ _ _ _ A) as (sections & P).
    assert (U : usable maxSdk es) by (apply (proj1 (pick_some _ _ _ Ib)); congruence).
    assert (isNotFound (vr_err vr) = false); [|congruence]. eapply verifySigningBlock_plain; [|exact U|exact H0]. exists before, pairs, cd, rec. split; [exact A|]. split; [exact En|exact P].
  - destruct (pickScheme (en_blocks st)) as [id ob] eqn:EQ. cbn [snd] in EP. subst ob. assert (id = 1) as ->. { unfold pickScheme in EQ. destruct (zget blockIdSchemeV31 _); [congruence|]. destruct (zget blockIdSchemeV3 _); [congruence|]. destruct (zget blockIdSchemeV2 _); [congruence|]. change 1 with schemeIdV1. congruence. }
    set (r1 := withCore (setScheme res 1) (mkCore (certs (v_core (setScheme res 1))) (signingLineage (v_core (setScheme res 1))) (warnings (v_core (setScheme res 1))) (errors (v_core (setScheme res 1)) ++ [noBlockError]))).
    assert (G : forall T, pickAndVerify E T 0 file s (en_blocks st) minSdk maxSdk res = Ret ([], r1)) by (intros T; unfold pickAndVerify, SupportsSigV2, V7_0_Nougat; destruct (Z.leb_spec 24 maxSdk); [|lia]; rewrite EQ; reflexivity).
    assert (F : forall T, fallback E T file s (en_blocks st) minSdk maxSdk [] r1 = Ret ([], r1)) by (intros T; unfold fallback; destruct (containsErrors _); reflexivity).
    rewrite G in H, H'. cbn [obind] in H, H'. rewrite F in H, H'. cbn [obind] in H, H'. apply obind_ret in H as (sp & _ & H). apply obind_ret in H' as (sp' & _ & H').
    match type of H' with Ret ?x = _ => assert (vr' = x) as -> by congruence end. match type of H with Ret ?x = _ => assert (vr = x) as -> by congruence end. exact HN.
Qed.

(** If verification accepts under one order of map iteration, it accepts under every other for which it returns, with the same scheme
    and the same set of certificate chains (the very same chains if a signing block was used). *)
Theorem C77_verdict_order_independent : forall E S S', hash_sizes_ok E -> sched_ok S -> sched_ok S' -> same_sort S S' -> forall file z minArg maxSdk res res' err,
  accepts E S file z minArg maxSdk res -> verifyWithSdk E S' file (Some z) minArg maxSdk = Ret (res', err) ->
  err = None /\ ar_schemeId res' = ar_schemeId res /\ same_chains (ar_certs res) (ar_certs res') /\ (2 <= ar_schemeId res -> ar_certs res' = ar_certs res).
Proof.
  intros E S S' HE HS HS' Hss file z minArg maxSdk res res' err H H'.
  assert (SC : forall l, same_chains l l). { intros l. split; [reflexivity|]. split; intros x Hx; exists x; split; auto; reflexivity. }
  assert (V' : exists vr', verifySigningBlock E S' file (min_of E z minArg maxSdk) maxSdk z = Ret vr' \/ maxSdk < min_of E z minArg maxSdk).
  { pose proof (verify_unfold E S' file z minArg maxSdk) as U. cbn zeta in U. rewrite H' in U. destruct (Z.ltb_spec maxSdk (min_of E z minArg maxSdk)); [eexists {| vr_res := None; vr_magic := 0; vr_err := None |}; right; assumption|].
    destruct (verifySigningBlock E S' file (min_of E z minArg maxSdk) maxSdk z) as [vr'|]; [exists vr'; left; reflexivity|discriminate]. }
  destruct V' as (vr' & V'). unfold accepts in H. apply verify_cases in H; [|left; reflexivity].
  assert (D : forall r, vcase E S' file z minArg maxSdk r None -> err = None /\ res' = r). { intros r Hc. apply (verify_cases E S') in Hc; [|left; reflexivity]. rewrite H' in Hc. split; congruence. }
  inversion H as [vr b Hvr Hb He [Hm1 Hm2] Hres|vr noBlock id cs cs1 err0 Hvr Hr Hc Hv1 Hs Hm Hres He0]; subst.
  - destruct V' as [V'|V']; [|lia]. destruct (verdict_sched E HE S S' _ _ _ _ _ _ HS HS' Hvr V' He) as (X & r & r' & Q & Q' & Id & C).
    assert (r = b) as -> by congruence. destruct (D (mkARes (v_schemeId r') (certs (v_core r')) (Some r'))) as (-> & ->); [eapply vc_block; eauto|]. cbn [ar_schemeId ar_certs]. rewrite C. repeat split; try assumption; try apply SC; reflexivity.
  - destruct V' as [V'|V']; [|lia]. destruct (C30_order_independent E S S' z (negb noBlock) (min_of E z minArg maxSdk) maxSdk HS HS' Hss) as (I & J). destruct (proj1 I (ex_intro _ _ Hv1)) as (cs1' & Hv1'). pose proof (J _ _ Hv1 Hv1') as HJ.
    assert (HM : vr_magic vr' = vr_magic vr /\ (noBlock = true /\ isNotFound (vr_err vr') = true /\ id = 1 /\ cs = [] \/
       noBlock = false /\ vr_err vr' = None /\ min_of E z minArg maxSdk < 24 /\ exists b, vr_res vr' = Some b /\ id = v_schemeId b /\ cs = certs (v_core b))).
    { assert (G : vr_err vr' = None \/ isNotFound (vr_err vr') = true -> vr_err vr = None \/ isNotFound (vr_err vr) = true -> vr_magic vr' = vr_magic vr).
      { intros G1 G2. pose proof (magic_of _ _ _ _ _ _ _ V' G1). pose proof (magic_of _ _ _ _ _ _ _ Hvr G2). congruence. }
      destruct Hc as [(-> & HN & -> & ->)|(-> & He & Hlt & b & Hb & -> & ->)].
      - pose proof (notfound_sched _ _ _ _ _ _ _ _ _ Hvr V' HN) as HN'. split; [apply G; auto|]. left. auto.
      - destruct (verdict_sched E HE S S' _ _ _ _ _ _ HS HS' Hvr V' He) as (X & r & r' & Q & Q' & Id & C). assert (r = b) as -> by congruence. split; [apply G; auto|]. right. split; [reflexivity|]. split; [exact X|]. split; [exact Hlt|]. exists r'. split; [exact Q'|]. split; congruence. }
    destruct HM as (HM & Hc'). destruct (D (mkARes id (match cs with [] => cs1' | _ => cs end) (vr_res vr'))) as (-> & ->).
    { eapply vc_v1; [exact V'|exact Hr|exact Hc'|exact Hv1'|exact Hs|exact Hm|reflexivity|rewrite HM; exact He0]. }
    cbn [ar_schemeId ar_certs]. split; [reflexivity|]. split; [reflexivity|]. split; [destruct cs; [exact HJ|apply SC]|]. intros H2. destruct cs; [|reflexivity].
    exfalso. destruct Hc as [(_ & _ & -> & _)|(_ & He & _ & b & Hb & -> & HC)]; [lia|].
    assert (V : verifies E S file (min_of E z minArg maxSdk) maxSdk z b) by (exists vr; auto).
    destruct (verifies_block_signed E S _ _ _ _ _ HE HS V) as [(H1 & _)|(_ & _ & Hne & _)]; [unfold scheme in H1; lia|]. apply Hne. unfold chains. congruence.
Qed.
Print Assumptions C77_verdict_order_independent.

Example C77_nonvacuous : sched_ok toy_sched /\ sched_ok rev_sched /\ same_sort toy_sched rev_sched /\
  (exists res, accepts (with_xml jar_env (mani "1" "9" "29", true)) toy_sched plain_file two_signers (-1) 33 res /\ ar_schemeId res = 1 /\ List.length (ar_certs res) = 2%nat /\
     exists res', accepts (with_xml jar_env (mani "1" "9" "29", true)) rev_sched plain_file two_signers (-1) 33 res') /\
  (exists res, accepts (with_xml jar_env (mani "1" "24" "29", true)) toy_sched (toy_file [(id_v2, toy_block [toy_signer2 kA toy_digest []])]) good_jar (-1) 33 res /\ ar_schemeId res = 2 /\
     exists res', accepts (with_xml jar_env (mani "1" "24" "29", true)) rev_sched (toy_file [(id_v2, toy_block [toy_signer2 kA toy_digest []])]) good_jar (-1) 33 res').
Proof.
  split; [exact toy_sched_ok|]. split; [exact rev_sched_ok|]. split; [intros A less l; reflexivity|].
  split; eexists; (split; [unfold accepts; vm_compute; reflexivity|]); (split; [reflexivity|]); [split; [reflexivity|]|]; eexists; unfold accepts; vm_compute; reflexivity.
Qed.
