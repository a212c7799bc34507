(** A usable signature block is never reported as "not found". *)
From Coq Require Import String.
From Coq Require Import Lia.
From Verif.Model Require Import Bytes ApiLevel Env Utils SigBlock Result Signer SchemeV2 SchemeV3 DataSource Digest Frosting SourceStamp Verify ApkVerifier.
From Verif.Spec Require Import Encoding Nondet Signer SignerV3 ApkLayout Digests Entries Verified TopLevel.
From Verif.Proofs Require Import BytesFacts SigBlockFacts EntriesFacts VerifyFacts ApkFacts PlainFacts.

Lemma pick_some maxSdk es blocks : (forall id p, zget id blocks = Some p <-> used_at maxSdk id /\ last_entry es id p) ->
  snd (pickScheme blocks) <> None <-> usable maxSdk es.
Proof.
  intros Bl. destruct (in_cases maxSdk es) as (D31 & D3 & D2). unfold usable. split.
  - intros H. destruct D31 as [H31|N31]; [tauto|]. destruct D3 as [H3|N3]; [tauto|]. destruct D2 as [H2|N2]; [tauto|].
    rewrite (pick_1 es maxSdk blocks Bl N31 N3 N2) in H. destruct (H eq_refl).
  - intros H. destruct D31 as [H31|N31].
    + destruct (pick_31 es maxSdk blocks Bl H31) as (b & -> & _). discriminate.
    + destruct D3 as [H3|N3].
      * destruct (pick_3 es maxSdk blocks Bl N31 H3) as (b & -> & _). discriminate.
      * destruct H as [H2|[H|H]]; [|contradiction|contradiction]. destruct (pick_2 es maxSdk blocks Bl N31 N3 H2) as (b & -> & _). discriminate.
Qed.
Lemma usable_24 maxSdk es : usable maxSdk es -> 24 <= maxSdk.
Proof. unfold usable, v2_in, v3_in, v31_in. lia. Qed.

Lemma plain_last c : plain c -> isNotFound (getLastError c) = false.
Proof.
  intros H. unfold getLastError. destruct (errors c) as [|e l] eqn:He; [reflexivity|]. unfold isNotFound.
  match goal with |- context [List.last ?a ?b] => assert (Hin : In (List.last a b) a) end.
  { clear. generalize e at 2 as d. revert e. induction l as [|x l IH]; intros e d; [left; reflexivity|]. right. exact (IH x d). }
  destruct (List.last (e :: l) e) as [m|m]; [reflexivity|]. rewrite <- He in Hin. exfalso. exact (H _ Hin).
Qed.

Section Top.
  Variables (E : env) (S : sched).
  Lemma verifySigningBlock_plain file es sections minSdk maxSdk z vr : apk_with file es sections -> usable maxSdk es ->
    verifySigningBlock E S file minSdk maxSdk z = Ret vr -> isNotFound (vr_err vr) = false.
  Proof.
    intros (before & pairs & cd & rec & A & En & P) U. pose proof (usable_24 _ _ U) as M.
    assert (Mb : SupportsSigV2 maxSdk = true) by (unfold SupportsSigV2, V7_0_Nougat; apply Z.leb_le; exact M).
    unfold verifySigningBlock. destruct (newSigningBlock file) as [magic|]; [|intros H; match type of H with Ret ?x = _ => assert (vr = x) as -> by congruence end; reflexivity].
    rewrite (findSignatureBlocks_apk E file maxSdk _ _ _ _ A). intro H. apply obind_ret in H as (fr & Fi & H).
    apply obind_ret in Fi as ([st ok] & Lo & Fi). destruct (entries_spec E maxSdk pairs st ok Lo) as [Ok In].
    destruct (In es En) as [_ [Ib Ie [Nb Ne] Ic (_ & Ix & _)]]. assert (ok = true) as -> by (apply Ok; eauto). inversion Fi; subst fr. clear Fi.
    apply obind_ret in H as (res & Fr & H). apply applyFrosting_frame in Fr as (Fc & Fx & Fr3).
    assert (Pr : plain_res res). { split; [rewrite Fc; intros m C; destruct Ic as (w & Hw); rewrite Hw in C; destruct C|]. rewrite Fr3, Ix. exact I. }
    apply obind_ret in H as ([cds res1] & Pv & H). pose proof (proj2 (pick_some _ _ _ Ib) U) as Pk.
    pose proof (post_ret _ _ _ (pickAndVerify_plain E S _ _ _ _ _ _ _ Mb Pk Pr) Pv) as P1. cbn [snd] in P1.
    apply obind_ret in H as ([cds2 res2] & Fb & H). apply obind_ret in H as (stamp & _ & H).
    match type of H with Ret ?x = _ => assert (vr = x) as -> by congruence end. cbn [vr_err v_core]. apply plain_last.
    unfold fallback in Fb.
    match type of Fb with (if ?b then _ else _) = _ => destruct b eqn:Hb end; [|assert (res2 = res1) as -> by congruence; apply P1].
    assert (plain_res res2); [|apply H0].
    refine (post_ret _ _ _ (pickAndVerify_plain E S 1 _ _ _ _ _ _ Mb _ _) Fb).
    - unfold pickScheme. rewrite !zget_zdel by exact Nb.
      change (blockIdSchemeV31 =? blockIdSchemeV3) with false. change (blockIdSchemeV2 =? blockIdSchemeV3) with false.
      destruct (zget blockIdSchemeV31 (en_blocks st)); [discriminate|]. rewrite Z.eqb_refl.
      destruct (zget blockIdSchemeV2 (en_blocks st)); [discriminate|]. rewrite andb_false_r in Hb. discriminate.
    - split; [apply plain_none|apply P1].
  Qed.

  Lemma extractCertsReader_block file es sections minSdk maxSdk cs err : apk_with file es sections -> usable maxSdk es ->
    extractCertsReader E file minSdk maxSdk = Ret (cs, err) -> isNotFound err = false.
  Proof.
    intros (before & pairs & cd & rec & A & En & P) U.
    unfold extractCertsReader. destruct (newSigningBlock file) as [magic|]; [|intros H; assert (err = Some (Err "APK file is too short")) as -> by congruence; reflexivity].
    rewrite (findSignatureBlocks_apk E file maxSdk _ _ _ _ A). intro H. apply obind_ret in H as (fr & Fi & H).
    apply obind_ret in Fi as ([st ok] & Lo & Fi). destruct (entries_spec E maxSdk pairs st ok Lo) as [Ok In].
    destruct (In es En) as [_ [Ib Ie [Nb Ne] Ic (_ & Ix & _)]]. assert (ok = true) as -> by (apply Ok; eauto). inversion Fi; subst fr. clear Fi.
    pose proof (proj2 (pick_some _ _ _ Ib) U) as Pk. destruct (pickScheme (en_blocks st)) as [id [b|]]; [|destruct Pk; reflexivity].
    apply obind_ret in H as ([[st' cds] res] & Ex & H). assert (err = getLastError (v_core res)) as -> by congruence. apply plain_last.
    assert (Pr : plain_res (setScheme (en_res st) id)). { split; cbn [v_core v_extraResult3 setScheme]; [intros m C; destruct Ic as (w & Hw); rewrite Hw in C; destruct C|rewrite Ix; exact I]. }
    exact (proj1 (post_ret _ _ _ (extractCertsScheme_plain E _ _ _ _ Pr) Ex)).
  Qed.

  (** without a usable block *)
  Lemma extractCertsReader_none file minSdk maxSdk cs err : extractCertsReader E file minSdk maxSdk = Ret (cs, err) -> isNotFound err = true ->
    cs = [] /\ ~ exists es sections, apk_with file es sections /\ usable maxSdk es.
  Proof.
    intros H Hn. split; [|intros (es & sections & Ap & U); rewrite (extractCertsReader_block _ _ _ _ _ _ _ Ap U H) in Hn; discriminate].
    unfold extractCertsReader in H. destruct (newSigningBlock file); [|congruence].
    apply obind_ret in H as (fr & Fi & H). destruct fr as [st s|st s]; [congruence|].
    destruct (findSignatureBlocks_ok _ _ _ _ _ Fi) as (before & pairs & cd & rec & es & A & -> & En & [Ib Ie [Nb Ne] Ic Ir] & _).
    pose proof (pick_some _ _ _ Ib) as Pk. destruct (pickScheme (en_blocks st)) as [id [b|]]; [|congruence].
    exfalso. destruct (protected_exists _ _ _ _ _ A) as (sections & P).
    apply obind_ret in H as ([[st' cds] res] & Ex & H). assert (err = getLastError (v_core res)) as -> by congruence. 
    rewrite plain_last in Hn; [discriminate|].
    assert (Pr : plain_res (setScheme (en_res st) id)). { split; cbn [v_core v_extraResult3 setScheme]; [intros m C; destruct Ic as (w & Hw); rewrite Hw in C; destruct C|rewrite (proj1 (proj2 Ir)); exact I]. }
    exact (proj1 (post_ret _ _ _ (extractCertsScheme_plain E _ _ _ _ Pr) Ex)).
  Qed.
End Top.

(** running the code shows that a block is there *)
Lemma usable_by_running E file maxSdk st s b : findSignatureBlocks E file maxSdk = Ret (FindOk st s) -> snd (pickScheme (en_blocks st)) = Some b ->
  exists es sections, apk_with file es sections /\ usable maxSdk es.
Proof.
  intros Fi Pk. apply findSignatureBlocks_ok in Fi as (before & pairs & cd & rec & es & A & -> & En & [Ib Ie [Nb Ne] Ic Ir] & _).
  destruct (protected_exists _ _ _ _ _ A) as (sections & P). exists es, sections. split; [exists before, pairs, cd, rec; auto|].
  apply (pick_some maxSdk es _ Ib). congruence.
Qed.
