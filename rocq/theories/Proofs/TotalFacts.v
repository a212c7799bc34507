(** Honestly signed files: the run ends (no panic); agreement of ExtractCerts with Verify. *)
From Coq Require Import String.
From Coq Require Import Lia Permutation.
From Verif.Model Require Import Bytes ApiLevel Env Utils SigBlock Result Signer SchemeV2 SchemeV3 DataSource Digest Frosting SourceStamp Verify.
From Verif.Spec Require Import Encoding Algorithms Nondet Signer SignerV3 Ranges ApkLayout Digests Entries Verified.
From Verif.Proofs Require Import BytesFacts UtilsFacts SigBlockFacts SignerFacts SchemeV2Facts CollectFacts V2BlockFacts LineageFacts SchemeV3Facts V3BlockFacts RangeFacts CoveringFacts IntegrityFacts EntriesFacts VerifyFacts ApkFacts.

Section Total.
  Variables (E : env) (S : sched).
  Hypothesis HE : hash_sizes_ok E.
  Hypothesis HS : sched_ok S.

  Lemma foldEntries_total maxSdk es : ~ In id_frosting (map fst es) -> forall st, en_frosting st = None ->
    exists st', foldEntries E maxSdk es st = Ret (Some st') /\ en_frosting st' = None.
  Proof.
    induction es as [|[id p] es IH]; intros N st Hf; [exists st; auto|]. cbn [foldEntries map fst] in *.
    assert (Nid : id <> id_frosting) by (intro; apply N; now left). assert (N' : ~ In id_frosting (map fst es)) by (intro; apply N; now right).
    assert (exists st1, handleEntry E maxSdk id p false st = Ret (Some st1) /\ en_frosting st1 = None) as (st1 & -> & H1).
    { unfold handleEntry. change blockIdFrosting with id_frosting. destruct (_ || _); [eexists; split; [reflexivity | exact Hf]|].
      destruct (id =? blockIdVerityPadding); [eexists; split; [reflexivity | exact Hf]|].
      destruct (Z.eqb_spec id id_frosting); [contradiction|].
      destruct (id =? blockIdSourceStampV2); eexists; (split; [reflexivity | exact Hf]). }
    cbn [obind]. now apply IH.
  Qed.

  Lemma run_total file es sections minSdk maxSdk z :
    apk_with file es sections -> ~ In id_frosting (map fst es) -> ~ In id_stamp (map fst es) ->
    (forall before pairs cd rec st, apk file before pairs cd rec -> protected before cd rec sections -> entries_inv maxSdk es st ->
       exists cds res', pickAndVerify E S 0 file (sblock_of before pairs cd rec) (en_blocks st) minSdk maxSdk (en_res st) = Ret (cds, res') /\ errors (v_core res') = []) ->
    exists vr, verifySigningBlock E S file minSdk maxSdk z = Ret vr.
  Proof.
    intros (before & pairs & cd & rec & A & En & P) Nf Ns H. unfold verifySigningBlock.
    destruct (newSigningBlock file) as [magic|]; [|eauto].
    rewrite (findSignatureBlocks_apk E file maxSdk _ _ _ _ A).
    destruct (foldEntries_total maxSdk es Nf (mkEnt [] None vres0) eq_refl) as (st & FE & Hf).
    destruct (En) as (Ep & F & Bl). assert (Lo : entriesLoop E (List.length pairs) maxSdk pairs (mkEnt [] None vres0) = Ret (st, true)).
    { subst pairs. rewrite entriesLoop_enc by (assumption || lia). rewrite FE. reflexivity. }
    pose proof (entries_spec E maxSdk pairs st true Lo) as [_ I]. destruct (I es En) as [_ Inv]. clear I.
    rewrite Lo. cbn [obind]. unfold applyFrosting. rewrite Hf. cbn [obind].
    destruct (H _ _ _ _ _ A P Inv) as (cds & res' & -> & Er). cbn [obind]. rewrite fallback_ok by assumption. cbn [obind].
    assert (Zs : zget blockIdSourceStampV2 (en_blocks st) = None).
    { destruct (zget blockIdSourceStampV2 (en_blocks st)) as [b|] eqn:Q; [|reflexivity]. exfalso. apply (ei_blocks _ _ _ Inv) in Q as [_ Q]. apply Ns. apply last_entry_in. eauto. }
    rewrite Zs. unfold verifySourceV2Stamp. destruct (sget sourceStampZipEntryName (z_map z)); cbn [obind]; eauto.
  Qed.

  Theorem total2 file es sections minSdk maxSdk z is : apk_with file es sections -> ~ In id_frosting (map fst es) -> ~ In id_stamp (map fst es) ->
    v2_verified E maxSdk es sections is -> ~ v31_in maxSdk es -> ~ v3_in maxSdk es -> exists vr, verifySigningBlock E S file minSdk maxSdk z = Ret vr.
  Proof.
    intros Ap Nf Ns V N N3. apply (run_total file es sections); try assumption. intros before pairs cd rec st A P Inv. destruct Inv as [Ib Ie _ Ic _].
    destruct (total_2 E S file before pairs cd rec sections es minSdk maxSdk HE HS A P (en_blocks st) Ib _ Ie (en_res st) Ic eq_refl is N N3 V) as (cds & res' & Pv).
    exists cds, res'. split; [assumption|]. assert (I : v2_in maxSdk es) by (destruct V as (M & _ & b & L & _); split; [assumption | apply last_entry_in; eauto]).
    apply (first_2 E S file before pairs cd rec sections es minSdk maxSdk HE HS A P (en_blocks st) Ib _ Ie (en_res st) Ic eq_refl) in Pv as (_ & _ & Cm); try assumption. eauto.
  Qed.
  Theorem total3 file es sections minSdk maxSdk z is lin : apk_with file es sections -> ~ In id_frosting (map fst es) -> ~ In id_stamp (map fst es) ->
    v3_verified E minSdk maxSdk es sections is lin -> ~ v31_in maxSdk es -> exists vr, verifySigningBlock E S file minSdk maxSdk z = Ret vr.
  Proof.
    intros Ap Nf Ns V N. apply (run_total file es sections); try assumption. intros before pairs cd rec st A P Inv. destruct Inv as [Ib Ie _ Ic _].
    destruct (total_3 E S file before pairs cd rec sections es minSdk maxSdk HE HS A P (en_blocks st) Ib (en_res st) Ic is lin N V) as (cds & res' & Pv).
    exists cds, res'. split; [assumption|]. assert (I : v3_in maxSdk es) by (destruct V as (M & _ & b & L & _); split; [assumption | apply last_entry_in; eauto]).
    apply (first_3 E S file before pairs cd rec sections es minSdk maxSdk HE HS A P (en_blocks st) Ib _ Ie (en_res st) Ic eq_refl) in Pv as (_ & _ & Cm); try assumption. eauto.
  Qed.
  Theorem total31 file es sections minSdk maxSdk z is31 lin is3 : apk_with file es sections -> ~ In id_frosting (map fst es) -> ~ In id_stamp (map fst es) ->
    v31_verified E minSdk maxSdk es sections is31 lin is3 -> exists vr, verifySigningBlock E S file minSdk maxSdk z = Ret vr.
  Proof.
    intros Ap Nf Ns V. apply (run_total file es sections); try assumption. intros before pairs cd rec st A P Inv. destruct Inv as [Ib Ie _ Ic _].
    destruct (total_31 E S file before pairs cd rec sections es minSdk maxSdk HE HS A P (en_blocks st) Ib _ Ie (en_res st) Ic eq_refl is31 lin is3 V) as (cds & res' & Pv).
    exists cds, res'. split; [assumption|]. assert (I : v31_in maxSdk es) by (destruct V as (M & _ & _ & b & ? & ? & ? & L & _); split; [assumption | apply last_entry_in; eauto]).
    apply (first_31 E S file before pairs cd rec sections es minSdk maxSdk HE HS A P (en_blocks st) Ib _ Ie (en_res st) Ic eq_refl) in Pv as (_ & _ & Cm); try assumption. eauto.
  Qed.

  (** ExtractCerts *)
  Lemma extract_same id maxSdk b r r' : v_core r = v_core r' -> v_extraBlocks r = v_extraBlocks r' ->
    forall st cds r1, extractCertsScheme E id maxSdk b r = Ret (st, cds, r1) -> exists r1', extractCertsScheme E id maxSdk b r' = Ret (st, cds, r1') /\ v_core r1' = v_core r1.
  Proof.
    intros C X st cds r1. unfold extractCertsScheme. rewrite <- C, <- X. destruct (id =? schemeIdV31); [|destruct (id =? schemeIdV3)].
    - intro H. apply obind_ret in H as ([[[a1 a2] a3] a4] & Q & H). rewrite Q. cbn [obind]. inversion H; subst. eexists. split; reflexivity.
    - intro H. apply obind_ret in H as ([[a1 a2] a3] & Q & H). rewrite Q. cbn [obind]. inversion H; subst. eexists. split; reflexivity.
    - intro H. apply obind_ret in H as ([a1 a2] & Q & H). rewrite Q. cbn [obind]. inversion H; subst. eexists. split; reflexivity.
  Qed.
  Lemma verify_extract k file s id b minSdk maxSdk r cds r' : verifyScheme E S k file s id b minSdk maxSdk r = Ret (cds, r') -> errors (v_core r') = [] ->
    exists st cds0 r1, extractCertsScheme E id maxSdk b r = Ret (st, cds0, r1) /\ errors (v_core r1) = [] /\ certs (v_core r1) = certs (v_core r').
  Proof.
    unfold verifyScheme. intros H Er. apply obind_ret in H as ([[st cds0] r1] & Ex & H). exists st, cds0, r1. split; [exact Ex|].
    assert (G : grows (v_core r1) (v_core r') \/ exists c c', grows (v_core r1) c /\ v_core r' = mkCore (certs c) (signingLineage c) (warnings c ++ warnings c') (errors c ++ errors c')).
    { destruct (certs (v_core r1)) eqn:Cc; [inversion H; subst; left; apply grows_add|].
      destruct cds0; [inversion H; subst; left; apply grows_add|].
      apply obind_ret in H as ([c good] & V & H). apply integrity_grows in V. destruct good; cbn [negb] in H; [|inversion H; subst; left; exact V].
      apply obind_ret in H as (r3 & Fi & H). inversion H; subst. clear H. destruct st; cbn [finalizeScheme] in Fi.
      - inversion Fi; subst. left. exact V.
      - apply obind_ret in Fi as (c2 & Fi & H). inversion H; subst. left. apply finalize_grows in Fi. eapply grows_trans; eassumption.
      - apply obind_ret in Fi as ([c2 ex] & Fi & H). inversion H; subst. unfold v31FinalizeWith in Fi. apply obind_ret in Fi as (c4 & Fi & Fx). apply finalize_grows in Fi.
        pose proof (grows_trans _ _ _ V Fi) as G. destruct (v_extraResult3 (withCore r1 c)) as [x|].
        + apply obind_ret in Fx as (x' & _ & Fx). inversion Fx; subst. right. exists c4, x'. auto.
        + inversion Fx; subst. left. exact G. }
    destruct G as [G|(c & c' & G & Q)].
    - split; [now apply (grows_nil _ _ G)|]. destruct G as (G & _). now symmetry.
    - rewrite Q in Er. cbn in Er. apply app_eq_nil in Er as [Er _]. split; [now apply (grows_nil _ _ G)|]. rewrite Q. cbn. destruct G as (G & _). now symmetry.
  Qed.

  Lemma verify_certs k file s id b minSdk maxSdk r cds r' : verifyScheme E S k file s id b minSdk maxSdk r = Ret (cds, r') ->
    exists st cds0 r1, extractCertsScheme E id maxSdk b r = Ret (st, cds0, r1) /\ certs (v_core r1) = certs (v_core r').
  Proof.
    unfold verifyScheme. intros H. apply obind_ret in H as ([[st cds0] r1] & Ex & H). exists st, cds0, r1. split; [exact Ex|].
    destruct (certs (v_core r1)) eqn:Cc; [inversion H; subst; cbn; symmetry; exact Cc|]. rewrite <- Cc.
    destruct cds0; [inversion H; subst; reflexivity|].
    apply obind_ret in H as ([c good] & V & H). apply integrity_grows in V. destruct V as (V & _). destruct good; cbn [negb] in H; [|inversion H; subst; symmetry; exact V].
    apply obind_ret in H as (r3 & Fi & H). inversion H; subst. clear H. destruct st; cbn [finalizeScheme] in Fi.
    - inversion Fi; subst. symmetry. exact V.
    - apply obind_ret in Fi as (c2 & Fi & H). inversion H; subst. apply finalize_grows in Fi as (Fi & _). cbn in *. congruence.
    - apply obind_ret in Fi as ([c2 ex] & Fi & H). inversion H; subst. unfold v31FinalizeWith in Fi. apply obind_ret in Fi as (c4 & Fi & Fx). apply finalize_grows in Fi as (Fi & _).
      destruct (v_extraResult3 (withCore r1 c)) as [x|].
      + apply obind_ret in Fx as (x' & _ & Fx). inversion Fx; subst. cbn in *. congruence.
      + inversion Fx; subst. cbn in *. congruence.
  Qed.
  (** In the fallback the chains are those ExtractCerts returns, followed by those of the v2 signers. *)
  Theorem extract_fallback file es sections minSdk maxSdk z vr res :
    verifySigningBlock E S file minSdk maxSdk z = Ret vr -> vr_err vr = None -> vr_res vr = Some res ->
    apk_with file es sections -> v_schemeId res = 2 -> v3_in maxSdk es ->
    exists cs e is, extractCertsReader E file minSdk maxSdk = Ret (cs, e) /\ v2_verified E maxSdk es sections is /\ certs (v_core res) = cs ++ map si_chain is.
  Proof.
    unfold verifySigningBlock, extractCertsReader. destruct (newSigningBlock file) as [magic|]; [|intro H; inversion H; subst; discriminate].
    intro H. apply obind_ret in H as (fr & Fi & H). destruct fr as [st s|st s]; [apply obind_ret in H as (? & _ & H); inversion H; subst; discriminate|].
    rewrite Fi. cbn [obind].
    apply findSignatureBlocks_ok in Fi as (before & pairs & cd & rec & es' & A & -> & En & [Ib Ie [Nb Ne] Ic Ir] & _).
    destruct (protected_exists _ _ _ _ _ A) as (sections' & P).
    apply obind_ret in H as (res0 & Fr & H). apply applyFrosting_frame in Fr as (Fc & Fx & _).
    apply obind_ret in H as ([cds res1] & Pv & H). apply obind_ret in H as ([cds2 res2] & Fb & H). apply obind_ret in H as (stamp & _ & H).
    inversion H; subst. clear H. cbn [vr_err vr_res]. intros Er Rs (b' & p' & c' & r' & A' & En' & P') Id V3.
    destruct (apk_unique _ _ _ _ _ _ _ _ _ A A') as (<- & <- & <- & <-). rewrite (entries_unique _ _ _ En' En) in *. clear A' En' P sections'. rename P' into P.
    apply getLastError_none in Er. cbn [v_core] in Er. inversion Rs; subst res. clear Rs. cbn [v_schemeId v_core] in *.
    assert (Rc : quiet core0 (v_core res0)) by (now rewrite Fc).
    assert (M28 : 28 <= maxSdk) by apply V3.
    destruct (whole E S file before pairs cd rec sections es' minSdk maxSdk HE HS A P (en_blocks st) Ib _ Ie res0 Rc Fx Nb _ _ _ _ Pv Fb Er)
      as [[-> ->]|(_ & N31 & _ & _ & Er1 & is & w & Hv & Hc & _)].
    { exfalso. assert (D : v31_in maxSdk es' \/ ~ v31_in maxSdk es').
      { unfold v31_in. destruct (Z_le_gt_dec 33 maxSdk); [|right; lia]. destruct (in_dec Z.eq_dec id_v31 (map fst es')); [left; auto | right; tauto]. }
      rewrite run_unfold in Pv by lia. destruct D as [D|D].
      - destruct (pick_31 es' maxSdk (en_blocks st) Ib D) as (b & Pk & _). rewrite Pk in Pv. apply verifyScheme_frame in Pv as (X & _). cbn in X. unfold schemeIdV31 in X. lia.
      - destruct (pick_3 es' maxSdk (en_blocks st) Ib D V3) as (b & Pk & _). rewrite Pk in Pv. apply verifyScheme_frame in Pv as (X & _). cbn in X. unfold schemeIdV3 in X. lia. }
    destruct (pick_3 es' maxSdk (en_blocks st) Ib N31 V3) as (b & Pk & _).
    rewrite run_unfold in Pv by lia. rewrite Pk in *.
    apply verify_certs in Pv as (sc & cds0 & r1 & Ex & Hk).
    destruct (extract_same schemeIdV3 maxSdk b (setScheme res0 schemeIdV3) (setScheme (en_res st) schemeIdV3) Fc Fx _ _ _ Ex) as (r1' & -> & Q). cbn [obind].
    rewrite Q, Hk. eexists _, _, is. split; [reflexivity|]. split; [exact Hv|exact Hc].
  Qed.

  Theorem extract_agrees file minSdk maxSdk z vr res :
    verifySigningBlock E S file minSdk maxSdk z = Ret vr -> vr_err vr = None -> vr_res vr = Some res ->
    24 <= maxSdk ->
    (exists e s, apk_with file e s /\ (v_schemeId res = 2 -> ~ v3_in maxSdk e)) ->
    extractCertsReader E file minSdk maxSdk = Ret (certs (v_core res), None).
  Proof.
    unfold verifySigningBlock, extractCertsReader. destruct (newSigningBlock file) as [magic|]; [|intro H; inversion H; subst; discriminate].
    intro H. apply obind_ret in H as (fr & Fi & H). destruct fr as [st s|st s]; [apply obind_ret in H as (? & _ & H); inversion H; subst; discriminate|].
    rewrite Fi. cbn [obind].
    apply findSignatureBlocks_ok in Fi as (before & pairs & cd & rec & es & A & -> & En & [Ib Ie [Nb Ne] Ic Ir] & _).
    destruct (protected_exists _ _ _ _ _ A) as (sections & P).
    apply obind_ret in H as (res0 & Fr & H). apply applyFrosting_frame in Fr as (Fc & Fx & _).
    apply obind_ret in H as ([cds res1] & Pv & H). apply obind_ret in H as ([cds2 res2] & Fb & H). apply obind_ret in H as (stamp & _ & H).
    inversion H; subst. clear H. cbn [vr_err vr_res]. intros Er Rs M (e & sx & (b' & p' & c' & r' & A' & En' & _) & NF).
    destruct (apk_unique _ _ _ _ _ _ _ _ _ A A') as (<- & <- & <- & <-). rewrite (entries_unique _ _ _ En' En) in NF. clear A' En' e sx.
    apply getLastError_none in Er. cbn [v_core] in Er. inversion Rs; subst res. clear Rs. cbn [v_schemeId v_core] in *.
    assert (Rc : quiet core0 (v_core res0)) by (now rewrite Fc).
    destruct (whole E S file before pairs cd rec sections es minSdk maxSdk HE HS A P (en_blocks st) Ib _ Ie res0 Rc Fx Nb _ _ _ _ Pv Fb Er)
      as [[-> ->]|(Id & N31 & V3 & _)]; [|exfalso; now apply NF].
    rewrite run_unfold in Pv by assumption. destruct (pickScheme (en_blocks st)) as [id [b|]].
    2:{ exfalso. inversion Pv; subst. cbn in Er. apply app_eq_nil in Er as [_ Er]. discriminate. }
    apply verify_extract in Pv as (sc & cds0 & r1 & Ex & Er1 & Hc); [|assumption].
    destruct (extract_same id maxSdk b (setScheme res0 id) (setScheme (en_res st) id) Fc Fx _ _ _ Ex) as (r1' & -> & Q). cbn [obind].
    rewrite Q, Hc. do 2 f_equal. now apply getLastError_none.
  Qed.
End Total.
