(** What I/O errors can change in the verification of the signing block. *)
From Coq Require Import String.
From Coq Require Import Lia Permutation.
From Verif.Model Require Import Bytes ApiLevel Env Utils SigBlock Result Signer SchemeV2 SchemeV3 DataSource Digest Frosting SourceStamp Verify Reader.
From Verif.Spec Require Import Encoding Algorithms Nondet Signer SignerV3 Ranges ApkLayout Digests Entries Verified Faults.
From Verif.Proofs Require Import BytesFacts UtilsFacts SigBlockFacts SignerFacts SchemeV2Facts CollectFacts V2BlockFacts LineageFacts SchemeV3Facts V3BlockFacts RangeFacts CoveringFacts IntegrityFacts EntriesFacts VerifyFacts ApkFacts ReaderFacts.

Section Faulty.
  Variables (E : env) (S : sched) (file : bytes) (R : reader).
  Hypothesis U : unreliable file R.

  Lemma eocdR_second n m : 22 <= zlen file -> 0 <= n <= m -> m <= maxUint16 -> forall b i,
    findEocdMaxCommentSizeR R (zlen file) b n = EocdFound i -> findEocdMaxCommentSize file m = EocdFound i.
  Proof.
    intros L N M b i H. unfold findEocdMaxCommentSizeR in H. cbv zeta in H.
    destruct (rd_read R _ _ _) as [buf|] eqn:Q; [|discriminate]. destruct U as [_ Ur]. apply Ur in Q.
    assert (X : findEocdMaxCommentSize file n = EocdFound i) by (unfold findEocdMaxCommentSize; cbv zeta; rewrite Q; exact H).
    rewrite findEocdMax_loop in X by lia. rewrite findEocdMax_loop by lia. eapply eocdLoop_prefix; [exact X|]. lia.
  Qed.
  Lemma findEocdR_found i : findEocdR R (zlen file) = EocdFound i -> findEocd file = EocdFound i.
  Proof.
    unfold findEocdR, eocdRecMinSize. destruct (Z.ltb_spec (zlen file) 22) as [L|L]; [discriminate|]. intro H.
    assert (X : findEocdMaxCommentSize file maxUint16 = EocdFound i).
    { destruct (findEocdMaxCommentSizeR R (zlen file) false 0) as [j| | | |] eqn:Q.
      - inversion H; subst j. eapply eocdR_second; [assumption | | |exact Q]; unfold maxUint16; lia.
      - eapply eocdR_second; [assumption | | |exact H]; unfold maxUint16; lia.
      - eapply eocdR_second; [assumption | | |exact H]; unfold maxUint16; lia.
      - eapply eocdR_second; [assumption | | |exact H]; unfold maxUint16; lia.
      - eapply eocdR_second; [assumption | | |exact H]; unfold maxUint16; lia. }
    rewrite findEocd_scan by lia. unfold eocd_scan. rewrite findEocdMax_loop in X by (unfold maxUint16; lia). exact X.
  Qed.
  Lemma findApkSigningBlockR_found c b o : findApkSigningBlockR R c = SigBlockFound b o -> findApkSigningBlock file c = SigBlockFound b o.
  Proof.
    unfold findApkSigningBlockR, findApkSigningBlock. destruct (_ <? _); [discriminate|]. destruct U as [_ Ur].
    destruct (rd_read R SFooter _ _) as [f|] eqn:Q; [|discriminate]. apply Ur in Q. rewrite Q.
    destruct (_ || _); [discriminate|]. cbv zeta. destruct (_ || _); [discriminate|]. destruct (_ <? _); [discriminate|]. destruct (_ <? _); [discriminate|].
    destruct (rd_read R SBlock _ _) as [f'|] eqn:Q'; [|discriminate]. apply Ur in Q'. rewrite Q'. auto.
  Qed.
  Lemma isZip64R_true o : isZip64R R o = true -> isZip64 file o = true.
  Proof.
    unfold isZip64R, isZip64. cbv zeta. destruct (_ <? _); [discriminate|]. destruct U as [_ Ur]. destruct (rd_read R SZip64 _ _) as [b|] eqn:Q; [|discriminate].
    apply Ur in Q. now rewrite Q.
  Qed.

  Lemma zip64_iff ei : findEocd file = EocdFound ei -> (isZip64 file (ei_eocdOffset ei) = true <-> zip64_file file).
  Proof.
    intro F. destruct ei as [off cd sz rec]. cbn [ei_eocdOffset]. apply findEocd_iff in F as [G L].
    assert (B : off <= zlen file). { destruct G as [G _]. apply eocd_at_fields in G. lia. }
    rewrite isZip64_iff by assumption. split.
    - intro Z. exists off, sz, cd, rec. auto.
    - intros (off' & sz' & cd' & rec' & G' & L' & Z'). destruct G as [G _], G' as [G' _]. pose proof (L _ _ _ _ G'). pose proof (L' _ _ _ _ G). now replace off with off' by lia.
  Qed.

  (** Finding the signing block: the right answer, or "not found". *)
  Lemma find_or maxSdk : ~ zip64_file file \/ (forall o n, rd_read R SZip64 o n = read_at file o n) ->
    findSignatureBlocksR E R (zlen file) maxSdk = Ret (FindErr (mkEnt [] None vres0) None) \/
    findSignatureBlocksR E R (zlen file) maxSdk = findSignatureBlocks E file maxSdk.
  Proof.
    intro Nz. unfold findSignatureBlocksR, findSignatureBlocks. cbv zeta.
    destruct (findEocdR R (zlen file)) as [ei| | | |] eqn:F; try (now left). rewrite (findEocdR_found _ F). pose proof (zip64_iff _ (findEocdR_found _ F)) as Z.
    assert (Zr : isZip64R R (ei_eocdOffset ei) = isZip64 file (ei_eocdOffset ei)).
    { destruct Nz as [Nz|Nz].
      - destruct (isZip64 file (ei_eocdOffset ei)) eqn:Zi; [exfalso; tauto|]. destruct (isZip64R R (ei_eocdOffset ei)) eqn:Zr; [apply isZip64R_true in Zr; congruence | reflexivity].
      - unfold isZip64R, isZip64. cbv zeta. now rewrite Nz. }
    rewrite Zr. destruct (isZip64 file (ei_eocdOffset ei)); [left; reflexivity|].
    destruct (findApkSigningBlockR R (ei_centralDirOffset ei)) as [b o| |] eqn:Fb; try (now left). rewrite (findApkSigningBlockR_found _ _ _ Fb). now right.
  Qed.
  Lemma find_locates maxSdk : locates file R -> findSignatureBlocksR E R (zlen file) maxSdk = findSignatureBlocks E file maxSdk.
  Proof.
    intro L.
    assert (Fe : findEocdR R (zlen file) = findEocd file).
    { unfold findEocdR, findEocd, findEocdMaxCommentSizeR, findEocdMaxCommentSize. cbv zeta. rewrite !(L (SEocd _)) by exact I. reflexivity. }
    assert (Fz : forall o, isZip64R R o = isZip64 file o).
    { intro o. unfold isZip64R, isZip64. cbv zeta. rewrite (L SZip64) by exact I. reflexivity. }
    assert (Fb : forall c, findApkSigningBlockR R c = findApkSigningBlock file c).
    { intro c. unfold findApkSigningBlockR, findApkSigningBlock. destruct (c <? apkSigBlockMinSize); [reflexivity|]. rewrite (L SFooter) by exact I.
      destruct (read_at file (c - 24) 24) as [f|]; [|reflexivity]. cbv zeta. rewrite (L SBlock) by exact I. reflexivity. }
    unfold findSignatureBlocksR, findSignatureBlocks. cbv zeta. rewrite Fe. destruct (findEocd file); try reflexivity. rewrite Fz, Fb. reflexivity.
  Qed.

  Lemma applyFrostingR_frame st s r : applyFrostingR E R st s = Ret r ->
    v_core r = v_core (en_res st) /\ v_extraBlocks r = v_extraBlocks (en_res st) /\ v_extraResult3 r = v_extraResult3 (en_res st).
  Proof.
    unfold applyFrostingR. destruct (en_frosting st); [|intro H; inversion H; subst; auto]. destruct (v_frosting (en_res st)) as [fr|]; [|intro H; inversion H; subst; auto].
    destruct s; [|intro H; inversion H; subst; auto].
    destruct (fr_error fr); [intro H'; inversion H'; subst; auto|]. intro H'. apply obind_ret in H' as (e & _ & H'). inversion H'; subst. auto.
  Qed.

  Lemma weaker_apk at_ a b : weaker (dataSourceApkR R at_ a b) (dataSourceApk file a b).
  Proof.
    unfold weaker, dataSourceApkR, dataSourceApk. cbn [ds_chunkCount ds_length ds_write]. split; [reflexivity|]. split; [reflexivity|]. intros o n.
    destruct (_ || _); [left; reflexivity|]. destruct (_ || _); [left; reflexivity|]. destruct (rd_read R at_ (a + o) n) as [x|] eqn:Q; [|left; reflexivity].
    destruct U as [_ Ur]. apply Ur in Q. right. congruence.
  Qed.

  (** The contents are hashed, or an error is reported. *)
  Lemma integrityR_cases k ei off keys expected r :
    verifyIntegrityR E R k ei off keys expected r = verifyIntegrity E file ei off keys expected r \/
    verifyIntegrityR E R k ei off keys expected r = Ret (addError r "Failed to compute digest(s) of contents", false).
  Proof.
    unfold verifyIntegrityR, verifyIntegrity. cbv zeta. destruct (copyAt _ _ _) as [eocd|]; [|left; reflexivity]. cbn [obind].
    match goal with |- context [computeContentDigestsR E keys ?i ?x] =>
      destruct (contents_or E keys i [dataSourceApk file 0 off; dataSourceApk file (ei_centralDirOffset ei) (ei_eocdOffset ei); dataSourceBytes eocd] x) as [->| ->] end.
    - apply Forall2_cons; [intro; apply weaker_apk|]. apply Forall2_cons; [intro; apply weaker_apk|]. apply Forall2_cons; [intro; apply weaker_refl | apply Forall2_nil].
    - apply Forall2_cons; [apply weaker_apk|]. apply Forall2_cons; [apply weaker_apk|]. apply Forall2_cons; [apply weaker_refl | apply Forall2_nil].
    - right. reflexivity.
    - left. reflexivity.
  Qed.

  Lemma schemeR_cases k s id block minSdk maxSdk res :
    verifySchemeR E S R k s id block minSdk maxSdk res = verifyScheme E S k file s id block minSdk maxSdk res \/
    exists st cds res1, extractCertsScheme E id maxSdk block res = Ret (st, cds, res1) /\
      verifySchemeR E S R k s id block minSdk maxSdk res = Ret (cds, withCore res1 (addError (v_core res1) "Failed to compute digest(s) of contents")).
  Proof.
    unfold verifySchemeR, verifyScheme. destruct (extractCertsScheme _ _ _ _ _) as [[[st cds] res1]|]; [|left; reflexivity]. cbn [obind].
    destruct (certs _); [left; reflexivity|]. destruct cds as [|d cds]; [left; reflexivity|].
    match goal with |- context [verifyIntegrityR E R k ?a ?b ?c ?d ?e] => destruct (integrityR_cases k a b c d e) as [->| ->] end; [left; reflexivity|].
    right. exists st, (d :: cds), res1. split; reflexivity.
  Qed.
End Faulty.

(** The certificates are those found by parsing. *)
Lemma finalizeScheme_certs S st a b res res' : finalizeScheme S st a b res = Ret res' -> certs (v_core res') = certs (v_core res).
Proof.
  destruct st as [|sigs|s31]; cbn [finalizeScheme]; intro H.
  - inversion H; reflexivity.
  - apply obind_ret in H as (c & F & H). apply finalize_grows in F as (F & _). inversion H; subst. exact F.
  - apply obind_ret in H as ([c ex] & F & H). unfold v31FinalizeWith in F. apply obind_ret in F as (c4 & F & Fx). apply finalize_grows in F as (F & _).
    assert (certs c = certs c4) as Y. { destruct (v_extraResult3 _) as [r3|]; [apply obind_ret in Fx as (r3' & _ & Fx)|]; inversion Fx; subst; auto. }
    inversion H; subst. cbn. congruence.
Qed.
Lemma verifyScheme_certs E S k file s id block a b res cds res' : verifyScheme E S k file s id block a b res = Ret (cds, res') ->
  exists st cds0 res1, extractCertsScheme E id b block res = Ret (st, cds0, res1) /\ certs (v_core res') = certs (v_core res1).
Proof.
  unfold verifyScheme. intro H. apply obind_ret in H as ([[st cds0] res1] & X & H). exists st, cds0, res1. split; [assumption|].
  destruct (certs (v_core res1)) as [|x cx] eqn:Cc; [inversion H; subst; cbn; congruence|]. destruct cds0; [inversion H; subst; cbn; congruence|].
  apply obind_ret in H as ([c g] & V & H). apply integrity_grows in V as (V & _).
  destruct g; cbn [negb] in H; [|inversion H; subst; cbn; congruence]. apply obind_ret in H as (r3 & F & H). apply finalizeScheme_certs in F. inversion H; subst. cbn in F. congruence.
Qed.
Lemma extract_v3_certs E maxSdk block res res0 st cds r st0 cds0 r0 : v_core res = v_core res0 ->
  extractCertsScheme E schemeIdV3 maxSdk block res = Ret (st, cds, r) -> extractCertsScheme E schemeIdV3 maxSdk block res0 = Ret (st0, cds0, r0) -> certs (v_core r) = certs (v_core r0).
Proof.
  unfold extractCertsScheme. change (schemeIdV3 =? schemeIdV31) with false. change (schemeIdV3 =? schemeIdV3) with true. cbv iota. intros Q H H0. rewrite <- Q in H0.
  apply obind_ret in H as ([[sg c] k] & X & H), H0 as ([[sg0 c0] k0] & X0 & H0). rewrite X in X0. inversion X0; subst. inversion H; subst. inversion H0; subst. reflexivity.
Qed.
Lemma extract_v31_trace E maxSdk block res st cds r is31 : extractCertsScheme E schemeIdV31 maxSdk block res = Ret (st, cds, r) ->
  v3_block E maxSdk 0 block is31 -> certs (v_core r) = certs (v_core res) ++ map chain3 is31 /\ signingLineage (v_core r) = signingLineage (v_core res).
Proof.
  unfold extractCertsScheme. change (schemeIdV31 =? schemeIdV31) with true. cbv iota. intros H B. apply obind_ret in H as ([[[st1 cds1] c1] extra] & Pa & H1).
  unfold v31ParseSigners in Pa. apply obind_ret in Pa as ([[sigs31 cds31] c31] & P31 & Pa).
  pose proof (v3ParseSigners_iff E (mkV3Cfg true maxSdk 0) _ _ _ _ _ (is_int32_rot _ rot0) P31) as [_ T]. cbn [cfg_maxSdk rotationMin] in T.
  destruct (T is31 B) as (-> & _ & w & Q).
  assert (Cs : certs c31 = certs (v_core res) ++ map chain3 is31 /\ signingLineage c31 = signingLineage (v_core res)) by (rewrite Q; cbn; auto).
  destruct (zget blockIdSchemeV3 (v_extraBlocks res)) as [b3|].
  - apply obind_ret in Pa as ([[sigs3 cds3] r3] & _ & Pa). inversion Pa; subst. inversion H1; subst. cbn [v_core]. tauto.
  - inversion Pa; subst. inversion H1; subst. cbn [v_core addError certs signingLineage]. tauto.
Qed.
Lemma extract_frame E id maxSdk block res st cds r : extractCertsScheme E id maxSdk block res = Ret (st, cds, r) ->
  v_schemeId r = v_schemeId res /\ v_extraBlocks r = v_extraBlocks res.
Proof.
  unfold extractCertsScheme. destruct (id =? schemeIdV31).
  - intro H1. apply obind_ret in H1 as ([[[? ?] ?] ?] & _ & H1). inversion H1; subst. cbn. auto.
  - destruct (id =? schemeIdV3); intro H1.
    + apply obind_ret in H1 as ([[? ?] ?] & _ & H1). inversion H1; subst. cbn. auto.
    + apply obind_ret in H1 as ([? ?] & _ & H1). inversion H1; subst. cbn. auto.
Qed.
