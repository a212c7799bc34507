(** The maximum SDK level matters only through the steps. *)
From Coq Require Import String Lia ZArith List.
From Verif.Model Require Import Bytes ApiLevel Env Utils SigBlock Result Signer SchemeV2 SchemeV3 SourceStamp Verify Manifest SchemeV1 ApkVerifier.
From Verif.Spec Require Import Encoding ApkLayout Entries Verified Levels.
From Verif.Proofs Require Import BytesFacts SigBlockFacts EntriesFacts ApkFacts LevelFacts.

Section V1.
  Variable E : env.
  Variable S : sched.
  Variables minSdk a b : Z.
  Hypothesis H : between_same max_steps a b.
  Ltac step := cbn; tauto.

  Lemma digests_max e s : getDigestsToVerify E e s minSdk a = getDigestsToVerify E e s minSdk b.
  Proof. unfold getDigestsToVerify. now rewrite (same_leb _ _ _ 18 H) by step. Qed.
  Lemma entry_max e s v : verifyManifestEntry E e s minSdk a v = verifyManifestEntry E e s minSdk b v.
  Proof. unfold verifyManifestEntry. now rewrite digests_max. Qed.
  Lemma signer_max sig i : verifySigner E S sig i a = verifySigner E S sig i b.
  Proof. unfold verifySigner, V7_0_Nougat. now rewrite (same_leb _ _ _ 24 H) by step. Qed.
  Lemma signers_max sig l : forall f, signersLoop E S sig l a f = signersLoop E S sig l b f.
  Proof.
    induction l as [|i l IH]; intro f; [reflexivity|]. cbn [signersLoop]. rewrite signer_max. apply obind_ext. intros [ | | ] _; auto.
  Qed.
  Lemma sig_max sig : SchemeV1.verifySignature E S sig minSdk a = SchemeV1.verifySignature E S sig minSdk b.
  Proof. unfold SchemeV1.verifySignature. destruct (p7_signers _); [reflexivity|]. now rewrite signers_max. Qed.
  Lemma entriesCheck_max man st l : forall err, entriesCheck E man st minSdk a l err = entriesCheck E man st minSdk b l err.
  Proof.
    induction l as [|[n t] l IH]; intro err; [reflexivity|]. cbn [entriesCheck]. rewrite entry_max. apply obind_ext. intros [e|] _; [reflexivity | apply IH].
  Qed.
  Lemma file_max man k sig v : verifySignatureFile E S man k sig v minSdk a = verifySignatureFile E S man k sig v minSdk b.
  Proof.
    unfold verifySignatureFile. cbn zeta. rewrite !entry_max. unfold SupportsSigV2, V7_0_Nougat. rewrite (same_leb _ _ _ 24 H) by step.
    destruct (match sget _ _ with Some _ => _ | None => _ end); [reflexivity|].
    destruct (negb _); [reflexivity|]. apply obind_ext. intros me _. destruct me as [[]|].
    all: first [reflexivity | apply obind_ext; intros [e|] _; [now rewrite entriesCheck_max | reflexivity]].
  Qed.
  Lemma loop_max man v l : forall k st, verifyLoop E S man v minSdk a k l st = verifyLoop E S man v minSdk b k l st.
  Proof.
    induction l as [|[n sig] l IH]; intros k st; [reflexivity|]. cbn [verifyLoop]. rewrite sig_max. apply obind_ext. intros [ch [e|]] _; [apply IH|].
    rewrite file_max. apply obind_ext. intros [e| |[e|]] _; try reflexivity; apply IH.
  Qed.
  Lemma required_max man valid files l : forall k cs b0,
    requiredLoop E S man valid files minSdk a k l cs b0 = requiredLoop E S man valid files minSdk b k l cs b0.
  Proof.
    induction l as [|p l IH]; intros k cs b0; [reflexivity|]. cbn [requiredLoop]. destruct (sget p (m_entries man)); [|reflexivity].
    rewrite entry_max. apply obind_ext. intros [e|] _; [reflexivity|]. destruct (map _ _) as [|c0 cl]; [reflexivity|].
    destruct (negb b0); [apply IH|]. destruct (negb _); [reflexivity | apply IH].
  Qed.
  Lemma v1_max z v : verifySchemeV1 E S z v minSdk a = verifySchemeV1 E S z v minSdk b.
  Proof.
    unfold verifySchemeV1. apply obind_ext. intros p _. destruct p as [p|]; [|reflexivity]. unfold verifyV1. rewrite loop_max. apply obind_ext.
    intros [st [e|]] _; [reflexivity|]. destruct (vp_valid st); [reflexivity|]. destruct (negb _); [reflexivity|]. destruct (_ <? _); [reflexivity|].
    unfold verifyMainManifest. destruct (negb _); [reflexivity|]. apply required_max.
  Qed.

  Lemma candidates_max l : forall cand m, stampCandidates l a cand m = stampCandidates l b cand m.
  Proof.
    induction l as [|[al c] l IH]; intros cand m; [reflexivity|]. cbn [stampCandidates].
    assert (X : (a <? getMinSdkVersionJca al) = (b <? getMinSdkVersionJca al)).
    { apply (same_ltb _ _ _ _ H). destruct (jca_levels 1 1 ltac:(lia) ltac:(lia) al) as [<-|[<-|[<-|[<-|[]]]]]; unfold max_int32; cbn; tauto. }
    rewrite X. destruct (b <? _); [apply IH|]. apply obind_ext. intros bt _. apply IH.
  Qed.
  Lemma stampSig_max k data c sg s : stampVerifySignature E S k minSdk a data c sg s = stampVerifySignature E S k minSdk b data c sg s.
  Proof.
    unfold stampVerifySignature. destruct (lpItems sg) as [items ok]. destruct (stampReadSigs items ok [] s) as [m s1].
    destruct m; [|reflexivity]. unfold filterSignaturesToVerify. now rewrite candidates_max.
  Qed.
  Lemma stamp_max id z blk cds : verifySourceV2Stamp E S id minSdk a z blk cds = verifySourceV2Stamp E S id minSdk b z blk cds.
  Proof.
    unfold verifySourceV2Stamp. destruct blk as [blk|]; [|reflexivity]. destruct (getLengthPrefixedSlice blk) as [[sb r]|]; [|reflexivity].
    destruct (getLengthPrefixedSlice sb) as [[ec sb1]|]; [|reflexivity]. destruct (e_cert_andr E ec) as [c|]; [|reflexivity].
    destruct (sget _ (z_map z)) as [en|]; [|reflexivity].
    set (dd := match cds with [] => _ | _ => _ end). destruct dd as [cds1 s1].
    destruct (zf_readall en _) as [h|]; [|reflexivity]. destruct (_ <=? zlen h); [reflexivity|]. destruct (negb _); [reflexivity|].
    destruct (getLengthPrefixedSlice sb1) as [[ss sb2]|]; [|reflexivity]. cbn zeta. destruct (lpItems ss) as [items ok].
    destruct (stampSchemes _ _ _ _ _) as [[[f|]|] s2]; [|reflexivity|reflexivity]. rewrite stampSig_max. apply obind_ext. intros [g s3] _.
    destruct (negb g); [reflexivity|]. destruct sb2; [reflexivity|]. destruct (getLengthPrefixedSlice _) as [[ad sb3]|]; [|reflexivity].
    destruct (getLengthPrefixedSlice sb3) as [[as_ r3]|]; [|reflexivity]. now rewrite stampSig_max.
  Qed.

  Lemma handle_max id p eof st : handleEntry E a id p eof st = handleEntry E b id p eof st.
  Proof.
    unfold handleEntry, SupportsSigV2, SupportsSigV3, SupportsSigV31, V7_0_Nougat, V9_0_Pie, V13_0_TIRAMISU.
    now rewrite (same_leb _ _ _ 24 H), (same_leb _ _ _ 28 H), (same_leb _ _ _ 33 H) by step.
  Qed.
  Lemma entriesLoop_max n : forall pairs st, entriesLoop E n a pairs st = entriesLoop E n b pairs st.
  Proof.
    induction n as [|n IH]; intros pairs st; destruct pairs; try reflexivity. cbn [entriesLoop]. destruct (nextEntry _); [reflexivity|].
    rewrite handle_max. apply obind_ext. intros [st'|] _; [apply IH | reflexivity].
  Qed.
  Lemma find_max file : findSignatureBlocks E file a = findSignatureBlocks E file b.
  Proof.
    unfold findSignatureBlocks. destruct (findEocd file); try reflexivity. destruct (isZip64 _ _); [reflexivity|].
    destruct (findApkSigningBlock _ _); try reflexivity. cbn zeta. now rewrite entriesLoop_max.
  Qed.

  Lemma v2Attributes_max items ok xb : forall r, v2Attributes items ok a xb r = v2Attributes items ok b xb r.
  Proof.
    induction items as [|i items IH]; intro r; [reflexivity|]. cbn [v2Attributes]. unfold SupportsSigV3, V9_0_Pie. rewrite (same_leb _ _ _ 28 H) by step.
    repeat match goal with
           | |- context [match ?x with _ => _ end] => destruct x
           end; try reflexivity; apply IH.
  Qed.
  Lemma v2Signer_max xb s cds r : v2VerifySigner E a xb s cds r = v2VerifySigner E b xb s cds r.
  Proof.
    unfold v2VerifySigner.
    repeat match goal with
           | |- obind _ _ = obind _ _ => apply obind_ext; intros ? _
           | |- context [match ?x with _ => _ end] => destruct x
           end; try reflexivity; now rewrite v2Attributes_max.
  Qed.
  Lemma v2Signers_max xb items ok : forall cds r, v2Signers E a xb items ok cds r = v2Signers E b xb items ok cds r.
  Proof.
    induction items as [|i items IH]; intros cds r; [reflexivity|]. cbn [v2Signers]. rewrite v2Signer_max. apply obind_ext. intros [cds' r'] _. apply IH.
  Qed.
  Lemma v2Parse_max xb blk cds r : v2ParseSigners E a xb blk cds r = v2ParseSigners E b xb blk cds r.
  Proof.
    unfold v2ParseSigners. destruct (getLengthPrefixedSlice blk) as [[sb rest]|]; [|reflexivity]. destruct (lpItems sb) as [items ok]. now rewrite v2Signers_max.
  Qed.
  Lemma pick_max k file s blocks r : zget blockIdSchemeV31 blocks = None -> zget blockIdSchemeV3 blocks = None ->
    pickAndVerify E S k file s blocks minSdk a r = pickAndVerify E S k file s blocks minSdk b r.
  Proof.
    intros N31 N3. unfold pickAndVerify, SupportsSigV2, V7_0_Nougat. rewrite (same_leb _ _ _ 24 H) by step. destruct (negb _); [reflexivity|].
    unfold pickScheme. rewrite N31, N3. destruct (zget blockIdSchemeV2 blocks) as [blk|]; [|reflexivity].
    unfold verifyScheme. unfold extractCertsScheme. cbn [schemeIdV2 schemeIdV3 schemeIdV31 Z.eqb Pos.eqb]. rewrite v2Parse_max.
    destruct (v2ParseSigners _ _ _ _ _ _) as [[cds c]|]; [|reflexivity]. cbn [obind].
    destruct (certs _); [reflexivity|]. destruct cds; [reflexivity|]. apply obind_ext. intros [c1 good] _. destruct (negb good); reflexivity.
  Qed.
  Lemma zdel_none (k k' : Z) (m : list (Z * bytes)) : zget k m = None -> zget k (zdel k' m) = None.
  Proof.
    induction m as [|[x v] m IH]; [reflexivity|]. cbn. destruct (Z.eqb_spec k x); [discriminate|]. intro N. destruct (k' =? x); [exact N|].
    cbn. destruct (Z.eqb_spec k x); [contradiction | now apply IH].
  Qed.
  Lemma block_max file z : (forall st s, findSignatureBlocks E file b = Ret (FindOk st s) -> zget blockIdSchemeV31 (en_blocks st) = None /\ zget blockIdSchemeV3 (en_blocks st) = None) ->
    verifySigningBlock E S file minSdk a z = verifySigningBlock E S file minSdk b z.
  Proof.
    intro N. unfold verifySigningBlock. destruct (newSigningBlock file); [|reflexivity]. rewrite find_max. apply obind_ext. intros [st s|st s] Q; [reflexivity|].
    destruct (N st s Q) as [N31 N3]. apply obind_ext. intros res _.
    rewrite pick_max by assumption. apply obind_ext. intros [cds res1] _.
    assert (F : fallback E S file s (en_blocks st) minSdk a cds res1 = fallback E S file s (en_blocks st) minSdk b cds res1).
    { unfold fallback. now rewrite pick_max by (apply zdel_none; assumption). }
    rewrite F. apply obind_ext. intros [cds2 res2] _. now rewrite stamp_max.
  Qed.
End V1.

Lemma no_v3 E file a : (a < 28 \/ forall es sections, apk_with file es sections -> ~ In id_v3 (map fst es) /\ ~ In id_v31 (map fst es)) ->
  forall st s, findSignatureBlocks E file a = Ret (FindOk st s) -> zget blockIdSchemeV31 (en_blocks st) = None /\ zget blockIdSchemeV3 (en_blocks st) = None.
Proof.
  intros C st s Q. apply findSignatureBlocks_ok in Q as (before & pairs & cd & rec & es & A & _ & En & I & _).
  destruct (protected_exists _ _ _ _ _ A) as [sections P]. destruct I as [Bl _ _ _ _].
  assert (X : ~ v31_in a es /\ ~ v3_in a es).
  { unfold v31_in, v3_in. destruct C as [C|C]; [lia|]. destruct (C es sections) as [N3 N31]; [exists before, pairs, cd, rec; auto|]. tauto. }
  destruct X as [N31 N3]. rewrite <- (block_v31 es a (en_blocks st) Bl) in N31. rewrite <- (block_v3 es a (en_blocks st) Bl) in N3.
  split; [destruct (zget blockIdSchemeV31 (en_blocks st)); [exfalso; eauto | reflexivity] | destruct (zget blockIdSchemeV3 (en_blocks st)); [exfalso; eauto | reflexivity]].
Qed.

Lemma whole_max E S file z minSdk a b :
  between_same max_steps a b -> 0 <= minSdk <= a -> minSdk <= b ->
  (a < 28 \/ (forall es sections, apk_with file es sections -> ~ In id_v3 (map fst es) /\ ~ In id_v31 (map fst es)) /\
             (forall e, getManifestInfo E z = Some e -> 30 <= en_target e -> (en_target e <= a <-> en_target e <= b))) ->
  verifyWithSdk E S file (Some z) minSdk a = verifyWithSdk E S file (Some z) minSdk b.
Proof.
  intros H [L0 La] Lb C. assert (C' : b < 28 \/ forall es sections, apk_with file es sections -> ~ In id_v3 (map fst es) /\ ~ In id_v31 (map fst es)).
  { destruct C as [C|[C _]]; [left; apply (H 28); [cbn; tauto | exact C] | right; exact C]. }
  unfold verifyWithSdk, RequiresSandboxV2, V8_0_Oreo, V_AnyMin. rewrite (same_leb _ _ _ 26 H) by (cbn; tauto).
  destruct (Z.eqb_spec minSdk (-1)); [lia|]. cbn [orb]. rewrite !andb_false_r. cbn zeta.
  destruct (Z.ltb_spec a minSdk); [lia|]. destruct (Z.ltb_spec b minSdk); [lia|].
  rewrite (block_max E S minSdk a b H file z (no_v3 E file b C')). apply obind_ext. intros vr _. rewrite (v1_max E S minSdk a b H).
  set (info := if 26 <=? b then getManifestInfo E z else Some _).
  assert (X : forall e, info = Some e -> ((30 <=? en_target e) && (en_target e <=? a)) = ((30 <=? en_target e) && (en_target e <=? b))).
  { intros e Qe. destruct (Z.leb_spec 30 (en_target e)) as [T|T]; [|reflexivity]. cbn [andb].
    assert (T2 : en_target e <= a <-> en_target e <= b).
    { destruct C as [C|[_ C]].
      - assert (b < 28) by (apply (H 28); [cbn; tauto | exact C]). lia.
      - apply C; [|exact T]. unfold info in Qe. destruct (26 <=? b); [exact Qe|]. inversion Qe; subst. cbn in T. lia. }
    destruct (Z.leb_spec (en_target e) a), (Z.leb_spec (en_target e) b); try reflexivity; lia. }
  unfold V11_0_Eleven. destruct info as [e|].
  - now rewrite (X e eq_refl).
  - reflexivity.
Qed.
