(** The minimum SDK level matters only through the steps. *)
From Coq Require Import String Lia ZArith List.
From Verif.Model Require Import Bytes ApiLevel Env Utils SigBlock Result Signer SchemeV2 SchemeV3 SourceStamp Verify Manifest SchemeV1 ApkVerifier.
From Verif.Spec Require Import Levels.
From Verif.Proofs Require Import BytesFacts.

Lemma same_ltb steps a b s : between_same steps a b -> In s steps -> (a <? s) = (b <? s).
Proof. intros H I. specialize (H s I). destruct (Z.ltb_spec a s), (Z.ltb_spec b s); try reflexivity; lia. Qed.
Lemma same_leb steps a b s : between_same steps a b -> In s steps -> (s <=? a) = (s <=? b).
Proof. intros H I. specialize (H s I). destruct (Z.leb_spec s a), (Z.leb_spec s b); try reflexivity; lia. Qed.
Lemma obind_ext {A B} (x : outcome A) (f g : A -> outcome B) : (forall a, x = Ret a -> f a = g a) -> obind x f = obind x g.
Proof. destruct x as [a|p]; cbn; intro H; [now apply H | reflexivity]. Qed.

Section V1.
  Variable E : env.
  Variable S : sched.
  Variables a b maxSdk : Z.
  Hypothesis H : between_same [9; 18; 24] a b.

  Lemma digests_min e s : getDigestsToVerify E e s a maxSdk = getDigestsToVerify E e s b maxSdk.
  Proof.
    unfold getDigestsToVerify. rewrite (same_ltb _ _ _ 18 H), (same_leb _ _ _ 9 H) by (cbn; tauto). reflexivity.
  Qed.
  Lemma entry_min e s v : verifyManifestEntry E e s a maxSdk v = verifyManifestEntry E e s b maxSdk v.
  Proof. unfold verifyManifestEntry. now rewrite digests_min. Qed.
  Lemma sig_min sig : SchemeV1.verifySignature E S sig a maxSdk = SchemeV1.verifySignature E S sig b maxSdk.
  Proof. unfold SchemeV1.verifySignature, V7_0_Nougat. now rewrite (same_ltb _ _ _ 24 H) by (cbn; tauto). Qed.
  Lemma entriesCheck_min man st l : forall err, entriesCheck E man st a maxSdk l err = entriesCheck E man st b maxSdk l err.
  Proof.
    induction l as [|[n t] l IH]; intro err; [reflexivity|]. cbn [entriesCheck]. rewrite entry_min. apply obind_ext. intros [e|] _; [reflexivity | apply IH].
  Qed.
  Lemma file_min man k sig v : verifySignatureFile E S man k sig v a maxSdk = verifySignatureFile E S man k sig v b maxSdk.
  Proof.
    unfold verifySignatureFile. cbn zeta. rewrite !entry_min. destruct (match sget _ _ with Some _ => _ | None => _ end); [reflexivity|].
    destruct (negb _); [reflexivity|]. apply obind_ext. intros me _. destruct me as [[]|].
    all: first [reflexivity | apply obind_ext; intros [e|] _; [now rewrite entriesCheck_min | reflexivity]].
  Qed.
  Lemma loop_min man v l : forall k st, verifyLoop E S man v a maxSdk k l st = verifyLoop E S man v b maxSdk k l st.
  Proof.
    induction l as [|[n sig] l IH]; intros k st; [reflexivity|]. cbn [verifyLoop]. rewrite sig_min. apply obind_ext. intros [ch [e|]] _; [apply IH|].
    rewrite file_min. apply obind_ext. intros [e| |[e|]] _; try reflexivity; apply IH.
  Qed.
  Lemma required_min man valid files l : forall k cs b0,
    requiredLoop E S man valid files a maxSdk k l cs b0 = requiredLoop E S man valid files b maxSdk k l cs b0.
  Proof.
    induction l as [|p l IH]; intros k cs b0; [reflexivity|]. cbn [requiredLoop]. destruct (sget p (m_entries man)); [|reflexivity].
    rewrite entry_min. apply obind_ext. intros [e|] _; [reflexivity|]. destruct (map _ _) as [|c0 cl]; [reflexivity|].
    destruct (negb b0); [apply IH|]. destruct (negb _); [reflexivity | apply IH].
  Qed.
  Lemma v1_min z v : verifySchemeV1 E S z v a maxSdk = verifySchemeV1 E S z v b maxSdk.
  Proof.
    unfold verifySchemeV1. apply obind_ext. intros p _. destruct p as [p|]; [|reflexivity]. unfold verifyV1. rewrite loop_min. apply obind_ext.
    intros [st [e|]] _; [reflexivity|]. destruct (vp_valid st); [reflexivity|]. destruct (negb _); [reflexivity|]. destruct (_ <? _); [reflexivity|].
    unfold verifyMainManifest. destruct (negb _); [reflexivity|]. apply required_min.
  Qed.
End V1.

Section Block.
  Variable E : env.
  Variable S : sched.
  Variables a b maxSdk : Z.
  Hypothesis H : between_same block_steps a b.
  Hypothesis Ha : 1 <= a < 28.
  Hypothesis Hb : 1 <= b < 28.

  Lemma jca_levels algo : In (getMinSdkVersionJca algo) [1; 11; 23; max_int32].
  Proof. unfold getMinSdkVersionJca. repeat match goal with |- context [if ?c then _ else _] => destruct c end; cbn; tauto. Qed.
  Lemma candidates_level l : forall cand m r m', stampCandidates l maxSdk cand m = Ret (r, m') -> In m [1; 11; 23; max_int32] -> In m' [1; 11; 23; max_int32].
  Proof.
    induction l as [|[al c] l IH]; intros cand m r m' Q I; cbn [stampCandidates] in Q; [assert (m' = m) by congruence; now subst|].
    destruct (maxSdk <? _); [eauto|]. apply obind_ret in Q as (bt & _ & Q). eapply IH; [exact Q|]. destruct (_ <? m); [apply jca_levels | assumption].
  Qed.
  Lemma filter_min k sigs s : filterSignaturesToVerify S k a maxSdk sigs s = filterSignaturesToVerify S k b maxSdk sigs s.
  Proof.
    unfold filterSignaturesToVerify. apply obind_ext. intros [cand m] Q. apply candidates_level in Q; [|cbn; tauto]. destruct cand; [reflexivity|].
    assert (X : (a <? m) = (b <? m)).
    { destruct Q as [<-|[<-|[<-|[<-|[]]]]].
      - destruct (Z.ltb_spec a 1), (Z.ltb_spec b 1); try lia; reflexivity.
      - apply (same_ltb _ _ _ _ H). cbn. tauto.
      - apply (same_ltb _ _ _ _ H). cbn. tauto.
      - destruct (Z.ltb_spec a max_int32), (Z.ltb_spec b max_int32); try reflexivity; unfold max_int32 in *; lia. }
    now rewrite X.
  Qed.
  Lemma stampSig_min k data c sg s : stampVerifySignature E S k a maxSdk data c sg s = stampVerifySignature E S k b maxSdk data c sg s.
  Proof.
    unfold stampVerifySignature. destruct (lpItems sg) as [items ok]. destruct (stampReadSigs items ok [] s) as [m s1].
    destruct m; [|reflexivity]. now rewrite filter_min.
  Qed.
  Lemma stamp_min id z blk cds : verifySourceV2Stamp E S id a maxSdk z blk cds = verifySourceV2Stamp E S id b maxSdk z blk cds.
  Proof.
    unfold verifySourceV2Stamp. destruct blk as [blk|]; [|reflexivity]. destruct (getLengthPrefixedSlice blk) as [[sb r]|]; [|reflexivity].
    destruct (getLengthPrefixedSlice sb) as [[ec sb1]|]; [|reflexivity]. destruct (e_cert_andr E ec) as [c|]; [|reflexivity].
    destruct (sget _ (z_map z)) as [en|]; [|reflexivity]. 
    set (dd := match cds with [] => _ | _ => _ end). destruct dd as [cds1 s1].
    destruct (zf_readall en _) as [h|]; [|reflexivity]. destruct (_ <=? zlen h); [reflexivity|]. destruct (negb _); [reflexivity|].
    destruct (getLengthPrefixedSlice sb1) as [[ss sb2]|]; [|reflexivity]. cbn zeta. destruct (lpItems ss) as [items ok].
    destruct (stampSchemes _ _ _ _ _) as [[[f|]|] s2]; [|reflexivity|reflexivity]. rewrite stampSig_min. apply obind_ext. intros [g s3] _.
    destruct (negb g); [reflexivity|]. destruct sb2; [reflexivity|]. destruct (getLengthPrefixedSlice _) as [[ad sb3]|]; [|reflexivity].
    destruct (getLengthPrefixedSlice sb3) as [[as_ r3]|]; [|reflexivity]. now rewrite stampSig_min.
  Qed.
  Lemma finalize_min cfg sigs reqMax r : v3FinalizeWith (sortV3 S) cfg sigs a reqMax r = v3FinalizeWith (sortV3 S) cfg sigs b reqMax r.
  Proof. unfold v3FinalizeWith, V9_0_Pie. destruct (Z.ltb_spec a 28), (Z.ltb_spec b 28); try lia. reflexivity. Qed.
  Lemma pick_min k file s blocks r : pickAndVerify E S k file s blocks a maxSdk r = pickAndVerify E S k file s blocks b maxSdk r.
  Proof.
    unfold pickAndVerify. destruct (negb _); [reflexivity|]. destruct (pickScheme blocks) as [id [blk|]]; [|reflexivity]. cbn zeta.
    unfold verifyScheme. apply obind_ext. intros [[st cds] res1] _. destruct (certs (v_core res1)); [reflexivity|]. destruct cds; [reflexivity|].
    apply obind_ext. intros [c good] _. cbn zeta. destruct (negb good); [reflexivity|]. unfold finalizeScheme. destruct st; [reflexivity| |].
    - now rewrite finalize_min.
    - unfold v31FinalizeWith, V13_0_TIRAMISU. destruct (Z.ltb_spec a 33), (Z.ltb_spec b 33); try lia.
      f_equal. f_equal. apply obind_ext. intros r1 _. destruct (v_extraResult3 _); [|reflexivity]. now rewrite finalize_min.
  Qed.
  Lemma block_min file z : verifySigningBlock E S file a maxSdk z = verifySigningBlock E S file b maxSdk z.
  Proof.
    unfold verifySigningBlock. destruct (newSigningBlock file); [|reflexivity]. apply obind_ext. intros [st s|st s] _; [reflexivity|]. apply obind_ext. intros res _.
    rewrite pick_min. apply obind_ext. intros [cds res1] _.
    assert (F : fallback E S file s (en_blocks st) a maxSdk cds res1 = fallback E S file s (en_blocks st) b maxSdk cds res1).
    { unfold fallback, V9_0_Pie. rewrite pick_min. destruct (Z.ltb_spec a 28), (Z.ltb_spec b 28); try lia. reflexivity. }
    rewrite F. apply obind_ext. intros [cds2 res2] _. now rewrite stamp_min.
  Qed.
End Block.

Lemma whole_min E S file z a b maxSdk : between_same min_steps a b -> 1 <= a < 28 -> 1 <= b < 28 -> a <= maxSdk -> b <= maxSdk ->
  verifyWithSdk E S file (Some z) a maxSdk = verifyWithSdk E S file (Some z) b maxSdk.
Proof.
  intros H Ha Hb La Lb. unfold verifyWithSdk, V_AnyMin. destruct (Z.eqb_spec a (-1)); [lia|]. destruct (Z.eqb_spec b (-1)); [lia|]. cbn [orb]. rewrite !andb_false_r. cbn zeta.
  destruct (Z.ltb_spec maxSdk a); [lia|]. destruct (Z.ltb_spec maxSdk b); [lia|].
  rewrite (block_min E S a b maxSdk) by (try assumption; intros s I; apply H; cbn in I |- *; tauto). apply obind_ext. intros vr _.
  unfold SupportsSigV2, V7_0_Nougat. rewrite (same_leb _ _ _ 24 H) by (cbn; tauto).
  rewrite (v1_min E S a b maxSdk) by (intros s I; apply H; cbn in I |- *; tauto). reflexivity.
Qed.
