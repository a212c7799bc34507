(** I/O errors cause no panics. *)
From Coq Require Import String.
From Coq Require Import Lia Permutation.
From Verif.Model Require Import Bytes Env ApiLevel Utils SigBlock Result Signer SchemeV2 SchemeV3 DataSource Digest Frosting SourceStamp Verify Reader.
From Verif.Spec Require Import Encoding ApkLayout Algorithms Digests Entries Nondet Frosting Panics Faults.
From Verif.Proofs Require Import BytesFacts SigBlockFacts RangeFacts IntegrityFacts EntriesFacts ApkFacts FrostingFacts PanicBlock FaultFacts FaultRun.

Section Call.
  Variables (E : env) (S : sched) (file : bytes) (R : reader).
  Hypothesis HS : hash_sizes_ok E.
  Hypothesis SO : sched_ok S.
  Hypothesis U : unreliable file R.
  Notation P := (bad_block E file).
  Notation ent := (fun e : Z * bytes => signing_entry file (fst e) (snd e)).

  Lemma schemeR_safe k before pairs cd rec sid b minSdk maxSdk res : apk file before pairs cd rec ->
    (sid = schemeIdV31 /\ signing_entry file blockIdSchemeV31 b \/ sid = schemeIdV3 /\ signing_entry file blockIdSchemeV3 b \/
       sid = schemeIdV2 /\ signing_entry file blockIdSchemeV2 b) -> Forall ent (v_extraBlocks res) ->
    safe P (verifySchemeR E S R k (sblock_of before pairs cd rec) sid b minSdk maxSdk res) (fun '(_, res') => v_extraBlocks res' = v_extraBlocks res).
  Proof using HS SO U.
    intros A Hb X. destruct (schemeR_cases E S file R U k (sblock_of before pairs cd rec) sid b minSdk maxSdk res) as [->|(st & cds & res1 & Ex & ->)].
    - now apply verifyScheme_safe.
    - apply extract_frame in Ex as [_ Ex]. cbn. exact Ex.
  Qed.
  Lemma pickR_safe k before pairs cd rec blocks minSdk maxSdk res : apk file before pairs cd rec -> Forall ent blocks -> Forall ent (v_extraBlocks res) ->
    safe P (pickAndVerifyR E S R k (sblock_of before pairs cd rec) blocks minSdk maxSdk res) (fun '(_, res') => v_extraBlocks res' = v_extraBlocks res).
  Proof using HS SO U.
    intros A B X. unfold pickAndVerifyR. destruct (negb (SupportsSigV2 maxSdk)); [reflexivity|]. unfold pickScheme.
    destruct (zget blockIdSchemeV31 blocks) as [b|] eqn:Z31.
    { apply (schemeR_safe k before pairs cd rec schemeIdV31 b minSdk maxSdk (setScheme res schemeIdV31)); auto. left. split; [reflexivity|]. exact (mget_Forall _ _ _ _ B Z31). }
    destruct (zget blockIdSchemeV3 blocks) as [b|] eqn:Z3.
    { apply (schemeR_safe k before pairs cd rec schemeIdV3 b minSdk maxSdk (setScheme res schemeIdV3)); auto. right. left. split; [reflexivity|]. exact (mget_Forall _ _ _ _ B Z3). }
    destruct (zget blockIdSchemeV2 blocks) as [b|] eqn:Z2.
    { apply (schemeR_safe k before pairs cd rec schemeIdV2 b minSdk maxSdk (setScheme res schemeIdV2)); auto. right. right. split; [reflexivity|]. exact (mget_Forall _ _ _ _ B Z2). }
    reflexivity.
  Qed.
  Lemma fallbackR_safe before pairs cd rec blocks minSdk maxSdk cds res : apk file before pairs cd rec -> Forall ent blocks -> Forall ent (v_extraBlocks res) ->
    safe P (fallbackR E S R (sblock_of before pairs cd rec) blocks minSdk maxSdk cds res) any.
  Proof using HS SO U.
    intros A B X. unfold fallbackR. destruct (_ && _ && _ && _); [|exact I].
    eapply safe_weaken; [intro H; exact H | intros; exact I |]. apply pickR_safe; [assumption | now apply mdel_Forall|]. cbn [v_extraBlocks].
    destruct (zget blockIdSchemeV3 blocks) as [b|] eqn:Z3; [apply mset_Forall; [exact (mget_Forall _ _ _ _ B Z3) | assumption] | now apply mdel_Forall].
  Qed.
  Lemma frostingVerifyApkR_safe f v2 before pairs cd rec : apk file before pairs cd rec ->
    exists e, frostingVerifyApkR E R f (zlen before) v2 (zlen (before ++ signing_block pairs)) (zlen cd) rec = Ret e.
  Proof.
    intro A. pose proof (apk_bounds _ _ _ _ _ A) as (B1 & B2 & [B3 B4] & B5). unfold frostingVerifyApkR.
    destruct (hashFileSectionR R 0 _); [|eauto]. cbv zeta. destruct (hashFileSectionR R _ _); [|eauto].
    destruct (patched_exists rec (zlen before)) as (rec' & Pa & _ & Cp); [lia|]. change eocdCentralDirOffsetOffset with 16. rewrite Cp. cbn [obind].
    destruct (bytes_eqb _ _); eauto.
  Qed.
  Lemma applyFrostingR_safe st s : match s with None => True | Some s => exists before pairs cd rec, apk file before pairs cd rec /\ s = sblock_of before pairs cd rec end ->
    safe P (applyFrostingR E R st s) (fun res => v_extraBlocks res = v_extraBlocks (en_res st)).
  Proof.
    intro Hs. unfold applyFrostingR. destruct (en_frosting st); [|reflexivity]. destruct (v_frosting (en_res st)) as [fr|]; [|reflexivity].
    destruct s as [s|]; [|reflexivity]. destruct (fr_error fr); [reflexivity|]. destruct Hs as (before & pairs & cd & rec & A & ->).
    unfold sblock_of. cbn [sb_offset sb_eocd ei_centralDirOffset ei_centralDirSize ei_eocd]. cbv zeta.
    match goal with |- context [frostingVerifyApkR E R ?f _ ?v _ _ _] => destruct (frostingVerifyApkR_safe f v _ _ _ _ A) as [e ->] end. reflexivity.
  Qed.

  Lemma findR_safe maxSdk : ~ zip64_file file \/ (forall o n, rd_read R SZip64 o n = read_at file o n) -> safe P (findSignatureBlocksR E R (zlen file) maxSdk) (find_ok file).
  Proof using U. intro Nz. destruct (find_or E file R U maxSdk Nz) as [->| ->]; [reflexivity | apply find_safe]. Qed.

  Theorem verifySigningBlockR_safe minSdk maxSdk z : ~ zip64_file file \/ (forall o n, rd_read R SZip64 o n = read_at file o n) ->
    safe P (verifySigningBlockR E S R minSdk maxSdk z) any.
  Proof using HS SO U.
    intro Nz. unfold verifySigningBlockR. destruct (newSigningBlockR R) as [[size m]|] eqn:Ns; [|exact I]. apply (sizeR file R U) in Ns as [-> _].
    eapply safe_bind; [apply findR_safe; assumption|].
    intros [st s|st s] _ Ok.
    - eapply safe_bind; [apply applyFrostingR_safe; destruct s; [apply Ok | exact I]|]. intros; exact I.
    - destruct Ok as ([B X] & before & pairs & cd & rec & A & ->).
      eapply safe_bind; [apply applyFrostingR_safe; exists before, pairs, cd, rec; auto|]. intros res _ Q.
      eapply safe_bind; [apply (pickR_safe 0 before pairs cd rec (en_blocks st) minSdk maxSdk res); rewrite ?Q; assumption|]. intros [cds res1] _ Q1.
      eapply safe_bind; [apply fallbackR_safe; [assumption | assumption | rewrite Q1, Q; assumption]|]. intros [cds2 res2] _ _.
      eapply safe_bind; [|intros; exact I]. destruct (zget blockIdSourceStampV2 (en_blocks st)) as [b|] eqn:Zs.
      + eapply safe_weaken; [|intros a Qa; exact Qa | apply (stamp_safe E HS b S SO); apply within_refl].
        apply (bad_sig_block E file blockIdSourceStampV2); [cbn; tauto|]. exact (mget_Forall _ _ _ _ B Zs).
      + unfold verifySourceV2Stamp. destruct (sget _ _); exact I.
  Qed.
  Theorem extractCertsReaderR_safe minSdk maxSdk : ~ zip64_file file \/ (forall o n, rd_read R SZip64 o n = read_at file o n) ->
    safe P (extractCertsReaderR E R minSdk maxSdk) any.
  Proof using HS U.
    intro Nz. pose proof (extractCertsReader_safe E HS file minSdk maxSdk) as Sf. unfold extractCertsReaderR. destruct (newSigningBlockR R) as [[size m]|] eqn:Ns; [|exact I].
    apply (sizeR file R U) in Ns as [-> Nm]. unfold extractCertsReader in Sf. rewrite Nm in Sf.
    destruct (find_or E file R U maxSdk Nz) as [->| ->]; [exact I | exact Sf].
  Qed.
End Call.
