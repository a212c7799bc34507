(** Readers with I/O errors: with a reader that never fails the code behaves as modelled elsewhere; an unreliable one
    can only make the individual steps fail. *)
From Coq Require Import String.
From Verif.Model Require Import Bytes Env ApiLevel Utils SigBlock Result Signer SchemeV2 SchemeV3 DataSource Digest Frosting SourceStamp Verify GoStrings Manifest SchemeV1 ApkVerifier Reader.
From Verif.Spec Require Import ApkLayout Faults.
From Verif.Proofs Require Import BytesFacts SigBlockFacts.

(** ** A reader that never fails *)
Section Perfect.
  Variables (E : env) (S : sched) (file : bytes).

  Lemma newSigningBlock_perfect : newSigningBlockR (reader_of file) = match newSigningBlock file with Some m => Some (zlen file, m) | None => None end.
  Proof.
    unfold newSigningBlockR, newSigningBlock, reader_of. cbn [rd_size rd_read]. unfold read_at. cbn [orb Z.ltb Z.compare]. change (0 + 4) with 4.
    destruct (zlen file <? 4); reflexivity.
  Qed.
  Lemma findSignatureBlocks_perfect maxSdk : findSignatureBlocksR E (reader_of file) (zlen file) maxSdk = findSignatureBlocks E file maxSdk.
  Proof. reflexivity. Qed.
  Lemma applyFrosting_perfect st s : applyFrostingR E (reader_of file) st s = applyFrosting E file st s.
  Proof.
    unfold applyFrostingR, applyFrosting. destruct (en_frosting st); [|reflexivity]. destruct (v_frosting (en_res st)); [|reflexivity]. destruct s; [|reflexivity].
    destruct (fr_error _); [reflexivity|]. unfold frostingVerifyApkR, frostingVerifyApk, hashFileSectionR, hashFileSection. cbn [reader_of rd_seek rd_read negb]. rewrite !Bool.orb_false_r. reflexivity.
  Qed.
  Lemma digestChunk_perfect (input : nat -> dataSource) o c n bufs : (forall i, input i = input 0%nat) -> forall i, digestChunkR E input o c n i bufs = digestChunk E (input 0%nat) o c n bufs.
  Proof.
    intro H. induction bufs as [|[h buf] t IH]; intro i; [reflexivity|]. cbn [digestChunkR digestChunk]. rewrite H, IH. reflexivity.
  Qed.
  Lemma digestInput_perfect (input : nat -> dataSource) : (forall i, input i = input 0%nat) -> forall fuel o r n bufs, digestInputR E fuel input o r n bufs = digestInput E fuel (input 0%nat) o r n bufs.
  Proof.
    intro H. induction fuel as [|fuel IH]; intros; [reflexivity|]. cbn [digestInputR digestInput]. destruct (r <=? 0); [reflexivity|]. cbv zeta.
    rewrite digestChunk_perfect by assumption. destruct (digestChunk _ _ _ _ _ _) as [[b|]|]; [apply IH | reflexivity | reflexivity].
  Qed.
  Lemma digestInputs_perfect contents : Forall (fun input : nat -> dataSource => forall i, input i = input 0%nat) contents ->
    forall n bufs, digestInputsR E contents n bufs = digestInputs E (map (fun c => c 0%nat) contents) n bufs.
  Proof.
    induction 1 as [|input rest Hi F IH]; intros; [reflexivity|]. cbn [digestInputsR digestInputs map]. rewrite digestInput_perfect by assumption.
    destruct (digestInput _ _ _ _ _ _ _) as [[[i b]|]|]; [apply IH | reflexivity | reflexivity].
  Qed.
  Lemma oneMb_perfect algos contents : Forall (fun input : nat -> dataSource => forall i, input i = input 0%nat) contents ->
    computeOneMbChunkContentDigestsR E algos contents = computeOneMbChunkContentDigests E algos (map (fun c => c 0%nat) contents).
  Proof.
    intro F. unfold computeOneMbChunkContentDigestsR, computeOneMbChunkContentDigests. cbv zeta. rewrite map_map. destruct (_ <=? _); [reflexivity|].
    destruct (omap digestHash algos) as [hs|]; [|reflexivity]. cbn [obind]. now rewrite digestInputs_perfect.
  Qed.
  Lemma verifyIntegrity_perfect k ei off keys expected r :
    verifyIntegrityR E (reader_of file) k ei off keys expected r = verifyIntegrity E file ei off keys expected r.
  Proof.
    unfold verifyIntegrityR, verifyIntegrity. cbv zeta. destruct (copyAt _ _ _) as [eocd|]; [|reflexivity]. cbn [obind].
    unfold computeContentDigestsR, computeContentDigests. destruct (splitAlgos keys) as [[oneMb v]|]; [|reflexivity]. cbn [obind].
    destruct oneMb as [|a oneMb]; [reflexivity|]. rewrite oneMb_perfect by (repeat constructor). reflexivity.
  Qed.
  Lemma verifyScheme_perfect k s id block minSdk maxSdk res :
    verifySchemeR E S (reader_of file) k s id block minSdk maxSdk res = verifyScheme E S k file s id block minSdk maxSdk res.
  Proof.
    unfold verifySchemeR, verifyScheme. destruct (extractCertsScheme _ _ _ _ _) as [[[st cds] res1]|]; [|reflexivity]. cbn [obind].
    destruct (certs _); [reflexivity|]. destruct cds; [reflexivity|]. rewrite verifyIntegrity_perfect. reflexivity.
  Qed.
  Lemma pickAndVerify_perfect k s blocks minSdk maxSdk res :
    pickAndVerifyR E S (reader_of file) k s blocks minSdk maxSdk res = pickAndVerify E S k file s blocks minSdk maxSdk res.
  Proof.
    unfold pickAndVerifyR, pickAndVerify. destruct (negb _); [reflexivity|]. destruct (pickScheme blocks) as [id [b|]]; [|reflexivity]. cbv zeta. apply verifyScheme_perfect.
  Qed.
  Lemma fallback_perfect s blocks minSdk maxSdk cds res :
    fallbackR E S (reader_of file) s blocks minSdk maxSdk cds res = fallback E S file s blocks minSdk maxSdk cds res.
  Proof. unfold fallbackR, fallback. destruct (_ && _); [|reflexivity]. cbv zeta. apply pickAndVerify_perfect. Qed.

  Lemma verifySigningBlock_perfect minSdk maxSdk z : verifySigningBlockR E S (reader_of file) minSdk maxSdk z = verifySigningBlock E S file minSdk maxSdk z.
  Proof.
    unfold verifySigningBlockR, verifySigningBlock. rewrite newSigningBlock_perfect. destruct (newSigningBlock file) as [m|]; [|reflexivity].
    rewrite findSignatureBlocks_perfect. destruct (findSignatureBlocks E file maxSdk) as [[st s|st s]|]; [| |reflexivity]; cbn [obind]; rewrite applyFrosting_perfect; [reflexivity|].
    destruct (applyFrosting _ _ _ _) as [res|]; [|reflexivity]. cbn [obind]. rewrite pickAndVerify_perfect. destruct (pickAndVerify _ _ _ _ _ _ _ _ _) as [[cds res1]|]; [|reflexivity].
    cbn [obind]. rewrite fallback_perfect. reflexivity.
  Qed.
  Lemma extractCertsReader_perfect minSdk maxSdk : extractCertsReaderR E (reader_of file) minSdk maxSdk = extractCertsReader E file minSdk maxSdk.
  Proof. unfold extractCertsReaderR, extractCertsReader. rewrite newSigningBlock_perfect. destruct (newSigningBlock file); reflexivity. Qed.
  Lemma verifyWithSdk_perfect oz minArg maxSdk : verifyWithSdkR E S (reader_of file) oz minArg maxSdk = verifyWithSdk E S file oz minArg maxSdk.
  Proof.
    unfold verifyWithSdkR, verifyWithSdk. destruct oz as [z|]; [|reflexivity]. cbv zeta. destruct (_ <? _); [reflexivity|]. rewrite verifySigningBlock_perfect. reflexivity.
  Qed.
  Lemma extractCerts_perfect oz : extractCertsR E S (reader_of file) oz = extractCerts E S file oz.
  Proof. unfold extractCertsR, extractCerts. destruct oz; [|reflexivity]. rewrite extractCertsReader_perfect. reflexivity. Qed.
End Perfect.

(** ** An unreliable reader *)
(** [x] is [y] or the error. *)
Definition or_error {A} (x y : outcome (option A)) : Prop := x = Ret None \/ x = y.
Definition or_none {A} (x y : option A) : Prop := x = None \/ x = y.
Definition weaker (a b : dataSource) : Prop :=
  ds_chunkCount a = ds_chunkCount b /\ ds_length a = ds_length b /\ forall o n, or_none (ds_write a o n) (ds_write b o n).

Lemma weaker_refl a : weaker a a.
Proof. split; [reflexivity|]. split; [reflexivity|]. right. reflexivity. Qed.
Lemma chainedWrite_weaker xs ys : Forall2 weaker xs ys -> forall o n, or_none (chainedWrite xs o n) (chainedWrite ys o n).
Proof.
  induction 1 as [|a b xs ys (_ & L & W) F IH]; intros; [right; reflexivity|]. cbn [chainedWrite]. rewrite L.
  destruct (ds_length b <=? o); [apply IH|]. cbv zeta. destruct (_ <=? _); [apply W|].
  destruct (W o (ds_length b - o)) as [->| ->]; [left; reflexivity|]. destruct (ds_write b _ _); [|left; reflexivity].
  destruct (IH 0 (n - (ds_length b - o))) as [->| ->]; [left; reflexivity | right; reflexivity].
Qed.
Lemma weaker_chained xs ys : Forall2 weaker xs ys -> weaker (dataSourceChained xs) (dataSourceChained ys).
Proof.
  intro F. assert (L : map ds_length xs = map ds_length ys) by (induction F as [|a b xs ys (_ & L & _) F IH]; cbn; congruence).
  unfold dataSourceChained, weaker. cbn [ds_chunkCount ds_length ds_write]. rewrite L. split; [reflexivity|]. split; [reflexivity|].
  intros o n. destruct (_ <=? _); [left; reflexivity|]. destruct (_ || _); [left; reflexivity|]. now apply chainedWrite_weaker.
Qed.

Section Unreliable.
  Variable E : env.

  Lemma digestDataLoop_weaker salt a b : weaker a b -> forall fuel o sink, or_none (digestDataLoop E fuel salt a o sink) (digestDataLoop E fuel salt b o sink).
  Proof.
    intros (_ & L & W). induction fuel as [|fuel IH]; intros; [right; reflexivity|]. cbn [digestDataLoop]. rewrite L. destruct (_ <=? _); [|right; reflexivity].
    destruct (W o verityChunkSize) as [->| ->]; [left; reflexivity|]. destruct (ds_write b _ _); [|left; reflexivity]. destruct (byteWrite _ _ _); [apply IH | left; reflexivity].
  Qed.
  Lemma digestDataByChunks_weaker salt a b sink : weaker a b -> or_none (digestDataByChunks E salt a sink) (digestDataByChunks E salt b sink).
  Proof.
    intro H. pose proof H as (_ & L & W). unfold digestDataByChunks. cbv zeta. rewrite L.
    destruct (digestDataLoop_weaker salt a b H (Z.to_nat (ds_length b / verityChunkSize + 1)) 0 sink) as [->| ->]; [left; reflexivity|].
    destruct (digestDataLoop _ _ _ b _ _) as [[o s1]|]; [|left; reflexivity]. destruct (0 <? _); [|right; reflexivity].
    destruct (W o (ds_length b mod verityChunkSize)) as [->| ->]; [left | right]; reflexivity.
  Qed.
  Lemma verityLevel_weaker salt a b buffer lo hi : weaker a b -> or_error (verityLevel E salt a buffer lo hi) (verityLevel E salt b buffer lo hi).
  Proof.
    intro H. pose proof H as (_ & L & W). unfold verityLevel. destruct (_ || _); [right; reflexivity|]. cbv zeta. rewrite L.
    destruct (digestDataByChunks_weaker salt a b (slice buffer lo hi, 0) H) as [->| ->]; [left | right]; reflexivity.
  Qed.
  Lemma verityLevels_weaker salt a b : weaker a b -> forall offs next buffer, or_error (verityLevels E salt a offs next buffer) (verityLevels E salt b offs next buffer).
  Proof.
    intro H. induction offs as [|hi [|lo rest] IH]; intros; [right; reflexivity | right; reflexivity|]. cbn [verityLevels].
    assert (W : weaker (match next with None => a | Some h2 => dataSourceBytes (slice buffer hi h2) end) (match next with None => b | Some h2 => dataSourceBytes (slice buffer hi h2) end)).
    { destruct next; [apply weaker_refl | exact H]. }
    cbv zeta. destruct (verityLevel_weaker salt _ _ buffer lo hi W) as [->| ->]; [left; reflexivity|].
    destruct (verityLevel _ _ _ _ _ _) as [[b'|]|]; [|left; reflexivity | right; reflexivity]. cbn [obind]. exact (IH (Some hi) b').
  Qed.
  Lemma verity_weaker xs ys : Forall2 weaker xs ys -> or_error (computeVerityContentDigest E xs) (computeVerityContentDigest E ys).
  Proof.
    intro F. unfold computeVerityContentDigest. inversion F as [|a b xs' ys' (_ & L & _) F' Qx Qy]; [right; reflexivity|]. rewrite L.
    destruct (negb _); [left; reflexivity|]. cbv zeta. rewrite Qx, Qy. destruct (weaker_chained _ _ F) as (Wc & Wl & Ww). pose proof (conj Wc (conj Wl Ww) : weaker _ _) as W.
    unfold generateTreeRootHash. rewrite Wl. destruct (calculateLevelOffset _ _) as [offs|]; [|left; reflexivity]. cbv zeta. destruct (_ <? 0); [right; reflexivity|].
    destruct (verityLevels_weaker (zeros 8) _ _ W (rev offs) None (zeros (List.last offs 0))) as [->| ->]; [left; reflexivity | right; reflexivity].
  Qed.

  Definition weaker_in (input : nat -> dataSource) (b : dataSource) : Prop := forall i, weaker (input i) b.
  Lemma digestChunk_or input b o c n bufs : weaker_in input b -> forall i, or_error (digestChunkR E input o c n i bufs) (digestChunk E b o c n bufs).
  Proof.
    intro H. induction bufs as [|[h buf] t IH]; intros i; [right; reflexivity|]. cbn [digestChunkR digestChunk] in *.
    destruct (H i) as (_ & _ & W). destruct (W o c) as [->| ->]; [left; reflexivity|]. destruct (ds_write b o c) as [d|]; [|left; reflexivity]. cbv zeta in *.
    destruct (copyAt _ _ _) as [buf'|]; [|right; reflexivity]. cbn [obind] in *.
    destruct (IH (Datatypes.S i)) as [->| ->]; [left; reflexivity | right; reflexivity].
  Qed.
  Lemma digestInput_or input b : weaker_in input b -> forall fuel o r n bufs, or_error (digestInputR E fuel input o r n bufs) (digestInput E fuel b o r n bufs).
  Proof.
    intro H. induction fuel as [|fuel IH]; intros; [right; reflexivity|]. cbn [digestInputR digestInput]. destruct (r <=? 0); [right; reflexivity|]. cbv zeta.
    destruct (digestChunk_or input b o (if maxChunkSize <? r then maxChunkSize else r) n bufs H 0%nat) as [->| ->]; [left; reflexivity|].
    destruct (digestChunk _ _ _ _ _ _) as [[b'|]|]; cbn [obind]; [apply IH | left; reflexivity | right; reflexivity].
  Qed.
  Lemma digestInputs_or inputs bs : Forall2 weaker_in inputs bs -> forall n bufs, or_error (digestInputsR E inputs n bufs) (digestInputs E bs n bufs).
  Proof.
    induction 1 as [|input b inputs bs H F IH]; intros; [right; reflexivity|]. cbn [digestInputsR digestInputs]. destruct (H 0%nat) as (_ & L & _). rewrite L.
    destruct (digestInput_or input b H (Z.to_nat (ds_length b)) 0 (ds_length b) n bufs) as [->| ->]; [left; reflexivity|].
    destruct (digestInput _ _ _ _ _ _ _) as [[[i b']|]|]; cbn [obind]; [apply IH | left; reflexivity | right; reflexivity].
  Qed.
  Lemma oneMb_or algos inputs bs : Forall2 weaker_in inputs bs -> or_error (computeOneMbChunkContentDigestsR E algos inputs) (computeOneMbChunkContentDigests E algos bs).
  Proof.
    intro F. unfold computeOneMbChunkContentDigestsR, computeOneMbChunkContentDigests. cbv zeta.
    assert (L : map (fun c : nat -> dataSource => ds_chunkCount (c 0%nat)) inputs = map ds_chunkCount bs).
    { induction F as [|input b inputs bs H F IH]; [reflexivity|]. cbn. destruct (H 0%nat) as (-> & _). now rewrite IH. }
    rewrite L. destruct (_ <=? _); [left; reflexivity|]. destruct (omap digestHash algos) as [hs|]; [|right; reflexivity]. cbn [obind].
    match goal with |- context [digestInputsR E inputs 0 ?b] => destruct (digestInputs_or inputs bs F 0 b) as [->| ->] end; [left; reflexivity | right; reflexivity].
  Qed.
  Lemma contents_or algos inputs bs xs : Forall2 weaker_in inputs bs -> Forall2 weaker xs bs ->
    or_error (computeContentDigestsR E algos inputs xs) (computeContentDigests E algos bs).
  Proof.
    intros F G. unfold computeContentDigestsR, computeContentDigests. destruct (splitAlgos algos) as [[oneMb v]|]; [|right; reflexivity]. cbn [obind].
    assert (D : or_error (match oneMb with [] => Ret (Some []) | _ :: _ => computeOneMbChunkContentDigestsR E oneMb inputs end)
                         (match oneMb with [] => Ret (Some []) | _ :: _ => computeOneMbChunkContentDigests E oneMb bs end)).
    { destruct oneMb; [right; reflexivity | now apply oneMb_or]. }
    destruct D as [->| ->]; [left; reflexivity|].
    match goal with |- or_error (obind ?x _) _ => destruct x as [[m|]|] end; cbn [obind]; [|left; reflexivity | right; reflexivity].
    destruct v; [|right; reflexivity]. destruct (verity_weaker xs bs G) as [->| ->]; [left; reflexivity | right; reflexivity].
  Qed.
End Unreliable.
