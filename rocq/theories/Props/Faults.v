(** C96, C97, C98: I/O errors while the APK is read. *)
From Coq Require Import String Lia.
From Verif.Model Require Import Bytes Env ApiLevel Result SigBlock Verify SchemeV1 ApkVerifier Reader.
From Verif.Spec Require Import Encoding ApkLayout Nondet Digests Entries Signer SignerV3 Verified Calls JarSigned AndroidManifest TopLevel Panics Faults.
From Verif.Proofs Require Import BytesFacts SigBlockFacts ApkFacts PropFacts TopFacts PanicBlock PanicV1 V1ExtractFacts ReaderFacts FaultFacts FaultRun FaultTop FaultPanic.
From Verif.Examples Require Import Toy ToyApk ToyJar.
From Verif.Props Require Import TopLevel Panics.

(** VerifySigningBlockReaderWithZip, reading through [R], returns [res] and [err]. *)
Definition returns_through (E : env) (S : sched) (R : reader) (minSdk maxSdk : Z) (z : zip) (res : vresult) (err : option verr) : Prop :=
  exists vr, verifySigningBlockR E S R minSdk maxSdk z = Ret vr /\ vr_res vr = Some res /\ vr_err vr = err.
(** VerifyWithSdkVersionReader, reading through [R], returns [res] and a nil error. *)
Definition accepts_through (E : env) (S : sched) (R : reader) (z : zip) (minArg maxSdk : Z) (res : aresult) : Prop :=
  verifyWithSdkR E S R (Some z) minArg maxSdk = Ret (res, None).
(** ExtractCertsReader, reading through [R], returns [chs] and a nil error. *)
Definition extracts_through (E : env) (S : sched) (R : reader) (z : zip) (chs : list (list cert)) : Prop :=
  extractCertsR E S R (Some z) = Ret (chs, None).
(** The ZIP64 question is answered: the file is not ZIP64, or the read that looks for the locator does not fail. *)
Definition zip64_known (file : bytes) (R : reader) : Prop := ~ zip64_file file \/ forall o n, rd_read R SZip64 o n = read_at file o n.

(** ** C96 *)

(** A reader without errors: what the other properties talk about. *)
Theorem C96_reliable : forall E S file, unreliable file (reader_of file) /\ locates file (reader_of file) /\
  (forall minSdk maxSdk z, verifySigningBlockR E S (reader_of file) minSdk maxSdk z = verifySigningBlock E S file minSdk maxSdk z) /\
  (forall oz minArg maxSdk, verifyWithSdkR E S (reader_of file) oz minArg maxSdk = verifyWithSdk E S file oz minArg maxSdk) /\
  (forall oz, extractCertsR E S (reader_of file) oz = extractCerts E S file oz).
Proof.
  intros E S file. split; [split; cbn; [congruence|auto]|]. split; [intros s o n _; reflexivity|].
  split; [intros; apply verifySigningBlock_perfect|]. split; [intros; apply verifyWithSdk_perfect | intros; apply extractCerts_perfect].
Qed.
Print Assumptions C96_reliable.

(** Whichever reads fail, a nil error means that the contents of the file are signed. *)
Theorem C96_sound_partial : forall E S, hash_sizes_ok E -> sched_ok S -> forall file R minSdk maxSdk z res,
  unreliable file R -> zip64_known file R -> returns_through E S R minSdk maxSdk z res None -> 24 <= maxSdk ->
  exists es sections, apk_with file es sections /\ signed_through E es sections minSdk maxSdk (scheme res) (chains res).
Proof.
  intros E S HE HS file R minSdk maxSdk z res U Nz (vr & H & Hr & He) M.
  destruct (faulty_sound E S file R HE HS U _ _ _ _ _ Nz H He Hr) as [[X _]|X]; [lia | exact X].
Qed.
Print Assumptions C96_sound_partial.

(** ... and the same call would have returned a nil error without the I/O errors (or it would have crashed: then the file
    has one of the contents listed in C34), with the same scheme - unless an error while hashing for v3 made the
    verifier fall back to v2. *)
Theorem C96_no_false_accept_partial : forall E S, hash_sizes_ok E -> sched_ok S -> forall file R minSdk maxSdk z res,
  unreliable file R -> zip64_known file R -> returns_through E S R minSdk maxSdk z res None ->
  bad_block E file \/ exists res', verifies E S file minSdk maxSdk z res' /\ (scheme res = scheme res' \/ (scheme res = 2 /\ scheme res' = 3)).
Proof.
  intros E S HE HS file R minSdk maxSdk z res U Nz (vr & H & Hr & He).
  pose proof (verifySigningBlock_safe E HE S HS file minSdk maxSdk z) as Sf. destruct (verifySigningBlock E S file minSdk maxSdk z) as [vr'|] eqn:H'; [|left; exact Sf].
  right. destruct (faulty_accept E S file R HE HS U _ _ _ _ _ Nz H He H') as (He' & _ & r & r' & Hr1 & Hr' & Sc).
  exists r'. split; [exists vr'; auto|]. assert (r = res) as -> by congruence. exact Sc.
Qed.
Print Assumptions C96_no_false_accept_partial.

(** The Google Play metadata are not reported as verified because of an I/O error either. *)
Theorem C96_frosting_partial : forall E S file R minSdk maxSdk z res err fr res' err',
  unreliable file R -> zip64_known file R -> returns_through E S R minSdk maxSdk z res err -> v_frosting res = Some fr -> fr_error fr = None ->
  returns E S file minSdk maxSdk z res' err' -> v_frosting res' = Some fr.
Proof.
  intros E S file R minSdk maxSdk z res err fr res' err' U Nz (vr & H & Hr & He) Ff Fe (vr' & H' & Hr' & He').
  destruct (faulty_frosting E S file R U _ _ _ _ _ _ _ Nz H H' Hr Ff Fe) as (r' & Q & F). congruence.
Qed.
Print Assumptions C96_frosting_partial.

(** I/O errors cause no crashes. *)
Theorem C96_no_crash_partial : forall E S, hash_sizes_ok E -> sched_ok S -> forall file R, unreliable file R -> zip64_known file R ->
  (forall minSdk maxSdk z q, verifySigningBlockR E S R minSdk maxSdk z = Panic q -> bad_block E file) /\
  (forall z minArg maxSdk q, verifyWithSdkR E S R (Some z) minArg maxSdk = Panic q -> bad_block E file \/ bad_jar E z) /\
  (forall z q, extractCertsR E S R (Some z) = Panic q -> bad_block E file \/ bad_jar E z).
Proof.
  intros E S HE HS file R U Nz. split; [|split].
  - intros minSdk maxSdk z q H. pose proof (verifySigningBlockR_safe E S file R HE HS U minSdk maxSdk z Nz) as Sf. rewrite H in Sf. exact Sf.
  - intros z minArg maxSdk q H. assert (Hs : safe (bad_block E file \/ bad_jar E z) (verifyWithSdkR E S R (Some z) minArg maxSdk) any); [|now rewrite H in Hs].
    clear H. unfold verifyWithSdkR. cbv zeta. destruct (_ <? _); [exact I|]. apply (safe_bind _ _ _ _ any).
    { match goal with |- context [verifySigningBlockR E S R ?a ?b ?c] => pose proof (verifySigningBlockR_safe E S file R HE HS U a b c Nz) as H;
        unfold safe in *; destruct (verifySigningBlockR E S R a b c) end; [exact I | now left]. }
    intros vr _ _.
    assert (V1 : forall b a, safe (bad_block E file \/ bad_jar E z) (verifySchemeV1 E S z b a maxSdk) any).
    { intros b a. pose proof (verifySchemeV1_safe E S HS z b a maxSdk) as H. unfold safe in *. destruct (verifySchemeV1 E S z b a maxSdk); [exact I | now right]. }
    match goal with |- context [SupportsSigV2 ?m] => destruct (SupportsSigV2 m) end;
      destruct (vr_err vr) as [[?|?]|]; cbn [isNotFound]; try exact I; (eapply safe_bind; [apply V1 | intros [? ?] _ _; exact I]).
  - intros z q. unfold extractCertsR. pose proof (extractCertsReaderR_safe E file R HE U V_AnyMin V_AnyMax Nz) as HB. unfold obind, safe in *.
    destruct (extractCertsReaderR E R V_AnyMin V_AnyMax) as [[cs be]|q'] eqn:EB; [|intros _; left; exact HB].
    destruct (negb (isNotFound be)); [discriminate|].
    pose proof (extractCertsSchemeV1_safe E S HS z V_AnyMin V_AnyMax) as HV. unfold safe in HV.
    destruct (extractCertsSchemeV1 E S z V_AnyMin V_AnyMax) as [[c1 e1]|q''] eqn:E1; [discriminate|]. intros _. right. exact HV.
Qed.
Print Assumptions C96_no_crash_partial.

(** A reader of [file] whose reads at the places [bad] fail. *)
Definition failing (bad : site -> bool) (file : bytes) : reader :=
  {| rd_size := Some (zlen file); rd_seek := fun _ _ => true; rd_read := fun s o n => if bad s then None else read_at file o n |}.
Lemma failing_unreliable bad file : unreliable file (failing bad file).
Proof. split; cbn; [congruence|]. intros s o n b. destruct (bad s); [discriminate|auto]. Qed.
Definition hashing (s : site) : bool := match s with SChunk 0 _ => true | _ => false end.
Definition footer (s : site) : bool := match s with SFooter => true | _ => false end.
Definition zip64_read (s : site) : bool := match s with SZip64 => true | _ => false end.

(** A v2-signed file whose central directory ends with a ZIP64 locator. *)
Definition cd64 : bytes := toy_cd ++ le32 0x07064b50 ++ zeros 16.
Definition digest64 : bytes := top_hash (toy_hash HSha256) [toy_before; cd64; toy_eocd (zlen cd64) (zlen toy_before) []].
Definition apk64 : bytes := toy_apk toy_before (enc_entries [(id_v2, toy_block [toy_signer2 kA digest64 []])]) cd64 [].

(** C96 is false for ZIP64 files: the code rejects them, but not if the read that looks for the locator fails. *)
Theorem C96_zip64_refuted : exists R err res res', unreliable apk64 R /\
  returns toy_env toy_sched apk64 24 34 toy_zip res' (Some err) /\ returns_through toy_env toy_sched R 24 34 toy_zip res None /\ scheme res = 2.
Proof.
  exists (failing zip64_read apk64). do 3 eexists. split; [apply failing_unreliable|].
  split; [eexists; split; [vm_compute; reflexivity|split; reflexivity]|].
  split; [eexists; split; [vm_compute; reflexivity|split; reflexivity]|reflexivity].
Qed.
Print Assumptions C96_zip64_refuted.

(** The scheme and the chains need not be those of a reliable run: an error while hashing for v3 makes the verifier
    report v2, with the chains of both blocks. *)
Theorem C96_downgrade_refuted : exists R res res', unreliable toy_v3 R /\ zip64_known toy_v3 R /\
  verifies toy_env toy_sched toy_v3 24 34 toy_zip res' /\ scheme res' = 3 /\
  returns_through toy_env toy_sched R 24 34 toy_zip res None /\ scheme res = 2 /\ List.length (chains res) = 3%nat.
Proof.
  exists (failing hashing toy_v3). do 2 eexists. split; [apply failing_unreliable|]. split; [right; reflexivity|].
  split; [eexists; split; [vm_compute; reflexivity|split; reflexivity]|]. split; [reflexivity|].
  split; [eexists; split; [vm_compute; reflexivity|split; reflexivity]|split; reflexivity].
Qed.
Print Assumptions C96_downgrade_refuted.

(** ** C97 *)

(** If the errors are not in the reads that look for the signing block, an APK accepted in spite of them is accepted
    without them (or crashes the verifier, see C34). *)
Theorem C97_located_partial : forall E S, hash_sizes_ok E -> sched_ok S -> forall file R z minArg maxSdk res,
  unreliable file R -> locates file R -> accepts_through E S R z minArg maxSdk res ->
  bad_block E file \/ bad_jar E z \/
  exists res', accepts E S file z minArg maxSdk res' /\ (ar_schemeId res = ar_schemeId res' \/ (ar_schemeId res = 2 /\ ar_schemeId res' = 3)).
Proof.
  intros E S HE HS file R z minArg maxSdk res U L H. destruct (verifyWithSdk E S file (Some z) minArg maxSdk) as [[res' err']|q] eqn:H'.
  - right. right. destruct (faulty_top E S file R U HE HS z minArg maxSdk res res' err' (or_intror (fun o n => L SZip64 o n I)) (or_introl L) H H') as [-> Sc].
    exists res'. split; [exact H' | exact Sc].
  - destruct (C34_verify_partial E S file (Some z) minArg maxSdk q HE HS H') as [B|(z' & Q & B)]; [now left|]. assert (z' = z) as -> by congruence. auto.
Qed.
Print Assumptions C97_located_partial.

(** So it is, whichever reads fail, if the manifest says that JAR signatures are not enough. *)
Theorem C97_manifest_partial : forall E S, hash_sizes_ok E -> sched_ok S -> forall file R z minArg maxSdk res toks ok min target sandbox,
  unreliable file R -> zip64_known file R ->
  manifest_of E z toks ok -> (ok = true \/ exists u, In u toks /\ named "uses-sdk" u) -> manifest_info toks min target sandbox ->
  30 <= target <= maxSdk \/ (26 <= maxSdk /\ 1 < sandbox) ->
  accepts_through E S R z minArg maxSdk res ->
  bad_block E file \/ bad_jar E z \/
  exists res', accepts E S file z minArg maxSdk res' /\ (ar_schemeId res = ar_schemeId res' \/ (ar_schemeId res = 2 /\ ar_schemeId res' = 3)).
Proof.
  intros E S HE HS file R z minArg maxSdk res toks ok mn tg sb U Nz Hm Hok Hi Hc H.
  pose proof (getManifestInfo_known E z toks ok mn tg sb Hm Hok Hi) as Hg.
  assert (Henc : used_enc E z minArg maxSdk = mkEnc mn tg sb).
  { unfold used_enc, used_info, RequiresSandboxV2, V8_0_Oreo. destruct (Z.leb_spec 26 maxSdk); [|lia]. rewrite Bool.orb_true_r, Hg. reflexivity. }
  destruct (verifyWithSdk E S file (Some z) minArg maxSdk) as [[res' err']|q] eqn:H'.
  - right. right. destruct (faulty_top E S file R U HE HS z minArg maxSdk res res' err' Nz) as [-> Sc]; [right; rewrite Henc; exact Hc | exact H | exact H' |].
    exists res'. split; [exact H' | exact Sc].
  - destruct (C34_verify_partial E S file (Some z) minArg maxSdk q HE HS H') as [B|(z' & Q & B)]; [now left|]. assert (z' = z) as -> by congruence. auto.
Qed.
Print Assumptions C97_manifest_partial.

(** C97 is false otherwise: an APK whose v2 signature does not match the contents is rejected, but if the read of the
    signing block's footer fails, its JAR signature is enough. *)
Definition tampered : bytes := toy_file [(id_v2, toy_block [toy_signer2 kA kC []])].
Theorem C97_refuted : exists R res res' err, unreliable tampered R /\ zip64_known tampered R /\
  rejects jar_env toy_sched tampered good_jar 9 33 res' err /\ accepts_through jar_env toy_sched R good_jar 9 33 res /\ ar_schemeId res = 1.
Proof.
  exists (failing footer tampered). do 3 eexists. split; [apply failing_unreliable|]. split; [right; reflexivity|].
  split; [unfold rejects; vm_compute; reflexivity|]. split; [unfold accepts_through; vm_compute; reflexivity|reflexivity].
Qed.
Print Assumptions C97_refuted.

(** Meets the hypotheses of C97_located_partial: the toy v3 file, with an error while hashing for v3. *)
Example C97_ok : exists res, unreliable toy_v3 (failing hashing toy_v3) /\ locates toy_v3 (failing hashing toy_v3) /\
  accepts_through toy_env toy_sched (failing hashing toy_v3) toy_zip 24 34 res /\ ar_schemeId res = 2.
Proof.
  eexists. split; [apply failing_unreliable|]. split; [intros [| | | | | | |] o n Hs; try reflexivity; destruct Hs|].
  split; [unfold accepts_through; vm_compute; reflexivity|reflexivity].
Qed.

(** ** C98 *)

(** The chains returned by ExtractCerts in spite of I/O errors are those returned without them, or those of the JAR
    signatures. *)
Theorem C98_extract_partial : forall E S, sched_ok S -> forall file R z chs, unreliable file R -> zip64_known file R -> extracts_through E S R z chs ->
  extractCerts E S file (Some z) = Ret (chs, None) \/ jar_chains E S z (-1) 2147483647 chs.
Proof.
  intros E S HS file R z chs U Nz H. destruct (faulty_extract E S file R U z chs Nz H) as [X|X]; [now left|]. right.
  destruct (extractV1_sound E S z _ _ _ HS X) as (p & sigs & _ & Hne & Hc & HF & _). exists sigs. auto.
Qed.
Print Assumptions C98_extract_partial.

(** If the reads that look for the signing block do not fail, they are the same (or the file could not be opened). *)
Theorem C98_located_partial : forall E S file R z, unreliable file R -> locates file R ->
  extractCertsR E S R (Some z) = Ret ([], Some (AErrBlock (Err "APK file is too short"))) \/ extractCertsR E S R (Some z) = extractCerts E S file (Some z).
Proof. intros E S file R z U L. exact (faulty_extract_locates E S file R U z L). Qed.
Print Assumptions C98_located_partial.

(** They need not be the same: JAR signatures take the place of the block's. *)
Theorem C98_refuted : exists R chs chs', unreliable tampered R /\ zip64_known tampered R /\
  extractCerts jar_env toy_sched tampered (Some good_jar) = Ret (chs, None) /\ extracts_through jar_env toy_sched R good_jar chs' /\ chs <> chs'.
Proof.
  exists (failing footer tampered). do 2 eexists. split; [apply failing_unreliable|]. split; [right; reflexivity|].
  split; [vm_compute; reflexivity|]. split; [unfold extracts_through; vm_compute; reflexivity|discriminate].
Qed.
Print Assumptions C98_refuted.

(** Meets the hypotheses of C97_manifest_partial: targetSdkVersion 30, an error while hashing for v3; and shows what it excludes. *)
Example C97_manifest_ok : let E := with_xml jar_env (mani "1" "24" "30", true) in
  manifest_of E good_jar (mani "1" "24" "30") true /\ manifest_info (mani "1" "24" "30") 24 30 1 /\
  (exists res, accepts_through E toy_sched (failing hashing toy_v3) good_jar (-1) 34 res /\ ar_schemeId res = 2) /\
  (exists res, verifyWithSdkR E toy_sched (failing footer tampered) (Some good_jar) (-1) 34 = Ret (res, Some AErrTargetSdk)).
Proof.
  cbv zeta. split; [do 3 eexists; split; [vm_compute; reflexivity|]; split; [reflexivity|]; split; reflexivity|].
  split.
  { do 2 eexists. split; [reflexivity|]. split; [reflexivity|]. split.
    { intros st [<-|[<-|[]]]; discriminate. }
    split; [apply declares_iff; vm_compute; reflexivity|].
    apply (sdk_first [el "application" []]); [intros st [<-|[]]; discriminate|reflexivity|apply declares_iff; vm_compute; reflexivity|apply declares_iff; vm_compute; reflexivity]. }
  split; [eexists; split; [unfold accepts_through; vm_compute; reflexivity|reflexivity]|]. eexists. vm_compute. reflexivity.
Qed.
