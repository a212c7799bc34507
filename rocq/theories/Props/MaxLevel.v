(** C100: how the verdict depends on the maximum SDK level. *)
From Coq Require Import String Lia.
From Verif.Model Require Import Bytes Env ApiLevel Manifest Result SchemeV3 Verify SchemeV1 ApkVerifier.
From Verif.Spec Require Import Encoding ApkLayout Nondet Digests Entries Signer SignerV3 Verified Calls TopLevel Levels.
From Verif.Proofs Require Import BytesFacts PlainFacts ApkFacts PropFacts TopFacts MaxLevelFacts.
From Verif.Examples Require Import Toy ToyApk ToyJar.
From Verif.Props Require Import SchemeV2 SchemeV3 TopLevel.

(** C100.  An APK whose signing block verifies for the devices up to [maxSdk] verifies for those up to an earlier level
    [maxSdk'] that knows the scheme, under the same scheme and with the same chains - unless it got through only by the
    fallback to v2, or its v3.1 signers start later than [maxSdk']. *)
Theorem C100_lower_max_block_partial : forall E S, hash_sizes_ok E -> sched_ok S -> forall file es sections minSdk maxSdk maxSdk' z res res' err,
  verifies E S file minSdk maxSdk z res -> apk_with file es sections -> maxSdk' <= maxSdk ->
  (scheme res = 2 -> 24 <= maxSdk' /\ ~ v3_in maxSdk es) ->
  (scheme res = 3 -> 28 <= maxSdk') ->
  (scheme res = 31 -> 33 <= maxSdk' /\ exists m, rotates_from E maxSdk es m /\ m <= maxSdk') ->
  2 <= scheme res ->
  returns E S file minSdk maxSdk' z res' err ->
  err = None /\ scheme res' = scheme res /\ chains res' = chains res.
Proof.
  intros E S HE HS file es sections minSdk maxSdk maxSdk' z res res' err V A L N2 N3 N31 Sc R.
  pose proof (verifies_known E S HE HS _ _ _ _ _ _ _ V A) as Vd.
  destruct Vd as [M' Q _ _|is31 is3 Q V31 Qc|is Q N V3 Qc|is Q M31 M3 V2 Qc _|is c0 Q M31 M3 _ _ _ _];
    [lia| | | |exfalso; destruct (N2 Q); tauto].
  - rewrite Q, Qc. destruct (N31 Q) as (L33 & m & (blk & is & Lb & Vb & Lw) & Lm).
    apply (C20_v31_complete E S HE HS file es sections minSdk maxSdk' z is31 (reported_lineage res) is3 res' err A); [|exact R].
    destruct V31 as (a1 & a2 & a3 & b & b3 & rot & lin3 & c1 & c2 & c3 & c4 & c5 & c6 & c7 & c8).
    rewrite (last_entry_fun _ _ _ _ Lb c1) in Vb.
    destruct c4 as (m0 & Lw0 & Qrot). assert (m = m0) as <- by (eapply lowest_det; [exact Vb|exact c3|exact Lw|exact Lw0]).
    split; [exact L33|]. split; [exact a2|]. split; [exact a3|]. exists b, b3, rot, lin3. split; [exact c1|]. split; [exact c2|].
    split; [revert c3; apply v3_block_lower; [exact L | reflexivity]|]. split; [exists m; auto|].
    split; [revert c5; apply v3_block_lower; [exact L | reflexivity]|]. split; [exact c6|]. split.
    + apply (covering_lower maxSdk' maxSdk maxSdk'); [exact L|]. exact (covering_from _ _ _ _ _ _ c7 Lw0 Lm).
    + revert c8. apply covering_lower. unfold below_rotation. destruct (rot =? 0); lia.
  - rewrite Q, Qc. specialize (N3 Q). destruct (C48_v3_complete_returns E S HE HS file es sections minSdk maxSdk' z is (reported_lineage res) res' err A) as (X & Y & Z & _);
      [| |exact R|auto].
    + destruct V3 as (a1 & a2 & b & c1 & c2 & c3 & c4). split; [exact N3|]. split; [exact a2|]. exists b. split; [exact c1|].
      split; [revert c2; apply v3_block_lower; [exact L | reflexivity]|]. split; [exact c3|]. revert c4. apply covering_lower. exact L.
    + intros [I1 I2]. apply N. split; [lia | exact I2].
  - rewrite Q, Qc. destruct (N2 Q) as [L24 _]. apply (C12_v2_complete_returns E S HE HS file es sections minSdk maxSdk' z is res' err A); [| | |exact R].
    + destruct V2 as (a1 & a2 & b & c1 & c2 & c3). split; [exact L24|]. split; [exact a2|]. exists b. split; [exact c1|]. split; [|exact c3].
      revert c2. apply v2_block_lower. exact L.
    + intros [I1 I2]. apply M31. split; [lia | exact I2].
    + intros [I1 I2]. apply M3. split; [lia | exact I2].
Qed.
Print Assumptions C100_lower_max_block_partial.

(** Devices that know v3 but not v3.1 (API 28 to 32) take the v3.0 block of an APK that has both, as long as the v3.1
    signers start later. *)
Theorem C100_before_rotation : forall E S, hash_sizes_ok E -> sched_ok S -> forall file es sections minSdk maxSdk maxSdk' z res res' err m,
  verifies E S file minSdk maxSdk z res -> apk_with file es sections -> scheme res = 31 -> rotates_from E maxSdk es m ->
  28 <= maxSdk' < 33 -> maxSdk' < m ->
  returns E S file minSdk maxSdk' z res' err ->
  err = None /\ scheme res' = 3 /\ exists block3 is3, last_entry es id_v3 block3 /\ v3_block E maxSdk' 0 block3 is3 /\ chains res' = chains3 is3.
Proof.
  intros E S HE HS file es sections minSdk maxSdk maxSdk' z res res' err m V A Q (blk & is & Lb & Vb & Lw) L Lm R.
  pose proof (verifies_known E S HE HS _ _ _ _ _ _ _ V A) as Vd. rewrite Q in Vd.
  apply scheme_31 in Vd as (is31 & is3 & (a1 & a2 & a3 & b & b3 & rot & lin3 & c1 & c2 & c3 & c4 & c5 & c6 & c7 & c8) & _).
  rewrite (last_entry_fun _ _ _ _ Lb c1) in Vb. destruct c4 as (m0 & Lw0 & Qrot).
  assert (m = m0) as <- by (eapply lowest_det; [exact Vb|exact c3|exact Lw|exact Lw0]).
  assert (B3 : v3_block E maxSdk' 0 b3 is3) by (revert c5; apply v3_block_lower; lia).
  destruct (C48_v3_complete_returns E S HE HS file es sections minSdk maxSdk' z is3 lin3 res' err A) as (X & Y & Z & _); [| |exact R|].
  - split; [lia|]. split; [exact a3|]. exists b3. split; [exact c2|]. split; [exact B3|]. split; [exact c6|].
    revert c8. apply covering_lower. unfold below_rotation. subst rot. destruct (Z.eqb_spec m 2147483647) as [q|q].
    + cbn. lia.
    + destruct (Z.eqb_spec m 0); lia.
  - intros [I _]. lia.
  - split; [exact X|]. split; [exact Y|]. exists b3, is3. auto.
Qed.
Print Assumptions C100_before_rotation.

(** The full claim fails between API 33 and the first level of the v3.1 signers: there the devices use the v3.0 block,
    but every such call ends with an error. *)
Theorem C100_late_rotation_rejected : forall E S, hash_sizes_ok E -> sched_ok S -> forall file es sections minSdk maxSdk maxSdk' z res' err m,
  apk_with file es sections -> rotates_from E maxSdk es m -> 33 <= maxSdk' <= maxSdk -> maxSdk' < m ->
  returns E S file minSdk maxSdk' z res' err -> err <> None.
Proof.
  intros E S HE HS file es sections minSdk maxSdk maxSdk' z res' err m A (blk & is & Lb & Vb & Lw) L Lm R ->.
  pose proof (verifies_known E S HE HS _ _ _ _ _ _ _ R A) as Vd.
  assert (I : v31_in maxSdk' es) by (split; [lia | apply last_entry_in; eauto]).
  destruct Vd as [M' _ _ _|is31 is3 Q V31 Qc|is0 Q N V3 Qc|is0 Q N31 N3 V2 Qc _|is0 c0 Q N31 N3 _ _ _ _]; [lia| |tauto|tauto|tauto].
  destruct V31 as (a1 & a2 & a3 & b & b3 & rot & lin3 & c1 & c2 & c3 & (m0 & Lw0 & _) & c5 & c6 & c7 & c8).
  rewrite (last_entry_fun _ _ _ _ Lb c1) in Vb. apply (v3_block_lower E 0 0 maxSdk maxSdk') in Vb; [|lia|reflexivity].
  assert (m = m0) as <- by (eapply lowest_det; [exact Vb|exact c3|exact Lw|exact Lw0]).
  pose proof (covering_lowest _ _ _ _ _ c7 Lw0). lia.
Qed.
Print Assumptions C100_late_rotation_rejected.
(** Such an APK: signed for API 28 to 34 by the old key and from 35 on by the new one. *)
Definition toy_late : bytes := toy_file
  [(id_v3, toy_block [toy_signer3 kA toy_digest 24 34 24 34 [(0x559f8b02, le32 35)]]);
   (id_v31, toy_block [toy_signer3 kB toy_digest 35 40 35 40 [toy_lineage [(kA, 7); (kB, 3)]]])].
Theorem C100_late_rotation_refuted : exists E S file z res res' e, hash_sizes_ok E /\ sched_ok S /\
  verifies E S file 28 40 z res /\ returns E S file 28 34 z res' (Some e).
Proof.
  exists toy_env, toy_sched, toy_late, toy_zip. eexists _, _, _. split; [exact toy_hash_sizes|]. split; [exact toy_sched_ok|].
  split; (eexists; split; [vm_compute; reflexivity | split; reflexivity]).
Qed.
Print Assumptions C100_late_rotation_refuted.
Example C100_nonvacuous : exists res res' res'' res3,
  verifies toy_env toy_sched toy_late 28 40 toy_zip res /\ scheme res = 31 /\
  verifies toy_env toy_sched toy_late 28 36 toy_zip res' /\ scheme res' = 31 /\ chains res' = chains res /\
  verifies toy_env toy_sched toy_late 28 32 toy_zip res'' /\ scheme res'' = 3 /\ chains res'' = [[toy_cert kA]] /\
  verifies toy_env toy_sched toy_v31 24 32 toy_zip res3.
Proof.
  eexists _, _, _, _. split; [eexists; split; [vm_compute; reflexivity | split; reflexivity]|]. split; [reflexivity|].
  split; [eexists; split; [vm_compute; reflexivity | split; reflexivity]|]. split; [reflexivity|]. split; [reflexivity|].
  split; [eexists; split; [vm_compute; reflexivity | split; reflexivity]|]. split; [reflexivity|]. split; [reflexivity|].
  eexists; split; [vm_compute; reflexivity | split; reflexivity].
Qed.
Example C100_rotates : exists es sections m, apk_with toy_late es sections /\ rotates_from toy_env 40 es m /\ 34 < m.
Proof.
  assert (V : exists res, verifies toy_env toy_sched toy_late 28 40 toy_zip res /\ scheme res = 31)
    by (eexists; split; [eexists; split; [vm_compute; reflexivity | split; reflexivity] | reflexivity]).
  assert (R : exists res e, returns toy_env toy_sched toy_late 28 34 toy_zip res (Some e))
    by (eexists _, _; eexists; split; [vm_compute; reflexivity | split; reflexivity]).
  destruct V as (res & V & Q), R as (res' & e & R).
  destruct (verifies_verdict toy_env toy_sched toy_hash_sizes toy_sched_ok _ _ _ _ _ V) as (es & sections & A & Vd). rewrite Q in Vd.
  apply scheme_31 in Vd as (is31 & is3 & (a1 & a2 & a3 & b & b3 & rot & lin3 & c1 & c2 & c3 & (m & Lw & _) & _) & _).
  assert (Rm : rotates_from toy_env 40 es m) by (exists b, is31; auto).
  exists es, sections, m. split; [exact A|]. split; [exact Rm|]. destruct (Z.ltb_spec 34 m) as [L|L]; [exact L|]. exfalso.
  destruct (C100_lower_max_block_partial toy_env toy_sched toy_hash_sizes toy_sched_ok toy_late es sections 28 40 34 toy_zip res res' (Some e) V A) as (X & _);
    try (rewrite Q; lia); [lia| |exact R|discriminate X].
  intros _. split; [lia|]. exists m. split; [exact Rm | exact L].
Qed.

(** The whole verification, for devices that need no JAR signature. *)
Theorem C100_lower_max_partial : forall E S, hash_sizes_ok E -> sched_ok S -> forall file es sections z minSdk maxSdk maxSdk' res res' err,
  accepts E S file z minSdk maxSdk res -> 24 <= minSdk <= maxSdk' -> maxSdk' <= maxSdk -> apk_with file es sections ->
  (ar_schemeId res = 2 -> ~ v3_in maxSdk es) ->
  (ar_schemeId res = 3 -> 28 <= maxSdk') ->
  (ar_schemeId res = 31 -> 33 <= maxSdk' /\ exists m, rotates_from E maxSdk es m /\ m <= maxSdk') ->
  2 <= ar_schemeId res ->
  verifyWithSdk E S file (Some z) minSdk maxSdk' = Ret (res', err) ->
  err = None /\ ar_schemeId res' = ar_schemeId res /\ ar_certs res' = ar_certs res.
Proof.
  intros E S HE HS file es sections z minSdk maxSdk maxSdk' res res' err V [M1 M2] L A N2 N3 N31 Sc R.
  assert (Mi : forall mx, min_of E z minSdk mx = minSdk).
  { intro mx. unfold min_of. destruct (used_info E z minSdk mx); [|reflexivity]. unfold V_AnyMin. destruct (Z.eqb_spec minSdk (-1)); [lia | reflexivity]. }
  apply verify_cases in V; [|auto].
  assert (B : exists b, verifies E S file minSdk maxSdk z b /\ scheme b = ar_schemeId res /\ chains b = ar_certs res).
  { remember (None : option aerr) as e0 eqn:Qe. destruct V as [vr b Hvr Hb He _ Hr|vr nb id cs cs1 er Hvr _ Hc _ _ _ Hr _]; rewrite Mi in *.
    - exists b. split; [exists vr; auto|]. rewrite Hr. auto.
    - destruct Hc as [(_ & _ & Q & _)|(_ & He & _ & b & Hb & Qi & Qc)]; [rewrite Hr in Sc; cbn in Sc; lia|].
      exists b. split; [exists vr; auto|]. rewrite Hr. cbn [ar_schemeId ar_certs]. split; [now rewrite Qi|].
      assert (Vb : verifies E S file minSdk maxSdk z b) by (exists vr; auto).
      destruct (verifies_block_signed E S file minSdk maxSdk z b HE HS Vb) as [(Q & _)|(_ & _ & Ne & _)].
      + rewrite Hr in Sc. cbn in Sc. unfold scheme in Q. lia.
      + unfold chains in *. rewrite Qc. destruct (certs (v_core b)); [congruence | reflexivity]. }
  destruct B as (b & Vb & Q1 & Q2). rewrite verify_unfold in R. cbn zeta in R. rewrite Mi in R. destruct (Z.ltb_spec maxSdk' minSdk); [lia|].
  apply obind_ret in R as (vr & Hvr & R).
  assert (Hf : exists b', vr_res vr = Some b').
  { destruct (vr_res vr) eqn:Er; [eauto|]. exfalso. revert Hvr Er. unfold verifySigningBlock. clear R.
    destruct Vb as (vr0 & H0 & R0 & _). revert H0. unfold verifySigningBlock. destruct (newSigningBlock file); [|intro X; inversion X; subst; discriminate].
    intros _ Hvr Er. apply obind_ret in Hvr as (fr & _ & Hvr). destruct fr as [st s|st s]; apply obind_ret in Hvr as (r & _ & Hvr).
    - inversion Hvr; subst; discriminate.
    - apply obind_ret in Hvr as ([] & _ & Hvr). apply obind_ret in Hvr as ([] & _ & Hvr). apply obind_ret in Hvr as (? & _ & Hvr). inversion Hvr; subst; discriminate. }
  destruct Hf as (b' & Hb').
  destruct (C100_lower_max_block_partial E S HE HS file es sections minSdk maxSdk maxSdk' z b b' (vr_err vr) Vb A L) as (X & Y & Z);
    rewrite ?Q1; [intro Q; split; [lia | exact (N2 Q)]|exact N3|exact N31|exact Sc|exists vr; auto|].
  rewrite X, Hb' in R. destruct (Z.leb_spec 24 minSdk); [|lia]. inversion R; subst. cbn [ar_schemeId ar_certs]. unfold scheme, chains in *. now rewrite Y, Z.
Qed.
Print Assumptions C100_lower_max_partial.
Example C100_top_nonvacuous :
  exists res res', let f := toy_file [(id_v2, toy_block [toy_signer2 kA toy_digest []])] in let E := with_xml jar_env (mani "2" "9" "33", true) in
     accepts E toy_sched f good_jar 24 33 res /\ ar_schemeId res = 2 /\ accepts E toy_sched f good_jar 24 27 res'.
Proof. eexists _, _. cbn zeta. unfold accepts. split; [vm_compute; reflexivity|]. split; [reflexivity|]. vm_compute. reflexivity. Qed.

(** C101.  Without a v3 or v3.1 block (or below API 28, where they are not looked at) the maximum SDK level matters only
    through the levels of [max_steps] that it has reached, and through the APK's target level from 30 on: between two of
    them every call has the same outcome - result, error or panic. *)
From Verif.Proofs Require Import LevelFacts MaxStepFacts.
Theorem C101_max_steps : forall E S file z minSdk a b,
  between_same max_steps a b -> 0 <= minSdk <= a -> minSdk <= b ->
  (a < 28 \/ (forall es sections, apk_with file es sections -> ~ In id_v3 (map fst es) /\ ~ In id_v31 (map fst es)) /\
             (forall e, getManifestInfo E z = Some e -> 30 <= en_target e -> (en_target e <= a <-> en_target e <= b))) ->
  verifyWithSdk E S file (Some z) minSdk a = verifyWithSdk E S file (Some z) minSdk b.
Proof. exact whole_max. Qed.
Print Assumptions C101_max_steps.
Theorem C101_block_max_steps : forall E S file z minSdk a b,
  between_same max_steps a b ->
  (a < 28 \/ forall es sections, apk_with file es sections -> ~ In id_v3 (map fst es) /\ ~ In id_v31 (map fst es)) ->
  verifySigningBlock E S file minSdk a z = verifySigningBlock E S file minSdk b z.
Proof.
  intros E S file z minSdk a b H C. apply block_max; [exact H|]. apply no_v3.
  destruct C as [C|C]; [left; apply (H 28); [cbn; tauto | exact C] | right; exact C].
Qed.
Print Assumptions C101_block_max_steps.
(** With a v3 block every level counts: one key for 28 to 34, so that the range up to 35 is not covered. *)
Example C101_v3_block : exists res res' e,
  verifies toy_env toy_sched (toy_file [(id_v3, toy_block [toy_signer3 kA toy_digest 28 34 28 34 []])]) 28 34 toy_zip res /\
  returns toy_env toy_sched (toy_file [(id_v3, toy_block [toy_signer3 kA toy_digest 28 34 28 34 []])]) 28 35 toy_zip res' (Some e) /\
  between_same max_steps 34 35.
Proof.
  eexists _, _, _. split; [eexists; split; [vm_compute; reflexivity | split; reflexivity]|]. split; [eexists; split; [vm_compute; reflexivity | split; reflexivity]|].
  intros s I; cbn in I; intuition (subst; lia).
Qed.
Example C101_nonvacuous : between_same max_steps 24 25 /\ between_same max_steps 34 2147483646 /\
  (let f := toy_file [(id_v2, toy_block [toy_signer2 kA toy_digest []])] in
   exists es sections res, apk_with f es sections /\ ~ In id_v3 (map fst es) /\ ~ In id_v31 (map fst es) /\ verifies toy_env toy_sched f 24 40 toy_zip res).
Proof.
  split; [intros s I; cbn in I; intuition (subst; lia)|]. split; [intros s I; cbn in I; intuition (subst; lia)|]. cbn zeta.
  assert (V : exists res, verifies toy_env toy_sched (toy_file [(id_v2, toy_block [toy_signer2 kA toy_digest []])]) 24 40 toy_zip res /\ scheme res = 2 /\ reported_lineage res = None)
    by (eexists; split; [eexists; split; [vm_compute; reflexivity | split; reflexivity] | split; reflexivity]).
  assert (V' : exists res, returns toy_env toy_sched (toy_file [(id_v2, toy_block [toy_signer2 kA toy_digest []])]) 28 40 toy_zip res None /\ scheme res = 2)
    by (eexists; split; [eexists; split; [vm_compute; reflexivity | split; reflexivity] | reflexivity]).
  destruct V as (res & V & Q & _). destruct V' as (res' & V' & Q').
  destruct (verifies_verdict toy_env toy_sched toy_hash_sizes toy_sched_ok _ _ _ _ _ V') as (es & sections & A & Vd). rewrite Q' in Vd.
  apply scheme_2 in Vd as (is & c0 & _ & _ & N31 & [(_ & N3 & _)|(L & _)]); [|lia].
  exists es, sections, res. split; [exact A|]. unfold v3_in, v31_in in *. split; [intro I; apply N3; split; [lia | exact I]|].
  split; [intro I; apply N31; split; [lia | exact I] | exact V].
Qed.
