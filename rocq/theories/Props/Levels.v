(** C92, C93: how the verdict depends on the minimum SDK level. *)
From Coq Require Import String Lia.
From Verif.Model Require Import Bytes Env ApiLevel Manifest Result SchemeV3 Verify SchemeV1 ApkVerifier.
From Verif.Spec Require Import Encoding ApkLayout Nondet Digests Entries Signer SignerV3 Verified Calls TopLevel Levels.
From Verif.Proofs Require Import BytesFacts PlainFacts ApkFacts PropFacts TopFacts LevelFacts LineageLevel.
From Verif.Examples Require Import Toy ToyApk ToyJar.
From Verif.Props Require Import SchemeV2 SchemeV3 TopLevel.

Lemma covering_raise lo lo' hi is lin : lo <= lo' -> v3_covering lo hi is lin -> v3_covering lo' hi is lin.
Proof. intros L (js & a & b & P & T & La & R). exists js, a, b. split; [exact P|]. split; [exact T|]. split; [lia | exact R]. Qed.

(** C92.  An APK whose signing block verifies for the devices from [minSdk] on verifies for those from a later level on,
    under the same scheme and with the same signers' chains - unless it got through only by the fallback to v2. *)
Theorem C92_raise_min_block : forall E S, hash_sizes_ok E -> sched_ok S -> forall file es sections minSdk minSdk' maxSdk z res res' err,
  verifies E S file minSdk maxSdk z res -> apk_with file es sections -> minSdk <= minSdk' -> 24 <= maxSdk ->
  (scheme res = 2 -> ~ v3_in maxSdk es) ->
  returns E S file minSdk' maxSdk z res' err ->
  err = None /\ scheme res' = scheme res /\ chains res' = chains res.
Proof.
  intros E S HE HS file es sections minSdk minSdk' maxSdk z res res' err V A L M Nf R.
  pose proof (verifies_known E S HE HS _ _ _ _ _ _ _ V A) as Vd.
  destruct Vd as [M' _ _ _|is31 is3 Q V31 Qc|is Q N V3 Qc|is Q N31 N3 V2 Qc _|is c0 Q N31 N3 _ _ _ _]; [lia| | | |exfalso; tauto].
  - rewrite Q, Qc. apply (C20_v31_complete E S HE HS file es sections minSdk' maxSdk z is31 (reported_lineage res) is3 res' err A); [|exact R].
    destruct V31 as (a1 & a2 & a3 & b & b3 & rot & lin3 & c1 & c2 & c3 & c4 & c5 & c6 & c7 & c8).
    split; [exact a1|]. split; [exact a2|]. split; [exact a3|]. exists b, b3, rot, lin3. repeat (split; [assumption|]).
    revert c8. apply covering_raise. lia.
  - rewrite Q, Qc. destruct (C48_v3_complete_returns E S HE HS file es sections minSdk' maxSdk z is (reported_lineage res) res' err A) as (X & Y & Z & _);
      [|exact N|exact R|auto].
    destruct V3 as (a1 & a2 & b & c1 & c2 & c3 & c4). split; [exact a1|]. split; [exact a2|]. exists b. repeat (split; [assumption|]).
    revert c4. apply covering_raise. lia.
  - rewrite Q, Qc. exact (C12_v2_complete_returns E S HE HS file es sections minSdk' maxSdk z is res' err A V2 N31 N3 R).
Qed.
Print Assumptions C92_raise_min_block.

(** ... and so for the whole verification, once no device needs the JAR signature any more. *)
Theorem C92_raise_min : forall E S, hash_sizes_ok E -> sched_ok S -> forall file es sections z minSdk minSdk' maxSdk res res' err,
  accepts E S file z minSdk maxSdk res -> 0 <= minSdk <= minSdk' -> 24 <= minSdk' <= maxSdk -> apk_with file es sections ->
  2 <= ar_schemeId res -> (ar_schemeId res = 2 -> ~ v3_in maxSdk es) ->
  verifyWithSdk E S file (Some z) minSdk' maxSdk = Ret (res', err) ->
  err = None /\ ar_schemeId res' = ar_schemeId res /\ ar_certs res' = ar_certs res.
Proof.
  intros E S HE HS file es sections z minSdk minSdk' maxSdk res res' err V [L0 L] [M1 M2] A Sc Nf R.
  apply verify_cases in V; [|auto].
  assert (Mi : min_of E z minSdk maxSdk = minSdk).
  { unfold min_of. destruct (used_info E z minSdk maxSdk); [|reflexivity]. unfold V_AnyMin. destruct (Z.eqb_spec minSdk (-1)); [lia | reflexivity]. }
  assert (Mi' : min_of E z minSdk' maxSdk = minSdk').
  { unfold min_of. destruct (used_info E z minSdk' maxSdk); [|reflexivity]. unfold V_AnyMin. destruct (Z.eqb_spec minSdk' (-1)); [lia | reflexivity]. }
  assert (B : exists b, verifies E S file minSdk maxSdk z b /\ scheme b = ar_schemeId res /\ chains b = ar_certs res).
  { remember (None : option aerr) as e0 eqn:Qe. destruct V as [vr b Hvr Hb He _ Hr|vr nb id cs cs1 er Hvr _ Hc _ _ _ Hr _]; rewrite Mi in *.
    - exists b. split; [exists vr; auto|]. rewrite Hr. auto.
    - destruct Hc as [(_ & _ & Q & _)|(_ & He & _ & b & Hb & Qi & Qc)]; [rewrite Hr in Sc; cbn in Sc; lia|].
      exists b. split; [exists vr; auto|]. rewrite Hr. cbn [ar_schemeId ar_certs]. split; [now rewrite Qi|].
      assert (Vb : verifies E S file minSdk maxSdk z b) by (exists vr; auto).
      destruct (verifies_block_signed E S file minSdk maxSdk z b HE HS Vb) as [(Q & _)|(_ & _ & Ne & _)].
      + rewrite Hr in Sc. cbn in Sc. unfold scheme in Q. lia.
      + unfold chains in *. rewrite Qc. destruct (certs (v_core b)); [congruence | reflexivity]. }
  destruct B as (b & Vb & Q1 & Q2). rewrite verify_unfold in R. cbn zeta in R. rewrite Mi' in R. destruct (Z.ltb_spec maxSdk minSdk'); [lia|].
  apply obind_ret in R as (vr & Hvr & R).
  assert (Hf : exists b', vr_res vr = Some b').
  { destruct (vr_res vr) eqn:Er; [eauto|]. exfalso. revert Hvr Er. unfold verifySigningBlock. clear R.
    destruct Vb as (vr0 & H0 & R0 & _). revert H0. unfold verifySigningBlock. destruct (newSigningBlock file); [|intro X; inversion X; subst; discriminate].
    intros _ Hvr Er. apply obind_ret in Hvr as (fr & _ & Hvr). destruct fr as [st s|st s]; apply obind_ret in Hvr as (r & _ & Hvr).
    - inversion Hvr; subst; discriminate.
    - apply obind_ret in Hvr as ([] & _ & Hvr). apply obind_ret in Hvr as ([] & _ & Hvr). apply obind_ret in Hvr as (? & _ & Hvr). inversion Hvr; subst; discriminate. }
  destruct Hf as (b' & Hb').
  destruct (C92_raise_min_block E S HE HS file es sections minSdk minSdk' maxSdk z b b' (vr_err vr) Vb A L) as (X & Y & Z); [lia|now rewrite Q1|exists vr; auto|].
  rewrite X, Hb' in R. destruct (Z.leb_spec 24 minSdk'); [|lia]. inversion R; subst. cbn [ar_schemeId ar_certs]. unfold scheme, chains in *. now rewrite Y, Z.
Qed.
Print Assumptions C92_raise_min.

(** Without the restriction it is false: an APK accepted for the devices from API 21 on, by the fallback, is rejected
    for those from API 28 on. *)
Theorem C92_fallback_refuted : exists E S file z res res' e, hash_sizes_ok E /\ sched_ok S /\
  verifies E S file 21 32 z res /\ returns E S file 28 32 z res' (Some e).
Proof.
  exists toy_env, toy_sched, toy_fallback, toy_zip. eexists _, _, _. split; [exact toy_hash_sizes|]. split; [exact toy_sched_ok|].
  split; (eexists; split; [vm_compute; reflexivity | split; reflexivity]).
Qed.
Print Assumptions C92_fallback_refuted.

(** C93.  Below API 28 the minimum SDK level matters only through the levels of [min_steps] that it has reached: between
    two of them every call has the same outcome - result, error or panic. *)
Theorem C93_min_steps : forall E S file z a b maxSdk,
  between_same min_steps a b -> 1 <= a < 28 -> 1 <= b < 28 -> a <= maxSdk -> b <= maxSdk ->
  verifyWithSdk E S file (Some z) a maxSdk = verifyWithSdk E S file (Some z) b maxSdk.
Proof. exact whole_min. Qed.
Print Assumptions C93_min_steps.
Theorem C93_block_min_steps : forall E S file z a b maxSdk,
  between_same block_steps a b -> 1 <= a < 28 -> 1 <= b < 28 ->
  verifySigningBlock E S file a maxSdk z = verifySigningBlock E S file b maxSdk z.
Proof. intros. now apply block_min. Qed.
Print Assumptions C93_block_min_steps.
Example C93_nonvacuous : between_same min_steps 12 17 /\ between_same block_steps 23 27.
Proof. split; intros s I; cbn in I; intuition (subst; lia). Qed.
Example C93_step28 : exists res res' e, verifies toy_env toy_sched toy_fallback 27 32 toy_zip res /\ returns toy_env toy_sched toy_fallback 28 32 toy_zip res' (Some e).
Proof. eexists _, _, _. split; (eexists; split; [vm_compute; reflexivity | split; reflexivity]). Qed.
Example C92_nonvacuous :
  (exists res res', let f := toy_file [(id_v2, toy_block [toy_signer2 kA toy_digest []])] in let E := with_xml jar_env (mani "2" "9" "33", true) in
     accepts E toy_sched f good_jar 9 33 res /\ ar_schemeId res = 2 /\ accepts E toy_sched f good_jar 24 33 res') /\
  (exists res res', verifies toy_env toy_sched toy_v31 28 40 toy_zip res /\ scheme res = 31 /\ verifies toy_env toy_sched toy_v31 36 40 toy_zip res').
Proof.
  split.
  - eexists _, _. cbn zeta. unfold accepts. split; [vm_compute; reflexivity|]. split; [reflexivity|]. vm_compute. reflexivity.
  - eexists _, _. split; [eexists; split; [vm_compute; reflexivity | split; reflexivity]|]. split; [reflexivity|].
    eexists; split; [vm_compute; reflexivity | split; reflexivity].
Qed.

(** C95.  Rotation needs API 28, where every algorithm of [algorithm_table] is known: the level reported with a lineage
    should be 28.  It is, except when a node uses RSASSA-PSS with SHA2-256, where it is the largest 32-bit level; in any
    call, accepted or not. *)
Theorem C95_lineage_level_partial : forall E S, sched_ok S -> forall file minSdk maxSdk z res err nodes level,
  returns E S file minSdk maxSdk z res err -> reported_lineage res = Some nodes -> reported_level res = Some level ->
  (level = 28 <-> forall n, In n nodes -> ln_algo n <> pss_sha256) /\
  (level = 2147483647 <-> exists n, In n nodes /\ ln_algo n = pss_sha256).
Proof.
  intros E S HS file minSdk maxSdk z res err nodes level (vr & V & R & _) Ln Lv.
  pose proof (post_ret _ _ _ (verifySigningBlock_lev E S HS file minSdk maxSdk z) V) as P. cbn beta in P. rewrite R in P. destruct P as [P _].
  unfold reported_lineage in Ln. unfold reported_level in Lv. unfold lev, lok in P. destruct (signingLineage (v_core res)) as [l|]; [|discriminate].
  cbn in Ln, Lv. assert (l_nodes l = nodes) as Qn by congruence. assert (l_minSdk l = level) as Ql by congruence. rewrite Qn, Ql in P. subst level.
  destruct (level_value nodes) as [A B]. unfold pss_sha256. split; [|exact A]. split.
  - intros H n I C. assert (lineageCalculateMinSdkVersion nodes = 2147483647) by (apply A; eauto). congruence.
  - intros H. destruct B as [B|B]; [exact B|]. apply A in B as (n & I & C). destruct (H n I C).
Qed.
Print Assumptions C95_lineage_level_partial.
(** A lineage kA -> kB whose link is signed with RSASSA-PSS. *)
Definition pss_nodes : list bytes :=
  let sd1 := lp kA ++ le32 0x0101 in let sd2 := lp kB ++ le32 0x0101 in
  [lp sd1 ++ le32 7 ++ le32 0x0101 ++ lp []; lp sd2 ++ le32 3 ++ le32 0x0101 ++ lp (toy_sign kA sd2)].
Theorem C95_level_28_refuted : exists res nodes,
  verifies toy_env toy_sched (toy_file [(id_v3, toy_block [toy_signer3 kB toy_digest 28 34 28 34 [(0x3ba06f8c, le32 1 ++ lps pss_nodes)]])]) 28 34 toy_zip res /\
  reported_lineage res = Some nodes /\ zlen nodes = 2 /\ reported_level res = Some 2147483647.
Proof.
  eexists _, _. split; [eexists; split; [vm_compute; reflexivity | split; reflexivity]|]. split; [reflexivity|]. split; vm_compute; reflexivity.
Qed.
Print Assumptions C95_level_28_refuted.
Example C95_nonvacuous : exists res nodes, verifies toy_env toy_sched toy_v3 28 33 toy_zip res /\ reported_lineage res = Some nodes /\
  zlen nodes = 2 /\ (forall n, In n nodes -> ln_algo n <> pss_sha256) /\ reported_level res = Some 28.
Proof.
  eexists _, _. split; [eexists; split; [vm_compute; reflexivity | split; reflexivity]|]. split; [vm_compute; reflexivity|]. split; [reflexivity|]. split; [|reflexivity].
  intros n [<-|[<-|[]]]; vm_compute; discriminate.
Qed.
