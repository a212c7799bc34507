(** C22, C23, C44: the fallback from v3 to v2 below API 28, reported certificates, ExtractCerts. *)
From Coq Require Import Lia.
From Verif.Model Require Import Bytes Env Result Verify.
From Verif.Spec Require Import Encoding Algorithms ApkLayout Nondet Digests Entries Signer SignerV3 Verified Calls.
From Verif.Proofs Require Import ApkFacts TotalFacts PropFacts.
From Verif.Examples Require Import Toy ToyApk.

(** C22: scheme 2 in spite of a v3 block only if the request starts below API 28, v2 is there and really
    verifies, v3 does not, and there is no (supported) v3.1 block. *)
Theorem C22_fallback_only : forall E S, hash_sizes_ok E -> sched_ok S -> forall file es sections minSdk maxSdk z res,
  verifies E S file minSdk maxSdk z res -> apk_with file es sections ->
  scheme res = 2 -> v31_in maxSdk es \/ v3_in maxSdk es ->
  minSdk < 28 /\ v2_in maxSdk es /\ ~ v31_in maxSdk es /\ (exists is, v2_verified E maxSdk es sections is) /\
  ~ exists is lin, v3_verified E minSdk maxSdk es sections is lin.
Proof.
  intros E S HE HS file es sections minSdk maxSdk z res V A Id D. pose proof (verifies_known E S HE HS _ _ _ _ _ _ _ V A) as Vd. rewrite Id in Vd.
  destruct (scheme_2 _ _ _ _ _ _ _ Vd) as (is & c0 & Ve & _ & N31 & [(_ & N3 & _)|(M & _ & Nv)]); [destruct D; contradiction|].
  split; [assumption|]. split; [|eauto]. destruct Ve as (M24 & _ & b & L & _). split; [assumption|]. apply last_entry_in. eauto.
Qed.
Print Assumptions C22_fallback_only.
(** ... otherwise the call fails. *)
Theorem C22_no_fallback_fails : forall E S, hash_sizes_ok E -> sched_ok S -> forall file es sections minSdk maxSdk z res err,
  returns E S file minSdk maxSdk z res err -> apk_with file es sections ->
  (v3_in maxSdk es -> ~ v31_in maxSdk es -> (~ exists is lin, v3_verified E minSdk maxSdk es sections is lin) ->
     28 <= minSdk \/ ~ v2_in maxSdk es -> err <> None) /\
  (v31_in maxSdk es -> (~ exists is lin is3, v31_verified E minSdk maxSdk es sections is lin is3) -> err <> None).
Proof.
  intros E S HE HS file es sections minSdk maxSdk z res err R A. destruct err as [e|]; [split; intros; discriminate|].
  pose proof (verifies_known E S HE HS _ _ _ _ _ _ _ R A) as Vd. split.
  - intros V3 N31 Nv D. exfalso. inversion Vd as [M' |is31 is3 Q V|is' Id _ V _|is' Id _ N3 _ _ _|is' c0 Id _ _ Mi _ Ve _].
    + destruct V3. lia.
    + apply N31. destruct V as (M33 & _ & _ & b31 & ? & ? & ? & L31 & _). split; [assumption|]. apply last_entry_in. eauto.
    + eauto. + contradiction.
    + destruct D as [D|D]; [lia|]. apply D. destruct Ve as (M24 & _ & b & L & _). split; [assumption|]. apply last_entry_in. eauto.
  - intros V31 Nv. exfalso. inversion Vd as [M' |is31 is3 Q V|is' Id N V _|is' Id N N3 _ _ _|is' c0 Id N _ Mi _ Ve _]; try contradiction; [destruct V31; lia | eauto].
Qed.
Print Assumptions C22_no_fallback_fails.
(** All v3 errors, i.e. those reported when asking from API 28 on, are kept as warnings. *)
Theorem C22_errors_kept : forall E S, hash_sizes_ok E -> sched_ok S -> forall file es sections minSdk maxSdk z res res28 err,
  apk_with file es sections -> verifies E S file minSdk maxSdk z res -> scheme res = 2 -> v3_in maxSdk es ->
  returns E S file 28 maxSdk z res28 err ->
  err <> None /\ scheme res28 = 3 /\ forall e, In e (result_errors res28) -> In (WSchemeV3 e) (result_warnings res).
Proof. intros E S HE HS. exact (errors_kept E S HE HS). Qed.
Print Assumptions C22_errors_kept.
Example C22_nonvacuous : (exists res, verifies toy_env toy_sched toy_fallback 21 32 toy_zip res /\ scheme res = 2 /\ result_warnings res <> []) /\
  (exists res e, returns toy_env toy_sched toy_fallback 28 32 toy_zip res (Some e)).
Proof.
  split; [eexists; split; [eexists; split; [vm_compute; reflexivity | split; reflexivity] | split; [reflexivity | vm_compute; discriminate]]|].
  eexists _, _. eexists. split; [vm_compute; reflexivity | split; reflexivity].
Qed.

(** C23, proved part: outside the fallback, exactly the chains of the accepted signers. *)
Theorem C23_chains_partial : forall E S, hash_sizes_ok E -> sched_ok S -> forall file es sections minSdk maxSdk z res,
  verifies E S file minSdk maxSdk z res -> apk_with file es sections -> 28 <= minSdk \/ ~ v3_in maxSdk es ->
  (maxSdk < 24 /\ chains res = []) \/
  (scheme res = 2 /\ exists is, v2_verified E maxSdk es sections is /\ chains res = chains2 is /\ reported_lineage res = None) \/
  (scheme res = 3 /\ exists is, v3_verified E minSdk maxSdk es sections is (reported_lineage res) /\ chains res = chains3 is) \/
  (scheme res = 31 /\ exists is is3, v31_verified E minSdk maxSdk es sections is (reported_lineage res) is3 /\ chains res = chains3 is).
Proof.
  intros E S HE HS file es sections minSdk maxSdk z res V A D. pose proof (verifies_known E S HE HS _ _ _ _ _ _ _ V A) as Vd.
  inversion Vd as [M' Q1 Q2 |is31 is3 Q V' Qc|is' Id N V' Qc|is' Id N N3 V' Qc Ql|is' c0 Id N V3 Mi _ Ve _].
  - left. auto.
  - right. right. right. split; [assumption|]. exists is31, is3. auto.
  - right. right. left. split; [assumption|]. exists is'. auto.
  - right. left. split; [assumption|]. exists is'. auto.
  - exfalso. destruct D; [lia | contradiction].
Qed.
Print Assumptions C23_chains_partial.
(** C23 in the fallback, exactly: the chains of the accepted v2 signers come last; in front of them stand the
    chains, and the lineage reported is the lineage, of the v3 run that failed (the one the call returns for
    minSdk 28). *)
Theorem C23_fallback_partial : forall E S, hash_sizes_ok E -> sched_ok S -> forall file es sections minSdk maxSdk z res res28 err,
  apk_with file es sections -> verifies E S file minSdk maxSdk z res -> scheme res = 2 -> v3_in maxSdk es ->
  returns E S file 28 maxSdk z res28 err ->
  exists is, v2_verified E maxSdk es sections is /\ chains res = chains res28 ++ chains2 is /\ reported_lineage res = reported_lineage res28.
Proof.
  intros E S HE HS file es sections minSdk maxSdk z res res28 err A V I V3 R.
  destruct (fallback_whole E S HE HS _ _ _ _ _ _ _ _ _ A V I V3 R) as (_ & _ & is & w & Hv & Hc & Hl & _). exists is. auto.
Qed.
Print Assumptions C23_fallback_partial.
(** C23 is false in the fallback: B's chain is reported although only A's v2 signature was accepted (B's v3
    block signs the wrong digest); signingblock.go:172-187 does not reset the certificates. *)
Theorem C23_refuted : exists E S file res, hash_sizes_ok E /\ sched_ok S /\
  file = toy_file [(id_v2, toy_block [toy_signer2 kA toy_digest [(0xbeeff00d, le32 3)]]); (id_v3, toy_block [toy_signer3 kB kC 28 34 28 34 []])] /\
  verifies E S file 21 32 toy_zip res /\ scheme res = 2 /\ chains res = [[toy_cert kB]; [toy_cert kA]].
Proof.
  exists toy_env, toy_sched. eexists _, _. split; [exact toy_hash_sizes|]. split; [exact toy_sched_ok|]. split; [reflexivity|].
  split; [eexists; split; [vm_compute; reflexivity | split; reflexivity]|]. split; reflexivity.
Qed.
Print Assumptions C23_refuted.

(** C44, proved part: outside the fallback ExtractCerts agrees. *)
Theorem C44_extract_partial : forall E S, hash_sizes_ok E -> sched_ok S -> forall file es sections minSdk maxSdk z res,
  verifies E S file minSdk maxSdk z res -> apk_with file es sections -> 24 <= maxSdk -> 28 <= minSdk \/ ~ v3_in maxSdk es ->
  extractCertsReader E file minSdk maxSdk = Ret (chains res, None).
Proof.
  intros E S HE HS file es sections minSdk maxSdk z res V A M D. pose proof (verifies_known E S HE HS _ _ _ _ _ _ _ V A) as Vd. destruct V as (vr & H & R & Er).
  apply (extract_agrees E S HE HS _ _ _ _ _ _ H Er R M). exists es, sections. split; [assumption|]. intro Id.
  unfold scheme in Vd. rewrite Id in Vd. destruct (scheme_2 _ _ _ _ _ _ _ Vd) as (is & c0 & _ & _ & _ & [(_ & N3 & _)|(Mi & V3 & _)]); [assumption|]. destruct D; [lia | assumption].
Qed.
Print Assumptions C44_extract_partial.
(** C44 in the fallback, exactly: Verify reports the chains ExtractCerts returns, followed by those of the
    accepted v2 signers. *)
Theorem C44_fallback_partial : forall E S, hash_sizes_ok E -> sched_ok S -> forall file es sections minSdk maxSdk z res,
  verifies E S file minSdk maxSdk z res -> apk_with file es sections -> scheme res = 2 -> v3_in maxSdk es ->
  exists cs e is, extractCertsReader E file minSdk maxSdk = Ret (cs, e) /\ v2_verified E maxSdk es sections is /\ chains res = cs ++ chains2 is.
Proof.
  intros E S HE HS file es sections minSdk maxSdk z res (vr & H & R & Er) A I V3.
  exact (extract_fallback E S HE HS _ _ _ _ _ _ _ _ H Er R A I V3).
Qed.
Print Assumptions C44_fallback_partial.
(** C44 is false in the fallback. *)
Theorem C44_refuted : exists E S file res cs, hash_sizes_ok E /\ sched_ok S /\
  verifies E S file 21 32 toy_zip res /\ extractCertsReader E file 21 32 = Ret (cs, None) /\ cs <> chains res.
Proof.
  exists toy_env, toy_sched, toy_fallback. eexists _, _. split; [exact toy_hash_sizes|]. split; [exact toy_sched_ok|].
  split; [eexists; split; [vm_compute; reflexivity | split; reflexivity]|]. split; [vm_compute; reflexivity | vm_compute; discriminate].
Qed.
Print Assumptions C44_refuted.
Example C44_fallback_nonvacuous : exists res cs, verifies toy_env toy_sched toy_fallback 21 32 toy_zip res /\ scheme res = 2 /\
  extractCertsReader toy_env toy_fallback 21 32 = Ret (cs, None) /\ chains res = cs ++ [[toy_cert kA]].
Proof.
  eexists _, _. split; [eexists; split; [vm_compute; reflexivity | split; reflexivity]|]. split; [reflexivity|]. split; vm_compute; reflexivity.
Qed.
Example C44_nonvacuous : exists cs, extractCertsReader toy_env toy_v3 28 33 = Ret (cs, None) /\ zlen cs = 2.
Proof. eexists. split; vm_compute; reflexivity. Qed.
