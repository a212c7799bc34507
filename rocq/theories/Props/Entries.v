(** C03, C04, C43: entries of the signing block, scheme precedence, ExtraBlocks. *)
From Coq Require Import Lia.
From Verif.Model Require Import Bytes Env SigBlock Result Verify.
From Verif.Spec Require Import Encoding ApkLayout Nondet Digests Entries Verified Calls.
From Verif.Proofs Require Import EntriesFacts ApkFacts CallFacts.
From Verif.Examples Require Import Toy ToyApk.

(** C03: the pairs loop decodes exactly the sequences of entries; the blocks handed to the scheme
    verifiers are the last payloads of the ids known at the max SDK, the others go to ExtraBlocks. *)
Theorem C03_entries_decoded : forall E file maxSdk fr,
  findSignatureBlocks E file maxSdk = Ret fr ->
  ((exists st s, fr = FindOk st s) <-> exists before pairs cd rec es, apk file before pairs cd rec /\ entries_of pairs es) /\
  (forall st s before pairs cd rec es, fr = FindOk st s -> apk file before pairs cd rec -> entries_of pairs es ->
     (forall id p, zget id (en_blocks st) = Some p <-> used_at maxSdk id /\ last_entry es id p) /\
     (forall id p, zget id (v_extraBlocks (en_res st)) = Some p <-> extra_at maxSdk id /\ last_entry es id p)).
Proof. exact findSignatureBlocks_iff. Qed.
Print Assumptions C03_entries_decoded.

(** ... so a malformed sequence is never accepted, *)
Theorem C03_malformed_rejected : forall E S, hash_sizes_ok E -> sched_ok S -> forall file minSdk maxSdk z res,
  verifies E S file minSdk maxSdk z res -> exists es sections, apk_with file es sections.
Proof. intros E S HE HS file minSdk maxSdk z res (vr & H & _ & Er). destruct (verifySigningBlock_sound E S HE HS _ _ _ _ _ H Er) as (es & sec & ? & A & _). eauto. Qed.
Print Assumptions C03_malformed_rejected.

(** ... and ExtraBlocks of the final result holds the entries that were not used (plus possibly v3.0). *)
Theorem C03_extra_blocks : forall E S, hash_sizes_ok E -> sched_ok S -> forall file es sections minSdk maxSdk z res err,
  apk_with file es sections -> returns E S file minSdk maxSdk z res err ->
  forall id p,
    (extra_at maxSdk id -> last_entry es id p -> extra_block res id = Some p) /\
    (extra_block res id = Some p -> last_entry es id p /\ (extra_at maxSdk id \/ id = id_v3 /\ minSdk < 28 /\ err <> None \/ id = id_v3 /\ minSdk < 28 /\ scheme res = 2)).
Proof. exact extra_blocks. Qed.
Print Assumptions C03_extra_blocks.

Example C03_nonvacuous : exists fr st s, findSignatureBlocks toy_env toy_v3 30 = Ret fr /\ fr = FindOk st s /\
  zget id_v3 (en_blocks st) <> None /\ zget id_v2 (en_blocks st) <> None.
Proof. do 3 eexists. split; [vm_compute; reflexivity|]. split; [reflexivity|]. split; vm_compute; discriminate. Qed.

(** C04: which scheme decides. *)
Theorem C04_precedence : forall E S file es sections minSdk maxSdk z res err,
  apk_with file es sections -> 24 <= maxSdk -> returns E S file minSdk maxSdk z res err ->
  (v31_in maxSdk es -> scheme res = 31) /\
  (~ v31_in maxSdk es -> v3_in maxSdk es -> scheme res = 3 \/ scheme res = 2 /\ minSdk < 28 /\ v2_in maxSdk es) /\
  (~ v31_in maxSdk es -> ~ v3_in maxSdk es -> v2_in maxSdk es -> scheme res = 2) /\
  (~ v31_in maxSdk es -> ~ v3_in maxSdk es -> ~ v2_in maxSdk es -> scheme res = 1 /\ exists m, err = Some (ErrNotFound m)).
Proof. exact precedence. Qed.
Print Assumptions C04_precedence.

Example C04_nonvacuous : exists res, verifies toy_env toy_sched toy_v31 28 40 toy_zip res /\ scheme res = 31.
Proof. eexists. split; [eexists; split; [vm_compute; reflexivity | split; reflexivity] | reflexivity]. Qed.

(** C43: below API 33 and without a fallback to v2, ExtraBlocks holds no scheme that was verified. *)
Theorem C43_extra_blocks_partial : forall E S, hash_sizes_ok E -> sched_ok S -> forall file es sections minSdk maxSdk z res err,
  apk_with file es sections -> returns E S file minSdk maxSdk z res err ->
  28 <= minSdk -> maxSdk < 33 -> forall id, used_at maxSdk id -> extra_block res id = None.
Proof.
  intros E S HE HS file es sections minSdk maxSdk z res err A R Mi Ma id U.
  destruct (extra_block res id) as [p|] eqn:X; [|reflexivity]. exfalso.
  destruct (extra_blocks E S HE HS _ _ _ _ _ _ _ _ A R id p) as [_ H]. destruct (H X) as [_ [Q|[Q|Q]]]; [|lia|lia].
  unfold used_at, extra_at in *. decompose [and] Q. decompose [or and] U; subst; try (unfold id_v2, id_v3, id_v31, id_stamp in *; lia);
    match goal with Y : ?a = ?a -> _ |- _ => specialize (Y eq_refl) end; unfold id_v2, id_v3, id_v31, id_stamp in *; try lia; auto.
Qed.
Print Assumptions C43_extra_blocks_partial.

(** For accepted files, exactly: of the block types the max SDK knows, only v3.0 can be in ExtraBlocks, and it
    is there if and only if the file has it and the max SDK is at least 33 or the verdict is that of v2. *)
Theorem C43_exact_partial : forall E S, hash_sizes_ok E -> sched_ok S -> forall file es sections minSdk maxSdk z res,
  apk_with file es sections -> verifies E S file minSdk maxSdk z res ->
  forall id p, used_at maxSdk id -> (extra_block res id = Some p <-> id = id_v3 /\ last_entry es id p /\ (33 <= maxSdk \/ scheme res = 2)).
Proof.
  intros E S HE HS file es sections minSdk maxSdk z res A R id p U. destruct (extra_blocks E S HE HS _ _ _ _ _ _ _ _ A R id p) as [H1 H2].
  split.
  - intro X. destruct (H2 X) as [L [Q|[(_ & _ & Q)|(-> & _ & Q)]]]; [|congruence|auto].
    unfold used_at, extra_at in *. decompose [and] Q. decompose [or and] U; subst;
    match goal with Y : ?a = ?a -> _ |- _ => specialize (Y eq_refl) | Y : ?a <> ?a |- _ => exfalso; apply Y; reflexivity end; try lia.
    split; [reflexivity|]. split; [assumption|]. lia.
  - intros (-> & L & [M|Q]); [|apply (extra_fallback E S _ _ _ _ _ _ _ _ A R); auto].
    + apply H1; [|assumption]. unfold extra_at, id_padding, id_frosting, id_stamp, id_v2, id_v3, id_v31. repeat split; lia.
    + unfold used_at, id_v2, id_v3, id_v31, id_stamp in U. lia.
Qed.
Print Assumptions C43_exact_partial.

(** From API 33 on the v3.0 block is in ExtraBlocks although it was parsed and verified. *)
Theorem C43_refuted : exists E S file maxSdk res, hash_sizes_ok E /\ sched_ok S /\
  verifies E S file 28 maxSdk toy_zip res /\ scheme res = 3 /\ used_at maxSdk id_v3 /\ extra_block res id_v3 <> None.
Proof.
  exists toy_env, toy_sched, toy_v3, 33. eexists. split; [exact toy_hash_sizes|]. split; [exact toy_sched_ok|].
  split; [eexists; split; [vm_compute; reflexivity | split; reflexivity]|].
  split; [reflexivity|]. split; [unfold used_at; lia|]. vm_compute. discriminate.
Qed.
Print Assumptions C43_refuted.
