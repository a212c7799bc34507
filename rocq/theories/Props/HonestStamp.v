(** C84: honestly made source stamps verify. *)
From Coq Require Import String.
From Coq Require Import Lia Permutation Sorted.
From Verif.Model Require Import Bytes Env SigBlock Result SchemeV2 SchemeV3 SourceStamp Verify.
From Verif.Spec Require Import Encoding ApkLayout Algorithms Nondet Digests Entries Signer SignerV3 Stamp HonestStamp Honest Verified Calls.
From Verif.Proofs Require Import BytesFacts UtilsFacts SignerFacts LineageFacts HonestFacts StampFacts StampApkFacts StampHonest.
From Verif.Examples Require Import Toy ToyApk ToyWith.
From Verif.Props Require Import SchemeV2 Stamp.

Theorem C84_honest_stamp : forall E S, hash_sizes_ok E -> sched_ok S -> forall file es sections minSdk maxSdk z res err scheme m b c t ns entry,
  returns E S file minSdk maxSdk z res err -> apk_with file es sections ->
  last_entry es id_stamp b ->
  sget stamp_entry_name (z_map z) = Some entry -> zf_readall entry 65536 = Some (e_hash E HSha256 (c_raw c)) ->
  stamped_digests E minSdk maxSdk es sections z scheme m ->
  honest_stamp E minSdk maxSdk scheme m b c t ns ->
  exists st, v_sourceStamp res = Some st /\ st_errors st = [] /\ st_cert st = Some c /\ st_time st = t /\ st_lineage st = ns.
Proof. intros. eapply stamp_apk_complete; eassumption. Qed.
Print Assumptions C84_honest_stamp.

Theorem C84_no_panic : forall E S, hash_sizes_ok E -> sched_ok S -> forall file es sections minSdk maxSdk z scheme m b c t ns entry,
  apk_with file es sections -> ~ In id_frosting (map fst es) -> last_entry es id_stamp b ->
  sget stamp_entry_name (z_map z) = Some entry -> zf_readall entry 65536 = Some (e_hash E HSha256 (c_raw c)) ->
  stamped_digests E minSdk maxSdk es sections z scheme m ->
  honest_stamp E minSdk maxSdk scheme m b c t ns ->
  exists res err, returns E S file minSdk maxSdk z res err.
Proof. intros. eapply stamp_apk_total; eassumption. Qed.
Print Assumptions C84_no_panic.

(** The APK of [C37_nonvacuous] meets the hypotheses. *)
Definition st_attrs : bytes := lp (toy_attr (0xe43c5946, le64 1234567) ++ toy_attr (0x9d6303f7, snd (toy_lineage [(kA, 7); (kC, 3)]))).
Definition st_entries : list (Z * bytes) :=
  [(id_v2, toy_block [toy_signer2 kA toy_digest []]); (id_stamp, st_block [(0x0103, toy_sign kC st_msg)])].

Lemma st_signed data : stamp_signed_all toy_env (KRsa kC 2048) 21 32 data (st_sigs [(0x0103, toy_sign kC data)]).
Proof.
  assert (Sz : zlen (toy_sign kC data) = 35).
  { unfold toy_sign. rewrite zlen_app. pose proof (toy_hash_sizes HSha256 data) as X. cbn [e_hash toy_env] in X. rewrite X. reflexivity. }
  exists [(0x0103, lp (toy_sign kC data))]. 
  assert (Hv : holds_value (lp (toy_sign kC data)) (toy_sign kC data)).
  { exists []. rewrite app_nil_r. split; [reflexivity|]. unfold fits. lia. }
  assert (Su : supported 0x0103) by (exists ChunkedSha256, 1; cbn; tauto).
  assert (La : last_entry [(0x0103, lp (toy_sign kC data))] 0x0103 (lp (toy_sign kC data))) by (exists [], []; split; [reflexivity | intros []]).
  split; [|split].
  - split; [reflexivity|]. constructor; [|constructor]. cbn [fst snd]. split; [unfold is_int32; lia|]. split; [|intros _; eauto].
    unfold fits, enc_rec, lp, le32. cbn [fst snd]. rewrite !zlen_app, !le_enc_zlen, Sz. lia.
  - intros a s k mm (_ & f & L & H) T _. pose proof L as (p & q & Q & _). destruct p as [|? [|]]; try discriminate. cbn [app] in Q.
    assert (a = 0x0103 /\ f = lp (toy_sign kC data)) as [-> ->] by (split; congruence).
    rewrite (holds_value_inj _ _ _ H Hv). constructor. cbn. apply bytes_eqb_refl.
  - exists 0x0103, (toy_sign kC data), ChunkedSha256, 1. split; [split; [assumption|]; eauto|]. split; [cbn; tauto | lia].
Qed.

Example C84_nonvacuous : exists ns,
  stamped_digests toy_env 21 32 st_entries toy_sections (st_zip kC) 2 st_digests /\
  honest_stamp toy_env 21 32 2 st_digests (st_block [(0x0103, toy_sign kC st_msg)]) (toy_cert kC) (Some 1234567) ns /\ ns <> [] /\
  apk_with st_good st_entries toy_sections /\ last_entry st_entries id_stamp (st_block [(0x0103, toy_sign kC st_msg)]) /\
  sget stamp_entry_name (z_map (st_zip kC)) = Some (st_entry (toy_hash HSha256 kC)).
Proof.
  assert (exists ns, readSigningCertificateLineage (andr_certs toy_env) (snd (toy_lineage [(kA, 7); (kC, 3)])) = Ret (Some ns) /\
            exists l n, ns = l ++ [n] /\ c_raw (ln_cert n) = kC) as (ns & Rl & l & n & En & Ec).
  { eexists. split; [vm_compute; reflexivity|]. eexists [_], _. split; reflexivity. }
  assert (Li : stamp_lineage toy_env (toy_cert kC) (snd (toy_lineage [(kA, 7); (kC, 3)])) ns).
  { split; [|eauto]. apply readLineage_iff in Rl as [[X _]|X]; [|exact X]. vm_compute in X. discriminate. }
  exists ns. split; [|split; [|split; [subst ns; destruct l; discriminate|split; [|split; [|reflexivity]]]]].
  - right. right. left. split; [reflexivity|]. split; [intros [X _]; lia|]. split; [intros [_ X]; cbn in X; intuition discriminate|].
    destruct (honest_v2 toy_env toy_hash_sizes toy_sections 32 st_entries [toy_honest kA toy_digest]) as (is & V & _).
    + discriminate.
    + unfold zlen. cbn. lia.
    + lia.
    + exists [], [(id_stamp, st_block [(0x0103, toy_sign kC st_msg)])]. split; [vm_compute; reflexivity|]. cbn. intros [X|[]]. discriminate.
    + vm_compute. discriminate.
    + constructor; [|constructor]. split; [apply C12_nonvacuous | constructor].
    + exists is. split; [exact V|]. destruct V as (_ & _ & bl & Lb & B & _).
      assert (bl = toy_block [toy_signer2 kA toy_digest []]).
      { eapply last_entry_inj; [exact Lb|]. exists [], [(id_stamp, st_block [(0x0103, toy_sign kC st_msg)])]. split; [reflexivity|]. cbn. intros [X|[]]. discriminate. }
      subst bl. destruct (v2_recorded_run _ _ _ _ _ B) as (mm & r & Pr & Re).
      assert (exists r', v2ParseSigners toy_env 32 all_blocks (toy_block [toy_signer2 kA toy_digest []]) [] core0 = Ret (st_digests, r')) as (r' & Pr').
      { eexists. vm_compute. reflexivity. }
      rewrite Pr in Pr'. assert (mm = st_digests) by congruence. subst mm. exact Re.
  - exists kC, (lp (le32 2 ++ lp (st_sigs [(0x0103, toy_sign kC st_msg)]))), (lp st_attrs ++ lp (st_sigs [(0x0103, toy_sign kC st_attrs)])), (st_sigs [(0x0103, toy_sign kC st_msg)]), st_msg.
    split; [|split; [reflexivity|split; [|split; [|split]]]].
    + eexists _, []. split; [rewrite app_nil_r; reflexivity|]. split; [vm_compute; discriminate|]. split; [reflexivity|]. split; vm_compute; discriminate.
    + exists [(2, lp (st_sigs [(0x0103, toy_sign kC st_msg)]))], (lp (st_sigs [(0x0103, toy_sign kC st_msg)])). split; [reflexivity|].
      assert (Hv : holds_value (lp (st_sigs [(0x0103, toy_sign kC st_msg)])) (st_sigs [(0x0103, toy_sign kC st_msg)])).
      { exists []. rewrite app_nil_r. split; [reflexivity | vm_compute; discriminate]. }
      split; [|split; [exists [], []; split; [reflexivity | intros []]|exact Hv]].
      constructor; [|constructor]. split; [unfold is_int32; cbn; lia|]. split; [vm_compute; discriminate | eauto].
    + exists st_digests. split; [reflexivity|]. split; [repeat constructor | reflexivity].
    + apply st_signed.
    + right. exists st_attrs, (st_sigs [(0x0103, toy_sign kC st_attrs)]), (toy_attr (0xe43c5946, le64 1234567) ++ toy_attr (0x9d6303f7, snd (toy_lineage [(kA, 7); (kC, 3)]))), [],
        [(0xe43c5946, le64 1234567); (0x9d6303f7, snd (toy_lineage [(kA, 7); (kC, 3)]))].
      split; [exists []; split; [rewrite app_nil_r; reflexivity | split; vm_compute; discriminate]|]. split; [apply st_signed|]. split; [rewrite app_nil_r; reflexivity|]. split; [vm_compute; discriminate|].
      split; [split; [rewrite <- (app_nil_r (toy_attr (0x9d6303f7, _))); reflexivity | repeat constructor; unfold is_uint32; cbn [fst]; try lia; vm_compute; discriminate]|].
      split; [split|split].
      * intros v [X|[X|[]]]; [|discriminate]. assert (v = le64 1234567) as -> by congruence. exists 1234567, []. rewrite app_nil_r. split; [reflexivity | lia].
      * intros v [X|[X|[]]]; [discriminate|]. assert (v = snd (toy_lineage [(kA, 7); (kC, 3)])) as -> by congruence. eauto.
      * split; [lia|]. exists []. rewrite app_nil_r. exists [], [(0x9d6303f7, snd (toy_lineage [(kA, 7); (kC, 3)]))]. split; [reflexivity|]. cbn. intros [X|[]]. discriminate.
      * subst ns. destruct l as [|n0 l]; (exists (snd (toy_lineage [(kA, 7); (kC, 3)])); split; [|exact Li]);
          (exists [(0xe43c5946, le64 1234567)], []; split; [reflexivity | intros []]).
  - apply (toy_with st_entries).
    + repeat constructor; unfold is_uint32; cbn [fst]; try (vm_compute; discriminate).
    + intros before id Q. exfalso. destruct before as [|? [|? [|]]]; cbn [app] in Q; try discriminate.
    + vm_compute. discriminate.
  - exists [(id_v2, toy_block [toy_signer2 kA toy_digest []])], []. split; [reflexivity | intros []].
Qed.
