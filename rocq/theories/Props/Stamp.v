(** C37, C38, C39, C53: source stamps. *)
From Coq Require Import String.
From Coq Require Import Lia Permutation Sorted.
From Verif.Model Require Import Bytes Env SigBlock Result SourceStamp Verify.
From Verif.Spec Require Import Encoding ApkLayout Algorithms Nondet Digests Entries Signer SignerV3 Stamp Verified Calls.
From Verif.Proofs Require Import BytesFacts UtilsFacts StampFacts StampApkFacts StampSchedFacts.
From Verif.Examples Require Import Toy ToyApk.

(** C37 *)
Theorem C37_stamp : forall E S, hash_sizes_ok E -> sched_ok S -> forall file es sections minSdk maxSdk z res err st entry,
  returns E S file minSdk maxSdk z res err -> apk_with file es sections ->
  v_sourceStamp res = Some st -> st_errors st = [] -> sget stamp_entry_name (z_map z) = Some entry ->
  exists b c m, last_entry es id_stamp b /\ st_cert st = Some c /\
    zf_readall entry 65536 = Some (e_hash E HSha256 (c_raw c)) /\
    stamp_block E minSdk maxSdk (scheme res) m b c /\
    (err = None -> 24 <= maxSdk -> content_digests E sections m) /\
    (maxSdk < 24 -> exists d, manifest_digest E z d /\ m = [(4, d)]).
Proof.
  intros E S HE HS file es sections minSdk maxSdk z res err st entry R A St Er En.
  destruct (stamp_apk E S HE HS _ _ _ _ _ _ _ _ _ _ R A St Er En) as (b & c & m & H1 & H2 & H3 & H4 & H5 & H6 & _). exists b, c, m. auto 10.
Qed.
Print Assumptions C37_stamp.

(** C53 *)
Theorem C53_stamp_attributes : forall E S, hash_sizes_ok E -> sched_ok S -> forall file es sections minSdk maxSdk z res err st entry,
  returns E S file minSdk maxSdk z res err -> apk_with file es sections ->
  v_sourceStamp res = Some st -> st_errors st = [] -> sget stamp_entry_name (z_map z) = Some entry ->
  exists b c, last_entry es id_stamp b /\ st_cert st = Some c /\
    (st_lineage st <> [] -> exists al v, stamp_attrs E minSdk maxSdk b c al [] /\ last_entry al id_stamp_rotation v /\ stamp_lineage E c v (st_lineage st)) /\
    (forall t, st_time st = Some t -> 0 < t /\ exists al tail rest, stamp_attrs E minSdk maxSdk b c al tail /\ last_entry al id_stamp_time (le64 t ++ rest)).
Proof.
  intros E S HE HS file es sections minSdk maxSdk z res err st entry R A St Er En.
  destruct (stamp_apk E S HE HS _ _ _ _ _ _ _ _ _ _ R A St Er En) as (b & c & m & H1 & H2 & H3 & H4 & H5 & H6 & H7 & H8). exists b, c. auto 10.
Qed.
Print Assumptions C53_stamp_attributes.

(** An APK with a stamp by [kC], carrying a time and a lineage kA -> kC. *)
Definition st_digests : list (Z * bytes) := [(1, toy_digest)].
Definition st_sigs (algs : list (Z * bytes)) : bytes := lps (map (fun r => le32 (fst r) ++ lp (snd r)) algs).
Definition st_block (algs : list (Z * bytes)) : bytes :=
  let attrs := lp (toy_attr (0xe43c5946, le64 1234567) ++ toy_attr (0x9d6303f7, snd (toy_lineage [(kA, 7); (kC, 3)]))) in
  lp (lp kC ++ lp (lp (le32 2 ++ lp (st_sigs algs))) ++ lp attrs ++ lp (st_sigs [(0x0103, toy_sign kC attrs)])).
Definition st_msg : bytes := flat_map enc_digest st_digests.
Definition st_file (algs : list (Z * bytes)) : bytes :=
  toy_file [(id_v2, toy_block [toy_signer2 kA toy_digest []]); (id_stamp, st_block algs)].
Definition st_entry (h : bytes) : zfile :=
  {| zf_name := stamp_entry_name; zf_isdir := false; zf_open_ok := true; zf_streams := [Some h]; zf_readall := fun _ => Some h |}.
Definition st_zip (k : bytes) : zip := {| z_ordered := []; z_map := [(stamp_entry_name, st_entry (toy_hash HSha256 k))] |}.

Definition st_good : bytes := st_file [(0x0103, toy_sign kC st_msg)].
Example C37_nonvacuous :
  (exists res st, returns toy_env toy_sched st_good 21 32 (st_zip kC) res None /\ v_sourceStamp res = Some st /\ st_errors st = [] /\
     st_cert st = Some (toy_cert kC) /\ st_time st = Some 1234567 /\ map ln_cert (st_lineage st) = [toy_cert kA; toy_cert kC]) /\
  (* other certificate in the ZIP entry *)
  (exists res st, returns toy_env toy_sched st_good 21 32 (st_zip kB) res None /\ v_sourceStamp res = Some st /\ st_errors st = [SErrCertMismatch]) /\
  (* signature by another key *)
  (exists res st, returns toy_env toy_sched (st_file [(0x0103, toy_sign kB st_msg)]) 21 32 (st_zip kC) res None /\ v_sourceStamp res = Some st /\ st_errors st <> []).
Proof.
  split; [|split].
  - eexists _, _. split; [eexists; split; [vm_compute; reflexivity | split; reflexivity]|]. repeat split.
  - eexists _, _. split; [eexists; split; [vm_compute; reflexivity | split; reflexivity]|]. repeat split.
  - eexists _, _. split; [eexists; split; [vm_compute; reflexivity | split; reflexivity]|]. split; [reflexivity|discriminate].
Qed.

(** C39: the signed message is independent of the schedule and of the order in the map, and determines the map. *)
Theorem C39_canonical : forall S S' m m', sched_ok S -> sched_ok S' -> NoDup (map fst m) -> Permutation m m' ->
  getSignatureSchemeDigest S m = getSignatureSchemeDigest S' m'.
Proof. intros S S' m m' HS HS' N P. eapply message_fun; [exact N|exact P| |]; apply message_spec; auto. Qed.
Print Assumptions C39_canonical.
Theorem C39_encoding : forall S m, sched_ok S -> stamp_message m (getSignatureSchemeDigest S m).
Proof. intros S m HS. apply message_spec; auto. Qed.
Print Assumptions C39_encoding.
Definition digest_size_ok (p : Z * bytes) : Prop := is_int32 (fst p) /\ zlen (snd p) <= 2147483639.
Theorem C39_injective : forall S S' m m', sched_ok S -> sched_ok S' -> Forall digest_size_ok m -> Forall digest_size_ok m' ->
  getSignatureSchemeDigest S m = getSignatureSchemeDigest S' m' -> Permutation m m'.
Proof.
  intros S S' m m' HS HS' F F' Q.
  destruct (message_spec S m m HS (Permutation_refl _)) as (l & P & _ & H). destruct (message_spec S' m' m' HS' (Permutation_refl _)) as (l' & P' & _ & H').
  assert (W : forall x y, Permutation x y -> Forall digest_size_ok y -> Forall (fun p => is_int32 (fst p) /\ fits (enc_rec (fst p, lp (snd p)))) x).
  { intros x y Pxy Fy. symmetry in Pxy. apply (Permutation_Forall Pxy) in Fy. eapply Forall_impl; [|exact Fy]. intros p [I L]. split; [assumption|].
    unfold fits, enc_rec, lp, le32. cbn [fst snd]. rewrite !zlen_app, !le_enc_zlen. lia. }
  rewrite <- P, <- P'. rewrite (digests_inj l l'); [reflexivity|eapply W; eassumption|eapply W; eassumption|congruence].
Qed.
Print Assumptions C39_injective.
Example C39_nonvacuous : getSignatureSchemeDigest toy_sched [(2, kA); (1, kB)] = getSignatureSchemeDigest toy_sched [(1, kB); (2, kA)] /\
  getSignatureSchemeDigest toy_sched [(2, kA); (1, kB)] <> getSignatureSchemeDigest toy_sched [(1, kA); (2, kB)] /\
  Forall digest_size_ok [(2, kA); (1, kB)].
Proof. split; [reflexivity|]. split; [vm_compute; discriminate|]. repeat constructor; cbn; unfold is_int32; try lia; vm_compute; discriminate. Qed.

(** C38: without two equally strong offered algorithms of one level the whole stamp result is the same under every schedule. *)
Theorem C38_untied_partial : forall E S S', hash_sizes_ok E -> sched_ok S -> sched_ok S' -> forall file minSdk maxSdk z res err res' err',
  returns E S file minSdk maxSdk z res err -> returns E S' file minSdk maxSdk z res' err' ->
  (forall es sections b, apk_with file es sections -> last_entry es id_stamp b -> untied_stamp b) ->
  v_sourceStamp res = v_sourceStamp res'.
Proof. intros E S S' HE HS HS' file minSdk maxSdk z res err res' err' R R' U. exact (stamp_sched E HE S S' file minSdk maxSdk z res err res' err' HS HS' R R' U). Qed.
Print Assumptions C38_untied_partial.

(** C38 is false in general: a stamp with a valid RSA signature and junk for the equally ranked DSA algorithm
    is accepted or rejected depending on the iteration order. *)
Definition rev_sched : sched := {| ord := fun _ _ _ l => rev l; srt := fun _ less l => isort less l |}.
Lemma rev_sched_ok : sched_ok rev_sched.
Proof. split; intros; cbn; [symmetry; apply Permutation_rev | apply isort_perm | now apply isort_sorted]. Qed.
Theorem C38_refuted : exists E S S' file z res res' st st',
  hash_sizes_ok E /\ sched_ok S /\ sched_ok S' /\ returns E S file 21 32 z res None /\ returns E S' file 21 32 z res' None /\
  v_sourceStamp res = Some st /\ st_errors st = [] /\ v_sourceStamp res' = Some st' /\ st_errors st' <> [].
Proof.
  exists toy_env, toy_sched, rev_sched, (st_file [(0x0103, toy_sign kC st_msg); (0x0301, kA)]), (st_zip kC). eexists _, _, _, _.
  split; [exact toy_hash_sizes|]. split; [exact toy_sched_ok|]. split; [exact rev_sched_ok|].
  split; [eexists; split; [vm_compute; reflexivity | split; reflexivity]|]. split; [eexists; split; [vm_compute; reflexivity | split; reflexivity]|].
  split; [reflexivity|]. split; [reflexivity|]. split; [reflexivity|]. discriminate.
Qed.
Print Assumptions C38_refuted.

(** The hypothesis of C38_untied_partial holds of a concrete stamp with three algorithms of different rank. *)
Example C38_nonvacuous : untied [(0x0103, kA); (0x0104, kB); (0x0201, kC)] /\ ~ untied [(0x0103, kA); (0x0301, kB)].
Proof.
  split.
  - intros a a' k m I I' T T'. cbn [map fst In] in I, I'.
    destruct I as [<-|[<-|[<-|[]]]]; destruct I' as [<-|[<-|[<-|[]]]]; try reflexivity; in_table T; in_table T'; congruence.
  - intro U. specialize (U 0x0103 0x0301 ChunkedSha256 1). cbn in U. assert (0x0103 = 0x0301); [|discriminate]. apply U; auto 20.
Qed.

Lemma enc_rec_inj r r' : is_int32 (fst r) -> is_int32 (fst r') -> enc_rec r = enc_rec r' -> r = r'.
Proof.
  destruct r as [a f], r' as [a' f']. cbn [fst]. intros I I' Q. unfold enc_rec in Q. cbn [fst snd] in Q.
  assert (X : read_i32 (le_enc 4 a ++ f) = read_i32 (le_enc 4 a' ++ f')) by (unfold le32 in Q; now rewrite Q).
  rewrite !read_i32_enc in X. rewrite !wrap32_id in X by (unfold min_int32, max_int32, is_int32 in *; lia). congruence.
Qed.
Lemma records_unique rs rs' : Forall (fun r => is_int32 (fst r) /\ fits (enc_rec r)) rs -> Forall (fun r => is_int32 (fst r) /\ fits (enc_rec r)) rs' ->
  lps (map enc_rec rs) = lps (map enc_rec rs') -> rs = rs'.
Proof.
  intros F F' Q. apply lps_inj in Q.
  - revert rs' F' Q. induction F as [|r rs [I _] F IH]; intros [|r' rs'] F' Q; try discriminate; [reflexivity|]. inversion F' as [|? ? [I' _] F2]; subst.
    cbn [map] in Q. apply cons_inv in Q as [Q1 Q2]. f_equal; [now apply enc_rec_inj | now apply IH].
  - clear - F. induction F as [|? ? [_ ?] ? ?]; constructor; assumption.
  - clear - F'. induction F' as [|? ? [_ ?] ? ?]; constructor; assumption.
Qed.
(** ... and the stamp of [C37_nonvacuous] meets it. *)
Example C38_untied_stamp : untied_stamp (st_block [(0x0103, toy_sign kC st_msg)]).
Proof.
  assert (U1 : forall v rs, stamp_records (st_sigs [(0x0103, v)]) rs -> fits (enc_rec (0x0103, lp v)) -> untied rs).
  { intros v rs [Q F] Fv. change (st_sigs [(0x0103, v)]) with (lps (map enc_rec [(0x0103, lp v)])) in Q. apply records_unique in Q.
    - subst rs. intros a a' k m [<-|[]] [<-|[]] _ _. reflexivity.
    - constructor; [split; [unfold is_int32; cbn; lia|exact Fv]|constructor].
    - eapply Forall_impl; [|exact F]. intros r (A & B & _). auto. }
  intros enc schemes rest L. set (attrs := lp (toy_attr (0xe43c5946, le64 1234567) ++ toy_attr (0x9d6303f7, snd (toy_lineage [(kA, 7); (kC, 3)])))).
  assert (L0 : stamp_layout (st_block [(0x0103, toy_sign kC st_msg)]) kC (lp (le32 2 ++ lp (st_sigs [(0x0103, toy_sign kC st_msg)]))) (lp attrs ++ lp (st_sigs [(0x0103, toy_sign kC attrs)]))).
  { eexists _, []. split; [rewrite app_nil_r; reflexivity|]. split; [vm_compute; discriminate|]. split; [reflexivity|]. split; vm_compute; discriminate. }
  destruct (layout_fun _ _ _ _ _ _ _ L L0) as (-> & -> & ->). split.
  - intros scheme sigs rs (ss & f & Q & F & La & Hv) R.
    change (lp (le32 2 ++ lp (st_sigs [(0x0103, toy_sign kC st_msg)]))) with (lps (map enc_rec [(2, lp (st_sigs [(0x0103, toy_sign kC st_msg)]))])) in Q.
    apply records_unique in Q.
    + subst ss. destruct La as (p & q & Q & _). destruct p as [|? [|]]; try discriminate. cbn [app] in Q. apply cons_inv in Q as [Q _].
      assert (f = lp (st_sigs [(0x0103, toy_sign kC st_msg)])) as -> by congruence.
      assert (sigs = st_sigs [(0x0103, toy_sign kC st_msg)]) as ->.
      { eapply holds_value_inj; [exact Hv|]. exists []. rewrite app_nil_r. split; [reflexivity | vm_compute; discriminate]. }
      eapply U1; [exact R | vm_compute; discriminate].
    + constructor; [split; [unfold is_int32; cbn; lia|vm_compute; discriminate]|constructor].
    + eapply Forall_impl; [|exact F]. intros r (A & B & _). auto.
  - intros attrs' sigs rs (j & Q & Fa & Fs) R. apply lp_head in Q as [_ Q]; [|vm_compute; discriminate|assumption].
    assert (Q2 : lp (st_sigs [(0x0103, toy_sign kC attrs)]) ++ [] = lp sigs ++ j) by (rewrite app_nil_r; exact Q).
    apply lp_head in Q2 as [<- _]; [|vm_compute; discriminate|assumption]. eapply U1; [exact R | vm_compute; discriminate].
Qed.
