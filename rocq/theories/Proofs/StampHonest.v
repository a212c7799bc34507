(** Honestly made source stamps verify. *)
From Coq Require Import String.
From Coq Require Import Lia Permutation Sorted.
From Verif.Model Require Import Bytes ApiLevel Env Utils SigBlock Result Signer SchemeV2 SchemeV3 DataSource Digest Frosting SourceStamp Verify.
From Verif.Spec Require Import Encoding Algorithms Nondet Signer SignerV3 Ranges ApkLayout Digests Entries Stamp HonestStamp Verified Calls.
From Verif.Proofs Require Import BytesFacts UtilsFacts SigBlockFacts SignerFacts SchemeV2Facts CollectFacts V2BlockFacts LineageFacts SchemeV3Facts V3BlockFacts RangeFacts CoveringFacts IntegrityFacts EntriesFacts VerifyFacts ApkFacts TotalFacts StampFacts StampApkFacts.

Lemma stampReadSigs_total rs : Forall recok rs -> forall m s, exists m' s', stampReadSigs (map enc_rec rs) true m s = (Some m', s').
Proof.
  induction 1 as [|[a f] rs (Ra & Fa & Sa) F IH]; intros m s; cbn [map stampReadSigs]; [eauto|].
  cbn [fst snd] in *. unfold enc_rec, le32. cbn [fst snd]. rewrite read_i32_enc_id by (unfold min_int32, max_int32, is_int32 in *; lia).
  destruct (isSupported a) eqn:Su; cbn [negb]; [|apply IH].
  apply isSupported_iff in Su. destruct (Sa Su) as (x & j & -> & Fx). rewrite getLP_enc by assumption. apply IH.
Qed.
Lemma stampCandidates_total sigs : forall maxSdk cand mp,
  Forall (fun x => supported (fst x)) sigs -> (forall m a x, zget m cand = Some (a, x) -> supported a) ->
  exists r, stampCandidates sigs maxSdk cand mp = Ret r.
Proof.
  induction sigs as [|[a s] sigs IH]; intros maxSdk cand mp F C; cbn [stampCandidates]; [eauto|].
  inversion F as [|? ? Su F']; subst. cbn [fst] in Su.
  destruct (maxSdk <? getMinSdkVersionJca a); [now apply IH|].
  assert (exists b, match zget (getMinSdkVersionJca a) cand with None => Ret true | Some (a0, _) => d <- compareAlgos a a0 ;; Ret (0 <? d) end = Ret b) as (b & ->).
  { destruct (zget (getMinSdkVersionJca a) cand) as [[a0 x0]|] eqn:Z; [|eauto]. destruct (C _ _ _ Z) as (k0 & m0 & T0). destruct Su as (k & m & T).
    destruct (compareAlgos_strength a a0 k k0) as (d & -> & _); [exists m; assumption|exists m0; assumption|]. cbn [obind]. eauto. }
  cbn [obind]. apply IH; [assumption|]. intros m a' x'. destruct b; [|apply C]. rewrite mget_mset. destruct (_ =? _); [intro Q; inversion Q; subst; assumption | apply C].
Qed.

Section Honest.
  Variables (E : env) (S : sched).
  Hypothesis HE : hash_sizes_ok E.
  Hypothesis HS : sched_ok S.

  Lemma stampVerifyAll_all key data l s : Forall (fun x => sig_valid E key (fst x) data (snd x)) l -> stampVerifyAll E key data l s = Ret (true, s).
  Proof.
    induction 1 as [|[a g] l V F IH]; cbn [stampVerifyAll]; [reflexivity|]. apply verifySignature_true in V. cbn [fst snd] in V. rewrite V. exact IH.
  Qed.

  Lemma filter_total k minSdk maxSdk sigs rs s :
    NoDup (map fst sigs) -> (forall a x, zget a sigs = Some x <-> offered rs a x) ->
    (exists a x kk m, offered rs a x /\ In (a, kk, m) algorithm_table /\ m <= minSdk /\ m <= maxSdk) ->
    exists tv, filterSignaturesToVerify S k minSdk maxSdk sigs s = Ret (tv, s) /\ tv <> [].
  Proof.
    intros N Hm (a0 & x0 & k0 & m0 & O0 & T0 & L0 & L0'). unfold filterSignaturesToVerify.
    pose proof (ord_perm S HS _ 10%nat k sigs) as P10.
    assert (Io : forall a x, In (a, x) (ord S _ 10 k sigs) <-> offered rs a x).
    { intros a x. rewrite <- (offered_map sigs rs) by assumption. split; intro I; eapply Permutation_in; [exact P10|exact I|symmetry; exact P10|exact I]. }
    assert (Fs : Forall (fun x => supported (fst x)) (ord S _ 10 k sigs)).
    { apply Forall_forall. intros [a x] I. apply Io in I. apply I. }
    destruct (stampCandidates_total (ord S _ 10 k sigs) maxSdk [] max_int32 Fs) as ([cand mp] & C); [discriminate|].
    rewrite C. cbn [obind].
    destruct (stampCandidates_ok (ord S _ 10 k sigs) [] maxSdk [] max_int32 cand mp) as [(Nc & C1 & C2) (M1 & M2)]; try assumption.
    { split; [constructor|]. split; [discriminate|]. intros ? ? ? ? []. }
    { split; [intros ? ? ? []|auto]. }
    cbn [app] in *. apply Io in O0. destruct (C2 _ _ _ _ O0 T0 L0') as (a1 & x1 & k1 & Z1 & _).
    destruct cand as [|c0 cand0]; [discriminate|]. set (cand := c0 :: cand0) in *. clearbody cand.
    assert (mp <= m0) by (eapply M1; [exact O0|exists k0; exact T0|assumption]).
    destruct (Z.ltb_spec minSdk mp); [lia|]. eexists. split; [reflexivity|].
    assert (Lo : forall l (m1 : list (Z * bytes)), (exists x, In x l) \/ m1 <> [] -> fold_left (fun m kv => zset (fst (snd kv)) (snd (snd kv)) m) (l : list (Z * (Z * bytes))) m1 <> []).
    { induction l as [|y l IH]; intros m1 H1; cbn [fold_left]; [destruct H1 as [(? & [])|]; assumption|]. apply IH. right.
      destruct m1 as [|[q w] m1]; cbn; [discriminate|]. destruct (_ =? _); discriminate. }
    apply Lo. left. exists (m0, (a1, x1)). eapply Permutation_in; [symmetry; apply (ord_perm S HS)|]. apply mget_in. exact Z1.
  Qed.

  Theorem stampSig_complete k minSdk maxSdk data c slice s : stamp_signed_all E (c_key c) minSdk maxSdk data slice ->
    exists s', stampVerifySignature E S k minSdk maxSdk data c slice s = Ret (true, s') /\ st_frame s s'.
  Proof.
    intros (rs & (-> & Fr) & V & Ex). unfold stampVerifySignature.
    rewrite lpItems_enc by (clear - Fr; induction Fr as [|r rs (_ & X & _) F IH]; cbn; constructor; assumption).
    destruct (stampReadSigs_total rs Fr [] s) as (m & s1 & R). rewrite R.
    assert (Fi : Forall fits (map enc_rec rs)) by (clear - Fr; induction Fr as [|r rs (_ & X & _) F IH]; cbn; constructor; assumption).
    destruct (stampReadSigs_ok (map enc_rec rs) Fi [] [] s m s1) with (ok := true) as (rs' & _ & Q & Fr' & N & Hm & Fm); try assumption; [constructor | constructor| |].
    { intros a x. cbn. split; [discriminate|]. intros (_ & f & ([|] & ? & Q & _) & _); discriminate. }
    cbn [app] in Hm. assert (rs' = rs).
    { clear - Q Fr Fr'. revert rs' Q Fr'. induction Fr as [|r rs (I & _) F IH]; intros [|r' rs'] Q Fr'; try discriminate; [reflexivity|].
      inversion Fr' as [|? ? (I' & _) F']; subst. cbn [map] in Q. apply cons_inv in Q as [Q1 Q2]. f_equal; [|now apply IH].
      destruct r as [a f], r' as [a' f']. cbn [fst] in *. unfold enc_rec, le32 in Q1. cbn [fst snd] in Q1.
      assert (X : read_i32 (le_enc 4 a ++ f) = read_i32 (le_enc 4 a' ++ f')) by now rewrite Q1.
      rewrite !read_i32_enc_id in X by (unfold min_int32, max_int32, is_int32 in *; lia). congruence. }
    subst rs'. clear Q Fr'.
    destruct (filter_total k minSdk maxSdk m rs s1 N Hm Ex) as (tv & Fv & Ne).
    destruct m as [|p m].
    { exfalso. destruct Ex as (a & x & _ & _ & O & _). apply Hm in O. discriminate. }
    set (sigs := p :: m) in *. clearbody sigs. rewrite Fv. cbn [obind].
    destruct (chosen_spec S HS _ _ _ _ _ _ _ _ N Hm Fv Ne) as (_ & Nt & T1 & _).
    destruct tv as [|t0 tv]; [contradiction|]. exists s1. split; [|exact Fm]. apply stampVerifyAll_all.
    apply Forall_forall. intros [a x] I. cbn [fst snd].
    assert (I' : In (a, x) (t0 :: tv)) by (eapply Permutation_in; [apply (ord_perm S HS)|exact I]).
    apply T1 in I' as (O & mm & (kk & T) & L). eapply V; eassumption.
  Qed.

  Lemma stampSchemes_total rs needed : Forall (fun r => is_int32 (fst r) /\ fits (enc_rec r) /\ exists s, holds_value (snd r) s) rs ->
    forall found s, exists r, stampSchemes (map enc_rec rs) true needed found s = (Some r, s).
  Proof.
    induction 1 as [|[a f] rs (Ra & Fa & x & j & Ef & Fx) F IH]; intros found s; cbn [map stampSchemes]; [eauto|].
    cbn [fst snd] in *. unfold enc_rec, le32. cbn [fst snd]. rewrite read_i32_enc_id by (unfold min_int32, max_int32, is_int32 in *; lia).
    rewrite Ef, getLP_enc by assumption. apply IH.
  Qed.
  Lemma schemes_complete schemes scheme sigs s : scheme_signatures schemes scheme sigs ->
    exists items, lpItems schemes = (items, true) /\ stampSchemes items true (stamp_scheme scheme) None s = (Some (Some sigs), s).
  Proof.
    intros (rs & f & -> & Fr & La & Hv).
    assert (Fi : Forall fits (map enc_rec rs)) by (clear - Fr; induction Fr as [|r rs (_ & X & _) F IH]; cbn; constructor; assumption).
    exists (map enc_rec rs). split; [now apply lpItems_enc|].
    destruct (stampSchemes_total rs (stamp_scheme scheme) Fr None s) as (r & R). rewrite R.
    apply (stampSchemes_ok _ _ Fi true []) in R as (rs' & _ & _ & Q & Fr' & Hr).
    2:{ intro x. split; [discriminate|]. intros (g & ([|] & ? & X & _) & _); discriminate. }
    assert (rs' = rs).
    { clear - Q Fr Fr'. revert rs' Q Fr'. induction Fr as [|r rs (I & _) F IH]; intros [|r' rs'] Q Fr'; try discriminate; [reflexivity|].
      inversion Fr' as [|? ? (I' & _) F']; subst. cbn [map] in Q. apply cons_inv in Q as [Q1 Q2]. f_equal; [|now apply IH].
      destruct r as [a f], r' as [a' f']. cbn [fst] in *. unfold enc_rec, le32 in Q1. cbn [fst snd] in Q1.
      assert (X : read_i32 (le_enc 4 a ++ f) = read_i32 (le_enc 4 a' ++ f')) by now rewrite Q1.
      rewrite !read_i32_enc_id in X by (unfold min_int32, max_int32, is_int32 in *; lia). congruence. }
    subst rs'. cbn [app] in Hr. f_equal. f_equal. apply Hr. exists f. auto.
  Qed.

  (** attributes *)
  Lemma lineage_complete v ns s : lineage_of (andr_certs E) v ns -> parseStampCertLineage E v s = Ret (ns, s).
  Proof.
    intro L. pose proof (proj2 (readLineage_iff (andr_certs E) v ns) (or_intror L)) as R. unfold readSigningCertificateLineage in R. unfold parseStampCertLineage.
    destruct v as [|b v].
    { exfalso. destruct L as (items & X & _). unfold le32 in X. cbn [le_enc] in X. discriminate. }
    destruct (read_i32 (b :: v)) as [[ver rest]|]; [|discriminate]. change lineageVersionFirst with 1 in R.
    destruct (negb (ver =? 1)); [discriminate|]. destruct (lpItems rest) as [items ok]. rewrite stampLoop_eq, R. reflexivity.
  Qed.
  Definition attr_good (c : cert) (a : Z * bytes) : Prop :=
    (fst a = id_stamp_time -> exists t r, snd a = le64 t ++ r /\ 0 < t < 2 ^ 63) /\
    (fst a = id_stamp_rotation -> exists ns, stamp_lineage E c (snd a) ns).
  Lemma in_last_entry (a : Z) (al : list (Z * bytes)) f : last_entry al a f -> In (a, f) al.
  Proof. intros (p & q & -> & _). apply in_or_app. right. now left. Qed.
  Definition attr_state (c : cert) (done : list (Z * bytes)) (s : stamp_result) : Prop :=
    time_in done (st_time s) /\ lineage_in E c done (st_lineage s).
  Lemma time_in_other done a f t : a <> id_stamp_time -> time_in done t -> time_in (done ++ [(a, f)]) t.
  Proof.
    intros N. unfold time_in. destruct t as [t|].
    - intros (R & r & L). split; [assumption|]. exists r. apply last_entry_snoc_other; auto.
    - intros H. rewrite map_app, in_app_iff. cbn. intros [I|[I|[]]]; [auto|]. congruence.
  Qed.
  Lemma lineage_in_other c done a f ns : a <> id_stamp_rotation -> lineage_in E c done ns -> lineage_in E c (done ++ [(a, f)]) ns.
  Proof.
    intros N. unfold lineage_in. destruct ns as [|n ns].
    - intros H. rewrite map_app, in_app_iff. cbn. intros [I|[I|[]]]; [auto|]. congruence.
    - intros (v & L & St). exists v. split; [apply last_entry_snoc_other; auto | assumption].
  Qed.
  Lemma stampAttrLoop_complete c al : Forall (fun a => is_uint32 (fst a) /\ fits (enc_rec a)) al -> Forall (attr_good c) al ->
    forall done s, attr_state c done s -> exists s', stampAttrLoop E c (map enc_rec al) true s = Ret (true, s') /\
      st_errors s' = st_errors s /\ st_cert s' = st_cert s /\ attr_state c (done ++ al) s'.
  Proof.
    induction al as [|[id v] al IH]; intros F G done s I; cbn [map stampAttrLoop].
    - exists s. rewrite app_nil_r. auto.
    - inversion F as [|? ? [U _] F']; subst. inversion G as [|? ? [G1 G2] G']; subst. cbn [fst snd] in *.
      unfold enc_rec at 1, le32. cbn [fst snd]. rewrite read_u32_enc by (unfold is_uint32 in U; lia).
      replace (done ++ (id, v) :: al) with ((done ++ [(id, v)]) ++ al) by (rewrite <- app_assoc; reflexivity). destruct I as [It Il].
      change sourceStampAttrProofOfRotation with id_stamp_rotation. change sourceStampAttrTime with id_stamp_time.
      destruct (Z.eqb_spec id id_stamp_rotation) as [Q|N1].
      + destruct (G2 Q) as (ns & Ln & l & n & En & Ec). rewrite (lineage_complete v ns s Ln). cbn [obind]. cbv zeta.
        assert (Ne : ns <> []) by (subst ns; destruct l; discriminate). destruct ns as [|n0 ns]; [contradiction|].
        assert (Ce : cert_equal c (ln_cert (last (n0 :: ns) n0)) = true).
        { rewrite En, last_last. unfold cert_equal. apply bytes_eqb_eq. auto. }
        rewrite Ce. destruct (IH F' G' (done ++ [(id, v)]) (mkStamp (st_cert s) (st_time s) (n0 :: ns) (st_errors s) (st_warnings s))) as (s' & R & Q1 & Q2 & Q3).
        * split; cbn [st_time st_lineage]; [apply time_in_other; [subst id; discriminate | assumption]|]. exists v. split; [subst id; apply last_entry_snoc|]. split; [assumption|]. exists l, n. auto.
        * exists s'. auto.
      + destruct (Z.eqb_spec id id_stamp_time) as [Q|N2].
        * destruct (G1 Q) as (t & r & -> & Rt). unfold le64. rewrite read_i64_enc_id by lia.
          destruct (Z.leb_spec t 0); [lia|]. destruct (IH F' G' (done ++ [(id, le64 t ++ r)]) (mkStamp (st_cert s) (Some t) (st_lineage s) (st_errors s) (st_warnings s))) as (s' & R & Q1 & Q2 & Q3).
          -- split; cbn [st_time st_lineage]; [|now apply lineage_in_other]. split; [assumption|]. exists r. subst id. apply last_entry_snoc.
          -- exists s'. auto.
        * destruct (IH F' G' (done ++ [(id, v)]) (stAddWarning s "Unknown attribute is present.")) as (s' & R & Q1 & Q2 & Q3).
          -- split; [apply time_in_other; assumption | apply lineage_in_other; assumption].
          -- exists s'. auto.
  Qed.
  Lemma time_in_fun al t t' : time_in al t -> time_in al t' -> t = t'.
  Proof.
    unfold time_in. destruct t as [t|], t' as [t'|]; try reflexivity.
    - intros (R & r & L) (R' & r' & L'). f_equal. pose proof (last_entry_inj _ _ _ _ L L') as Q.
      assert (X : read_i64 (le_enc 8 t ++ r) = read_i64 (le_enc 8 t' ++ r')) by (unfold le64 in Q; now rewrite Q).
      rewrite !read_i64_enc_id in X by lia. congruence.
    - intros (_ & r & L) H. exfalso. apply H. apply last_entry_in. eauto.
    - intros H (_ & r & L). exfalso. apply H. apply last_entry_in. eauto.
  Qed.
  Lemma lineage_in_fun c al ns ns' : lineage_in E c al ns -> lineage_in E c al ns' -> ns = ns'.
  Proof.
    unfold lineage_in. destruct ns as [|n ns], ns' as [|n' ns']; try reflexivity.
    - intros H (v & L & _). exfalso. apply H. apply last_entry_in. eauto.
    - intros (v & L & _) H. exfalso. apply H. apply last_entry_in. eauto.
    - intros (v & L & (A & _)) (v' & L' & (A' & _)). pose proof (last_entry_inj _ _ _ _ L L'). subst v'. eapply lineage_of_det; eassumption.
  Qed.

  (** the whole stamp check; [cds] are the digests found by the scheme verifiers *)
  Theorem stamp_complete scheme minSdk maxSdk z b cds m c t ns entry :
    sget stamp_entry_name (z_map z) = Some entry -> zf_readall entry 65536 = Some (e_hash E HSha256 (c_raw c)) ->
    honest_stamp E minSdk maxSdk scheme m b c t ns -> NoDup (map fst m) ->
    (cds <> [] /\ Permutation m cds \/ cds = [] /\ exists d, manifest_digest E z d /\ m = [(4, d)]) ->
    exists st, verifySourceV2Stamp E S scheme minSdk maxSdk z (Some b) cds = Ret (Some st) /\
      st_errors st = [] /\ st_cert st = Some c /\ st_time st = t /\ st_lineage st = ns.
  Proof.
    intros En Rd (enc & schemes & rest & sigs & msg & Lay & Hc & Sch & Msg & Sg & At) N Hd.
    destruct Lay as (sb & j & -> & Fb & -> & Fe & Fs). unfold verifySourceV2Stamp.
    change sourceStampZipEntryName with stamp_entry_name. rewrite En.
    rewrite getLP_enc by assumption. rewrite getLP_enc by assumption. rewrite Hc.
    cbv zeta. set (s0 := mkStamp (Some c) None [] [] []).
    set (mm := match cds with [] => _ | _ => _ end).
    assert (exists (cds1 : digests) s1, mm = (cds1, s1) /\ st_frame s0 s1 /\ Permutation m cds1) as (cds1 & s1 & Q & F1 & P).
    { destruct Hd as [[Ne P]|[-> (d & Md & ->)]].
      - destruct cds as [|p cds]; [contradiction|]. subst mm. eexists _, _. split; [reflexivity|]. split; [apply st_frame_refl|exact P].
      - subst mm. unfold getSchemeV1ContentDigest, manifest_digest in *. change manifestMfName with manifest_mf_name. change (128 * 1024 * 1024) with 134217728.
        destruct (sget manifest_mf_name (z_map z)) as [f|]; [destruct (zf_readall f 134217728) as [mb|]|]; subst d; eexists _, _; (split; [reflexivity|]); (split; [repeat split|]); apply Permutation_refl. }
    rewrite Q. clearbody mm. clear Q. cbv beta iota. change sourceStampHashSizeLimit with 65536. rewrite Rd.
    destruct (Z.leb_spec 65536 (zlen (e_hash E HSha256 (c_raw c)))) as [L|_].
    { exfalso. rewrite HE in L. cbn in L. lia. }
    rewrite bytes_eqb_refl. cbn [negb]. rewrite getLP_enc by assumption.
    set (needed := if scheme =? schemeIdV31 then schemeIdV3 else scheme). change needed with (stamp_scheme scheme). clear needed.
    destruct (schemes_complete schemes scheme sigs s1 Sch) as (items & Li & R). rewrite Li, R. clear Li R.
    assert (Md : msg = getSignatureSchemeDigest S (ord S _ 13 0 cds1)).
    { eapply (message_fun m cds1); [exact N|exact P|exact Msg|]. apply message_spec; [assumption | apply (ord_perm S HS)]. }
    rewrite <- Md. destruct (stampSig_complete 0%nat minSdk maxSdk msg c sigs s1 Sg) as (s3 & -> & F3). cbn [obind negb].
    pose proof (st_frame_trans _ _ _ F1 F3) as F03.
    destruct At as [(-> & -> & ->)|(attrs & asigs & inner & junk & al & (j2 & Er & Fa & Fas) & Sg2 & Ea & Fi & (Ei & Fal) & (Ht & Hl) & Ti & Lin)].
    { exists s3. split; [reflexivity|]. destruct F03 as (X1 & X2 & X3 & X4). auto. }
    destruct rest as [|x rest].
    { exfalso. unfold lp, le32 in Er. cbn [le_enc app] in Er. discriminate. }
    set (rest' := x :: rest) in *. rewrite Er. rewrite getLP_enc by assumption. rewrite getLP_enc by assumption.
    destruct (stampSig_complete 1%nat minSdk maxSdk attrs c asigs s3 Sg2) as (s4 & -> & F4). cbn [obind negb].
    pose proof (st_frame_trans _ _ _ F03 F4) as (X1 & X2 & X3 & X4). unfold s0 in *. cbn [st_errors st_cert st_time st_lineage] in *.
    unfold parseStampAttributes. rewrite Ea, getLP_enc by assumption. rewrite Ei, lpItems_enc.
    2:{ clear - Fal. induction Fal as [|r al (_ & X) F IH]; cbn; constructor; assumption. }
    destruct (stampAttrLoop_complete c al Fal) with (done := @nil (Z * bytes)) (s := s4) as (s5 & -> & Y1 & Y2 & Y3 & Y4).
    { apply Forall_forall. intros [i v] I. split; cbn; intros ->; auto. }
    { split; [rewrite X3; cbn; auto | rewrite X4; cbn; auto]. }
    cbn [obind]. exists s5. split; [reflexivity|]. split; [congruence|]. split; [congruence|]. cbn [app] in *.
    split; [eapply time_in_fun; eassumption | eapply lineage_in_fun; eassumption].
  Qed.
End Honest.

(** the recorded digests are determined by the block *)
Lemma recorded_perm is m m' : recorded_digests is m -> recorded_digests is m' -> Permutation m m'.
Proof.
  intros [N R] [N' R'].
  assert (W : forall l : list (Z * bytes), NoDup (map fst l) -> NoDup l) by (intros l H; eapply NoDup_map_inv; exact H).
  apply NoDup_Permutation; [now apply W | now apply W|]. intros [k d]. rewrite <- !mget_iff by assumption. now rewrite R, R'.
Qed.
Definition all_blocks : list (Z * bytes) := [(id_v2, []); (id_v3, []); (id_v31, [])].
Lemma v2_recorded_run E maxSdk Q block is : v2_block E maxSdk Q block is ->
  exists m r', v2ParseSigners E maxSdk all_blocks block [] core0 = Ret (m, r') /\ recorded_digests is m.
Proof.
  assert (W : forall is, v2_block E maxSdk Q block is -> v2_block E maxSdk (has all_blocks) block is).
  { clear is. intros is (signers & junk & E1 & F1 & F2 & F & C). exists signers, junk. split; [assumption|]. split; [assumption|]. split; [assumption|].
    split; [|assumption]. clear - F. induction F as [|s0 i ss is V F IH]; constructor; [|assumption].
    destruct V as (sd & sigs & pk & j & digs & cs & attrs & j' & al & A1 & A2 & A3 & A4 & A5 & A6 & A7 & A8 & A9 & A10 & A11).
    exists sd, sigs, pk, j, digs, cs, attrs, j', al. repeat (split; [assumption|]).
    eapply Forall_impl; [|exact A11]. intros x Hx X Y. destruct (Hx X Y) as (sc & rest & id & B1 & B2 & B3 & B4). exists sc, rest, id. repeat (split; [assumption|]).
    exists []. unfold scheme_block_id in B3.
    destruct sc as [|q|q]; try discriminate. repeat (destruct q as [q|q|]; try discriminate B3); inversion B3; subst; reflexivity. }
  intro B. apply W in B. pose proof (v2_infos_kinds _ _ _ _ _ B) as K. destruct B as (signers & junk & -> & F1 & F2 & F & Co & Le).
  destruct (collects_total is [] [] (c_nil _)) as (m & C); [assumption | assumption|].
  destruct (v2ParseSigners_complete E maxSdk all_blocks signers junk is [] m core0 F1 F2 F C) as (r' & Pa & w & X). { unfold zlen at 1. cbn. lia. }
  exists m, r'. split; [assumption|]. now apply collects_recorded.
Qed.
Lemma v2_recorded E maxSdk Q block a b : v2_block E maxSdk Q block a -> v2_block E maxSdk Q block b -> exists m, recorded_digests a m /\ recorded_digests b m.
Proof.
  intros Ha Hb. destruct (v2_recorded_run _ _ _ _ _ Ha) as (m1 & r1 & H1 & R1), (v2_recorded_run _ _ _ _ _ Hb) as (m2 & r2 & H2 & R2). assert (m1 = m2) by congruence. subst m2. eauto.
Qed.
Lemma v3_recorded E maxSdk rot block a b : is_int32 rot -> v3_block E maxSdk rot block a -> v3_block E maxSdk rot block b ->
  exists m, recorded_digests (map i3_signer a) m /\ recorded_digests (map i3_signer b) m.
Proof.
  intros Rot A B. set (cfg := mkV3Cfg false maxSdk rot).
  destruct (v3ParseSigners_complete E cfg block a core0 Rot A) as (c1 & r1 & H1 & R1 & _).
  destruct (v3ParseSigners_complete E cfg block b core0 Rot B) as (c2 & r2 & H2 & R2 & _).
  rewrite H1 in H2. assert (c1 = c2) by congruence. subst c2. eauto.
Qed.
Lemma recorded_ne is (m : list (Z * bytes)) : recorded_digests is m -> is <> [] -> (forall i, In i is -> supported (si_algo i)) -> m <> [].
Proof.
  intros [_ R] Ne F. destruct is as [|i is]; [contradiction|]. destruct (F i (or_introl eq_refl)) as (k & m0 & K). intros ->.
  assert (X : zget (kind_id k) [] = Some (si_digest i)); [|discriminate]. apply R. exists i, k. split; [now left|]. split; [exists m0; exact K|auto].
Qed.

Section Apk.
  Variables (E : env) (S : sched).
  Hypothesis HE : hash_sizes_ok E.
  Hypothesis HS : sched_ok S.

  Lemma rotation_int32 is31 rot b maxSdk : v3_block E maxSdk 0 b is31 -> is31 <> [] -> rotation_level is31 rot -> is_int32 rot.
  Proof.
    intros B Ne RL. destruct (v31Rotation_spec _ _ _ _ _ B Ne) as [RL' I]. assert (rot = v31RotationMin (map kept is31)) by (eapply rotation_level_fun; eassumption). subst rot. unfold is_int32, max_int32 in *. lia.
  Qed.

  Lemma stamped_cds file es sections minSdk maxSdk z scheme m before pairs cd rec st res cds res1 cds2 res2 :
    apk file before pairs cd rec -> protected before cd rec sections -> entries_inv maxSdk es st -> quiet core0 (v_core res) -> v_extraBlocks res = v_extraBlocks (en_res st) ->
    stamped_digests E minSdk maxSdk es sections z scheme m ->
    pickAndVerify E S 0 file (sblock_of before pairs cd rec) (en_blocks st) minSdk maxSdk res = Ret (cds, res1) ->
    fallback E S file (sblock_of before pairs cd rec) (en_blocks st) minSdk maxSdk cds res1 = Ret (cds2, res2) ->
    v_schemeId res2 = scheme /\ NoDup (map fst m) /\
    (cds2 <> [] /\ Permutation m cds2 \/ cds2 = [] /\ exists d, manifest_digest E z d /\ m = [(4, d)]).
  Proof.
    intros A P [Ib Ie [Nb Ne] Ic Ir] Rc Fx Sd Pv Fb.
    destruct Sd as [(-> & is31 & lin & is3 & V & R)|[(-> & N31 & is & lin & V & R)|[(-> & N31 & N3 & is & V & R)|(-> & N31 & N3 & N2 & d & Md & ->)]]].
    - pose proof V as (M & Ne31 & Ne3 & b & b3 & rot & lin3 & L & L3 & B & RL & B3 & _).
      assert (I : v31_in maxSdk es) by (split; [assumption | apply last_entry_in; eauto]).
      apply (first_31 E S file before pairs cd rec sections es minSdk maxSdk HE HS A P (en_blocks st) Ib _ Ie res Rc Fx) in Pv as (Id & Sd & Cm); [|assumption].
      pose proof (Cm _ _ _ V) as Er. rewrite fallback_ok in Fb by assumption. inversion Fb; subst res2 cds2. clear Fb.
      split; [assumption|]. split; [apply R|]. left. destruct (Sd Er) as (is' & is3' & V' & _ & Rd).
      destruct V' as (_ & Ne31' & Ne3' & b' & b3' & rot' & lin3' & L' & L3' & B' & RL' & B3' & _).
      assert (b' = b) by (eapply last_entry_fun; eassumption). subst b'. assert (b3' = b3) by (eapply last_entry_fun; eassumption). subst b3'.
      pose proof (rotation_int32 _ _ _ _ B Ne31 RL) as I32.
      assert (rot' = rot).
      { destruct (v31Rotation_spec _ _ _ _ _ B Ne31) as [X _]. destruct (v31Rotation_spec _ _ _ _ _ B' Ne31') as [X' _].
        destruct (v3_block_det E maxSdk 0 b is' is31) as [K _]; [unfold is_int32; lia|assumption|assumption|]. rewrite K in X'.
        rewrite (rotation_level_fun _ _ _ RL' X'), (rotation_level_fun _ _ _ RL X). reflexivity. }
      subst rot'. destruct (v3_recorded E maxSdk rot b3 is3 is3' I32 B3 B3') as (m0 & R0 & R0').
      split; [|etransitivity; [eapply recorded_perm; eassumption|eapply recorded_perm; eassumption]].
      eapply recorded_ne; [exact Rd|destruct is3'; [contradiction|discriminate]|eapply v3_supported; exact B3'].
    - pose proof V as (M & Nei & b & L & B & _).
      assert (I : v3_in maxSdk es) by (split; [assumption | apply last_entry_in; eauto]).
      apply (first_3 E S file before pairs cd rec sections es minSdk maxSdk HE HS A P (en_blocks st) Ib _ Ie res Rc Fx) in Pv as (Id & Sd & Cm); [|assumption|assumption].
      pose proof (Cm _ _ V) as Er. rewrite fallback_ok in Fb by assumption. inversion Fb; subst res2 cds2. clear Fb.
      split; [assumption|]. split; [apply R|]. left. destruct (Sd Er) as (is' & V' & _ & Rd). destruct V' as (_ & Nei' & b' & L' & B' & _).
      assert (b' = b) by (eapply last_entry_fun; eassumption). subst b'.
      destruct (v3_recorded E maxSdk 0 b is is') as (m0 & R0 & R0'); [unfold is_int32; lia|assumption|assumption|].
      split; [|etransitivity; [eapply recorded_perm; eassumption|eapply recorded_perm; eassumption]].
      eapply recorded_ne; [exact Rd|destruct is'; [contradiction|discriminate]|eapply v3_supported; exact B'].
    - pose proof V as (M & Nei & b & L & B & _).
      assert (I : v2_in maxSdk es) by (split; [assumption | apply last_entry_in; eauto]).
      apply (first_2 E S file before pairs cd rec sections es minSdk maxSdk HE HS A P (en_blocks st) Ib _ Ie res Rc Fx) in Pv as (Id & Sd & Cm); [|assumption|assumption|assumption].
      pose proof (Cm _ V) as Er. rewrite fallback_ok in Fb by assumption. inversion Fb; subst res2 cds2. clear Fb.
      split; [assumption|]. split; [apply R|]. left. destruct (Sd Er) as (is' & V' & _ & _ & Rd). destruct V' as (_ & Nei' & b' & L' & B' & _).
      assert (b' = b) by (eapply last_entry_fun; eassumption). subst b'.
      destruct (v2_recorded E maxSdk _ b is is' B B') as (m0 & R0 & R0').
      split; [|etransitivity; [eapply recorded_perm; eassumption|eapply recorded_perm; eassumption]].
      eapply recorded_ne; [exact Rd|assumption|eapply v2_supported; exact B'].
    - assert (cds2 = [] /\ v_schemeId res2 = 1) as [-> Id].
      { destruct (Z.lt_ge_cases maxSdk 24) as [M|M].
        - rewrite run_old in Pv by assumption. inversion Pv; subst. rewrite fallback_ok in Fb by (cbn; now apply fresh_core in Rc as (_ & _ & X)). inversion Fb. auto.
        - pose proof Pv as Pv'. apply (first_1 E S file before pairs cd rec es minSdk maxSdk (en_blocks st) Ib _ Ie res Rc Fx) in Pv as (X & Y); try assumption.
          rewrite run_unfold in Pv' by assumption. rewrite (pick_1 es maxSdk (en_blocks st) Ib N31 N3 N2) in Pv'. inversion Pv'; subst.
          eapply (fallback_cond E S file before pairs cd rec es minSdk maxSdk (en_blocks st) Ib) in Fb as [[-> ->]|(_ & X3 & _)]; [auto|]. rewrite X in X3. lia. }
      split; [assumption|]. split; [constructor; [intros []|constructor]|]. right. split; [reflexivity|]. eauto.
  Qed.

  Theorem stamp_apk_complete file es sections minSdk maxSdk z res err scheme m b c t ns entry :
    returns E S file minSdk maxSdk z res err -> apk_with file es sections ->
    last_entry es id_stamp b -> sget stamp_entry_name (z_map z) = Some entry -> zf_readall entry 65536 = Some (e_hash E HSha256 (c_raw c)) ->
    stamped_digests E minSdk maxSdk es sections z scheme m -> honest_stamp E minSdk maxSdk scheme m b c t ns ->
    exists st, v_sourceStamp res = Some st /\ st_errors st = [] /\ st_cert st = Some c /\ st_time st = t /\ st_lineage st = ns.
  Proof.
    intros (vr & H & Rs & Ve) Ap Lb En Rd Sd Hs.
    destruct (verify_unfold E S _ _ _ _ _ _ _ Ap H) as (before & pairs & cd & rec & est & res0 & cds & res1 & cds2 & res2 & stamp & A & P & Inv & Rc & Fx & Pv & Fb & Rs' & St & Ve').
    rewrite Rs in Rs'. inversion Rs'; subst res. clear Rs'. cbn [v_sourceStamp].
    destruct (stamped_cds _ _ _ _ _ _ _ _ _ _ _ _ _ _ _ _ _ _ A P Inv Rc Fx Sd Pv Fb) as (Id & N & Hd).
    assert (Zb : zget blockIdSourceStampV2 (en_blocks est) = Some b).
    { apply (ei_blocks _ _ _ Inv). split; [unfold used_at; auto 6 | exact Lb]. }
    rewrite Zb, Id in St. destruct (stamp_complete E S HE HS _ _ _ _ _ _ _ _ _ _ _ En Rd Hs N Hd) as (st & V & X).
    rewrite V in St. exists st. split; [congruence | exact X].
  Qed.

  Theorem stamp_apk_total file es sections minSdk maxSdk z scheme m b c t ns entry :
    apk_with file es sections -> ~ In id_frosting (map fst es) ->
    last_entry es id_stamp b -> sget stamp_entry_name (z_map z) = Some entry -> zf_readall entry 65536 = Some (e_hash E HSha256 (c_raw c)) ->
    stamped_digests E minSdk maxSdk es sections z scheme m -> honest_stamp E minSdk maxSdk scheme m b c t ns ->
    exists res err, returns E S file minSdk maxSdk z res err.
  Proof.
    intros Ap Nf Lb En Rd Sd Hs. assert (exists vr, verifySigningBlock E S file minSdk maxSdk z = Ret vr) as (vr & H).
    { destruct Ap as (before & pairs & cd & rec & A & Ent & P). unfold verifySigningBlock.
      destruct (newSigningBlock file) as [magic|]; [|eauto].
      rewrite (findSignatureBlocks_apk E file maxSdk _ _ _ _ A).
      destruct (foldEntries_total E maxSdk es Nf (mkEnt [] None vres0) eq_refl) as (st & FE & Hf).
      pose proof Ent as (Ep & F & Bl). assert (Lo : entriesLoop E (List.length pairs) maxSdk pairs (mkEnt [] None vres0) = Ret (st, true)).
      { subst pairs. rewrite entriesLoop_enc by (assumption || lia). rewrite FE. reflexivity. }
      pose proof (entries_spec E maxSdk pairs st true Lo) as [_ I]. destruct (I es Ent) as [_ Inv]. clear I.
      rewrite Lo. cbn [obind]. unfold applyFrosting. rewrite Hf. cbn [obind].
      assert (exists cds res' cds2 res2, pickAndVerify E S 0 file (sblock_of before pairs cd rec) (en_blocks st) minSdk maxSdk (en_res st) = Ret (cds, res') /\
                fallback E S file (sblock_of before pairs cd rec) (en_blocks st) minSdk maxSdk cds res' = Ret (cds2, res2)) as (cds & res' & cds2 & res2 & Pv & Fb).
      { pose proof Inv as [Ib Ie _ Ic _]. destruct Sd as [(_ & is31 & lin & is3 & V & _)|[(_ & N31 & is & lin & V & _)|[(_ & N31 & N3 & is & V & _)|(_ & N31 & N3 & N2 & _)]]].
        - destruct (total_31 E S file before pairs cd rec sections es minSdk maxSdk HE HS A P (en_blocks st) Ib _ Ie (en_res st) Ic eq_refl is31 lin is3 V) as (cds & res' & Pv).
          exists cds, res', cds, res'. split; [assumption|]. apply fallback_ok. assert (I : v31_in maxSdk es) by (destruct V as (M & _ & _ & b' & ? & ? & ? & L & _); split; [assumption | apply last_entry_in; eauto]).
          apply (first_31 E S file before pairs cd rec sections es minSdk maxSdk HE HS A P (en_blocks st) Ib _ Ie (en_res st) Ic eq_refl) in Pv as (_ & _ & Cm); try assumption. eauto.
        - destruct (total_3 E S file before pairs cd rec sections es minSdk maxSdk HE HS A P (en_blocks st) Ib (en_res st) Ic is lin N31 V) as (cds & res' & Pv).
          exists cds, res', cds, res'. split; [assumption|]. apply fallback_ok. assert (I : v3_in maxSdk es) by (destruct V as (M & _ & b' & L & _); split; [assumption | apply last_entry_in; eauto]).
          apply (first_3 E S file before pairs cd rec sections es minSdk maxSdk HE HS A P (en_blocks st) Ib _ Ie (en_res st) Ic eq_refl) in Pv as (_ & _ & Cm); try assumption. eauto.
        - destruct (total_2 E S file before pairs cd rec sections es minSdk maxSdk HE HS A P (en_blocks st) Ib _ Ie (en_res st) Ic eq_refl is N31 N3 V) as (cds & res' & Pv).
          exists cds, res', cds, res'. split; [assumption|]. apply fallback_ok. assert (I : v2_in maxSdk es) by (destruct V as (M & _ & b' & L & _); split; [assumption | apply last_entry_in; eauto]).
          apply (first_2 E S file before pairs cd rec sections es minSdk maxSdk HE HS A P (en_blocks st) Ib _ Ie (en_res st) Ic eq_refl) in Pv as (_ & _ & Cm); try assumption. eauto.
        - assert (exists cds res', pickAndVerify E S 0 file (sblock_of before pairs cd rec) (en_blocks st) minSdk maxSdk (en_res st) = Ret (cds, res') /\ v_schemeId res' = 1) as (cds & res' & Pv & Id).
          { destruct (Z.lt_ge_cases maxSdk 24) as [M|M]; [rewrite run_old by assumption; eexists _, _; split; reflexivity|].
            rewrite run_unfold by assumption. rewrite (pick_1 es maxSdk (en_blocks st) Ib N31 N3 N2). eexists _, _. split; reflexivity. }
          exists cds, res', cds, res'. split; [assumption|]. unfold fallback, schemeIdV3. rewrite Id. destruct (containsErrors _); reflexivity. }
      rewrite Pv. cbn [obind]. rewrite Fb. cbn [obind].
      destruct (stamped_cds file es sections minSdk maxSdk z scheme m before pairs cd rec st (en_res st) cds res' cds2 res2 A P Inv (ei_core _ _ _ Inv) eq_refl Sd Pv Fb) as (Id & N & Hd).
      assert (Zb : zget blockIdSourceStampV2 (en_blocks st) = Some b).
      { apply (ei_blocks _ _ _ Inv). split; [unfold used_at; auto 6 | exact Lb]. }
      rewrite Zb, Id. destruct (stamp_complete E S HE HS _ _ _ _ _ _ _ _ _ _ _ En Rd Hs N Hd) as (stv & -> & _). cbn [obind]. eauto. }
    destruct (verify_unfold E S _ _ _ _ _ _ _ Ap H) as (before & pairs & cd & rec & est & res0 & cds & res1 & cds2 & res2 & stamp & A & P & Inv & Rc & Fx & Pv & Fb & Rs' & St & Ve').
    eexists _, _. exists vr. split; [exact H|]. split; [exact Rs' | reflexivity].
  Qed.
End Apk.
