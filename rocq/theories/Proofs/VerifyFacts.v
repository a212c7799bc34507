(** From the scheme verifiers to the whole signing-block verification *)
From Coq Require Import String.
From Coq Require Import Lia Permutation.
From Verif.Model Require Import Bytes ApiLevel Env Utils SigBlock Result Signer SchemeV2 SchemeV3 DataSource Digest Frosting SourceStamp Verify.
From Verif.Spec Require Import Encoding Algorithms Nondet Signer SignerV3 Ranges ApkLayout Digests Entries Verified.
From Verif.Proofs Require Import BytesFacts UtilsFacts SigBlockFacts SignerFacts SchemeV2Facts CollectFacts V2BlockFacts LineageFacts SchemeV3Facts V3BlockFacts RangeFacts CoveringFacts IntegrityFacts EntriesFacts.

(** only errors are added (and certificates kept) *)
Definition grows (r r' : core) : Prop :=
  certs r' = certs r /\ warnings r' = warnings r /\ exists e, errors r' = errors r ++ e.
Lemma grows_refl r : grows r r.
Proof. repeat split. exists []. now rewrite app_nil_r. Qed.
Lemma grows_trans a b c : grows a b -> grows b c -> grows a c.
Proof.
  intros (A1 & A2 & e & A3) (B1 & B2 & e' & B3). repeat split; try congruence. exists (e ++ e'). now rewrite B3, A3, app_assoc.
Qed.
Lemma grows_add r m : grows r (addError r m).
Proof. repeat split. eexists. reflexivity. Qed.
Lemma grows_nil r r' : grows r r' -> errors r' = [] -> errors r = [].
Proof. intros (_ & _ & e & ->) H. now apply app_eq_nil in H. Qed.
Lemma ext_nil r r' : ext r r' -> errors r' = [] -> errors r = [].
Proof. intros (_ & _ & _ & e & ->) H. now apply app_eq_nil in H. Qed.

Lemma rangeLoop_grows l : forall f m z ls r f' m' ls' r', v3RangeLoop l f m z ls r = (f', m', ls', r') ->
  grows r r' /\ signingLineage r' = signingLineage r.
Proof.
  induction l as [|s l IH]; intros f m z ls r f' m' ls' r' H; cbn [v3RangeLoop] in H.
  - inversion H; subst. split; [apply grows_refl | reflexivity].
  - destruct (_ && _); [inversion H; subst; split; [apply grows_add | reflexivity]|].
    destruct (vs_lineage s) as [li|]; [|eapply IH; exact H].
    destruct (_ <? _); [inversion H; subst; split; [apply grows_add | reflexivity] | eapply IH; exact H].
Qed.
Lemma finalize_grows srt cfg sigs a b r r' : v3FinalizeWith srt cfg sigs a b r = Ret r' -> grows r r'.
Proof.
  unfold v3FinalizeWith. destruct (v3RangeLoop _ _ _ _ _ _) as [[[f m] ls] r1] eqn:L. apply rangeLoop_grows in L as [G _].
  set (r2 := if _ || _ then addError r1 _ else r1).
  assert (G2 : grows r r2). { unfold r2. destruct (_ || _); [eapply grows_trans; [exact G | apply grows_add] | exact G]. }
  clearbody r2. destruct (signingLineage r2); [intro H; inversion H; subst; exact G2|].
  intro H. apply obind_ret in H as (c & _ & H). destruct c as [li|[]]; inversion H; subst; destruct G2 as (A & B & e & C); repeat split; cbn; try assumption.
  - exists e. assumption.
  - rewrite C, <- app_assoc. eexists. reflexivity.
Qed.

Lemma fold_compare_grows exp m keys : forall r,
  grows r (fold_left (fun r k => if bytes_eqb match zget k exp with Some x => x | None => [] end match zget k m with Some x => x | None => [] end
                                 then r else addError r "digest of contents did not verify.") keys r).
Proof.
  induction keys as [|k keys IH]; intro r; cbn [fold_left]; [apply grows_refl|].
  eapply grows_trans; [|apply IH]. destruct (bytes_eqb _ _); [apply grows_refl | apply grows_add].
Qed.
Lemma integrity_grows E file ei off keys exp r c g : verifyIntegrity E file ei off keys exp r = Ret (c, g) -> grows r c.
Proof.
  unfold verifyIntegrity. intro H. apply obind_ret in H as (x & _ & H). apply obind_ret in H as (y & _ & H).
  destruct y as [m|]; inversion H; subst; [apply fold_compare_grows | apply grows_add].
Qed.

Lemma recorded_nil is cds : Forall (fun i => exists k, has_kind (si_algo i) k) is -> recorded_digests is cds -> (cds = [] <-> is = []).
Proof.
  intros K [_ R]. split; intros ->.
  - destruct is as [|i is]; [reflexivity|]. exfalso. inversion K as [|? ? [k Hk] _]; subst.
    assert (X : zget (kind_id k) [] = Some (si_digest i)) by (apply R; exists i, k; repeat split; auto; now left). discriminate.
  - destruct cds as [|[a d] cds]; [reflexivity|]. exfalso.
    assert (X : zget a ((a, d) :: cds) = Some d) by (cbn; now rewrite Z.eqb_refl). apply R in X as (i & k & [] & _).
Qed.

(** v2 signers only look at a few block ids, and only from API 28 on *)
Lemma v2_block_present E maxSdk (P Q : Z -> Prop) block is :
  (28 <= maxSdk -> forall id, P id -> Q id) -> v2_block E maxSdk P block is -> v2_block E maxSdk Q block is.
Proof.
  intros H (signers & junk & E1 & F1 & F2 & F & C). exists signers, junk. split; [assumption|]. split; [assumption|]. split; [assumption|].
  split; [|assumption]. clear - H F. induction F as [|s i ss is V F IH]; constructor; [|assumption].
  destruct V as (sd & sigs & pk & j & digs & cs & attrs & j' & al & A1 & A2 & A3 & A4 & A5 & A6 & A7 & A8 & A9 & A10 & A11).
  exists sd, sigs, pk, j, digs, cs, attrs, j', al. repeat (split; [assumption|]).
  eapply Forall_impl; [|exact A11]. intros a Ha X Y. destruct (Ha X Y) as (sc & rest & id & B1 & B2 & B3 & B4). exists sc, rest, id. auto.
Qed.

Lemma v2_infos_kinds E maxSdk P block is : v2_block E maxSdk P block is -> Forall (fun i => exists k, has_kind (si_algo i) k) is.
Proof.
  intros (signers & junk & _ & _ & _ & F & _). induction F as [|s i ss is V F IH]; constructor; [|assumption].
  destruct V as (? & ? & ? & ? & ? & ? & ? & ? & ? & H). decompose [and] H.
  match goal with X : signed_by _ _ _ _ _ _ _ _ _ |- _ => destruct X as (? & ? & ? & ? & ? & SL & _) end.
  eapply signature_list_kind; eassumption.
Qed.
Lemma v3_block_kinds E maxSdk rot block is : v3_block E maxSdk rot block is -> Forall (fun i => exists k, has_kind (si_algo i) k) (map i3_signer is).
Proof. intros (signers & junk & _ & _ & _ & F & _). apply (v3_infos_kinds E (mkV3Cfg false maxSdk rot) signers is F). Qed.

Section Apk.
  Variables (E : env) (S : sched) (file before pairs cd rec : bytes) (sections : list bytes).
  Hypothesis HE : hash_sizes_ok E.
  Hypothesis HS : sched_ok S.
  Hypothesis A : apk file before pairs cd rec.
  Hypothesis P : protected before cd rec sections.
  Notation s := (sblock_of before pairs cd rec).

  Lemma integrity_recorded k is cds r : recorded_digests is cds -> cds <> [] ->
    exists e good,
      verifyIntegrity E file (sb_eocd s) (sb_offset s) (ord S _ 1 k (map fst cds)) cds r
        = Ret (mkCore (certs r) (signingLineage r) (warnings r) (errors r ++ e), good) /\
      (good = false -> e <> []) /\ (e = [] <-> digests_match E sections is).
  Proof.
    intros R Ne. pose proof R as [Nd R'].
    destruct (verifyIntegrity_spec E HE file before pairs cd rec sections (ord S _ 1 k (map fst cds)) cds r A P Nd (ord_perm S HS _ 1 k (map fst cds)) Ne)
      as (e & good & V & G & M).
    { intros a d H. apply R' in H as (i & kd & _ & _ & -> & _). eauto. }
    exists e, good. split; [exact V|]. split; [assumption|]. rewrite M. split.
    - intros H i kd Hi Hk. apply H. apply R'. eauto 6.
    - intros H kd d G'. apply R' in G' as (i & kd' & Hi & Hk & Q & ->). apply kind_id_inj in Q. subst kd'. now apply H with (1 := Hi).
  Qed.

  (** scheme v2 from any state without errors *)
  Definition v2_ok (maxSdk : Z) (present : Z -> Prop) (block : bytes) (is : list signer_info) : Prop :=
    is <> [] /\ v2_block E maxSdk present block is /\ digests_match E sections is.

  Lemma verify_v2_sound k block minSdk maxSdk res cds res' :
    verifyScheme E S k file s schemeIdV2 block minSdk maxSdk res = Ret (cds, res') ->
    errors (v_core res') = [] ->
    errors (v_core res) = [] /\ exists is, v2_ok maxSdk (has (v_extraBlocks res)) block is /\
      zlen (certs (v_core res)) + zlen is <= 10 /\
      recorded_digests is cds /\
      exists w, res' = withCore res (mkCore (certs (v_core res) ++ map si_chain is) (signingLineage (v_core res)) (warnings (v_core res) ++ w) []).
  Proof.
    unfold verifyScheme, extractCertsScheme. change (schemeIdV2 =? schemeIdV31) with false. change (schemeIdV2 =? schemeIdV3) with false. cbv iota.
    intros H Er. apply obind_ret in H as ([[st cds0] res1] & H1 & H). apply obind_ret in H1 as ([cds1 c1] & Pa & H1).
    assert (st = StV2 /\ cds0 = cds1 /\ res1 = withCore res c1) as (-> & -> & ->) by (inversion H1; auto). clear H1.
    cbn [withCore v_core] in H. pose proof Pa as Pa0. apply v2ParseSigners_sound in Pa as (X & T).
    assert (E1 : errors c1 = []).
    { destruct (certs c1); [inversion H; subst; cbn in Er; now apply app_eq_nil in Er|].
      destruct cds1; [inversion H; subst; cbn in Er; now apply app_eq_nil in Er|].
      apply obind_ret in H as ([c2 good] & V & H). apply integrity_grows in V. apply (grows_nil _ _ V).
      destruct good; cbn in H; inversion H; subst; exact Er. }
    assert (E0 : errors (v_core res) = []) by (eapply ext_nil; eassumption).
    split; [assumption|]. destruct T as (signers & junk & is & -> & F1 & F2 & F & C & Hc & L); [congruence|].
    pose proof (collects_recorded _ _ C) as R. pose proof (collects_kinds _ _ _ C) as K.
    destruct (certs c1) as [|x cx] eqn:Cc; [inversion H; subst; cbn in Er; apply app_eq_nil in Er as [_ Er]; discriminate|].
    destruct cds1 as [|d ds] eqn:Cd; [inversion H; subst; cbn in Er; apply app_eq_nil in Er as [_ Er]; discriminate|].
    destruct (integrity_recorded k is (d :: ds) c1 R ltac:(discriminate)) as (e & good & V & G & M).
    rewrite V in H. cbn [obind] in H.
    assert (e = [] /\ good = true) as [-> ->].
    { assert (e = []). { destruct good; cbn in H; inversion H; subst; cbn in Er; now apply app_eq_nil in Er. }
      subst e. split; [reflexivity|]. destruct good; [reflexivity|]. now destruct (G eq_refl). }
    cbn in H. inversion H; subst. clear H. cbn [v_core withCore] in *.
    exists is. repeat split.
    - intros ->. inversion C.
    - exists signers, junk. repeat split; try assumption; [eapply collects_consistent; eassumption|]. pose proof (zlen_nonneg (certs (v_core res))). lia.
    - now apply M.
    - assumption.
    - apply R.
    - apply R.
    - apply R.
    - destruct X as (_ & Sl & (w & W) & _). exists w. unfold withCore. cbn. now rewrite Cc, Hc, Sl, W, E1, app_nil_r.
  Qed.

  Lemma verify_v2_more k block minSdk maxSdk res is :
    errors (v_core res) = [] -> zlen (certs (v_core res)) + zlen is <= 10 ->
    v2_ok maxSdk (has (v_extraBlocks res)) block is ->
    exists cds w, verifyScheme E S k file s schemeIdV2 block minSdk maxSdk res =
      Ret (cds, withCore res (mkCore (certs (v_core res) ++ map si_chain is) (signingLineage (v_core res)) (warnings (v_core res) ++ w) [])) /\ recorded_digests is cds.
  Proof.
    intros Er Ce (Ne & B & M). pose proof (v2_infos_kinds _ _ _ _ _ B) as K. pose proof B as (signers & junk & -> & F1 & F2 & F & Co & Le).
    destruct (collects_total is [] [] (c_nil _)) as (m & C); [assumption | assumption|].
    destruct (v2ParseSigners_complete E maxSdk (v_extraBlocks res) signers junk is [] m (v_core res) F1 F2 F C) as (r' & Pa & w & Q).
    { assumption. }
    unfold verifyScheme, extractCertsScheme. change (schemeIdV2 =? schemeIdV31) with false. change (schemeIdV2 =? schemeIdV3) with false. cbv iota.
    rewrite Pa. cbn [obind withCore v_core].
    assert (Hc : certs r' = certs (v_core res) ++ map si_chain is) by (rewrite Q; reflexivity).
    pose proof (collects_recorded _ _ C) as R.
    destruct (certs r') as [|x cx] eqn:Cc. { symmetry in Hc. apply app_eq_nil in Hc as [_ Hc]. destruct is; [contradiction | discriminate]. }
    destruct m as [|d ds] eqn:Cm. { exfalso. apply Ne. now apply (recorded_nil is []). }
    destruct (integrity_recorded k is (d :: ds) r' R ltac:(discriminate)) as (e & good & V & G & M').
    cbn [sb_eocd sblock_of sb_offset] in V |- *. rewrite V. cbn [obind].
    apply M' in M. subst e. destruct good; [|now destruct (G eq_refl)]. cbn [negb finalizeScheme obind].
    exists (d :: ds), w. split; [|assumption]. unfold withCore. cbn. rewrite Q. cbn. now rewrite Er, app_nil_r.
  Qed.
  Lemma verify_v2_complete k block minSdk maxSdk res is :
    errors (v_core res) = [] -> certs (v_core res) = [] ->
    v2_ok maxSdk (has (v_extraBlocks res)) block is ->
    exists cds w, verifyScheme E S k file s schemeIdV2 block minSdk maxSdk res =
      Ret (cds, withCore res (mkCore (map si_chain is) (signingLineage (v_core res)) (warnings (v_core res) ++ w) [])) /\ recorded_digests is cds.
  Proof.
    intros Er Ce V. pose proof V as (_ & (? & ? & _ & _ & _ & _ & _ & Le) & _).
    destruct (verify_v2_more k block minSdk maxSdk res is Er) as (cds & w & Q & R); [rewrite Ce; unfold zlen at 1; cbn; lia | assumption|].
    rewrite Ce in Q. eauto.
  Qed.

  (** scheme v3 *)
  Definition v3_ok (minSdk maxSdk : Z) (block : bytes) (is : list v3_info) (lin : option (list lnode)) : Prop :=
    is <> [] /\ v3_block E maxSdk 0 block is /\ digests_match E sections (map i3_signer is) /\
    v3_covering (Z.max minSdk 28) maxSdk is lin.

  Lemma rot0 : 0 <= 0 <= max_int32.
  Proof. unfold max_int32. lia. Qed.
  Lemma is_int32_rot z : 0 <= z <= max_int32 -> is_int32 z.
  Proof. unfold max_int32, is_int32. lia. Qed.

  Lemma kept_ne is : is <> [] -> map kept is <> [].
  Proof. destruct is; [contradiction | discriminate]. Qed.

  Lemma finalize_sound cfg is block reqMin reqMax r r' :
    v3_block E (cfg_maxSdk cfg) (rotationMin cfg) block is -> is <> [] -> 0 <= rotationMin cfg <= max_int32 ->
    v3FinalizeWith (sortV3 S) cfg (map kept is) reqMin reqMax r = Ret r' -> errors r' = errors r -> signingLineage r = None ->
    v3_covering (lowBound cfg reqMin reqMax) (highBound cfg reqMax) is (lin_nodes (signingLineage r')).
  Proof.
    intros B Ne Rot H Er SL. pose proof (v3_block_ranges _ _ _ _ _ B) as Ra.
    destruct (finalize_spec S cfg (map kept is) reqMin reqMax r HS (kept_ne _ Ne) Ra Rot) as (r2 & F & D).
    change (ordered S) with (sortV3 S) in F. rewrite F in H. inversion H; subst r2. clear H.
    destruct D as [(_ & _ & Co & So & L)|((e & Ee & Nn) & _)].
    - rewrite SL in L. eapply (covering_of S); eassumption.
    - exfalso. rewrite Ee in Er. apply app_self in Er. contradiction.
  Qed.
  Lemma finalize_complete cfg is block reqMin reqMax r lin :
    v3_block E (cfg_maxSdk cfg) (rotationMin cfg) block is -> is <> [] -> 0 <= rotationMin cfg <= max_int32 ->
    v3_covering (lowBound cfg reqMin reqMax) (highBound cfg reqMax) is lin ->
    exists l, v3FinalizeWith (sortV3 S) cfg (map kept is) reqMin reqMax r = Ret (mkCore (certs r) l (warnings r) (errors r)).
  Proof.
    intros B Ne Rot Co. pose proof (v3_block_ranges _ _ _ _ _ B) as Ra.
    destruct (finalize_spec S cfg (map kept is) reqMin reqMax r HS (kept_ne _ Ne) Ra Rot) as (r2 & F & D).
    change (ordered S) with (sortV3 S) in F. destruct (covering_to S is _ _ lin HS Co) as (C1 & C2 & C3).
    destruct D as [(_ & Q & _)|(_ & _ & _ & _ & N)].
    - exists (signingLineage r2). now rewrite F, <- Q.
    - exfalso. apply N. repeat split; try assumption. intros _. destruct lin as [n|]; [right; destruct C3 as (l & ? & _); eauto | now left].
  Qed.

  Lemma verify_v3_sound k block minSdk maxSdk res cds res' :
    certs (v_core res) = [] -> signingLineage (v_core res) = None ->
    verifyScheme E S k file s schemeIdV3 block minSdk maxSdk res = Ret (cds, res') ->
    errors (v_core res') = [] ->
    exists is, v3_ok minSdk maxSdk block is (lin_nodes (signingLineage (v_core res'))) /\
      recorded_digests (map i3_signer is) cds /\ certs (v_core res') = map chain3 is.
  Proof.
    intros Ce Sl. unfold verifyScheme, extractCertsScheme. change (schemeIdV3 =? schemeIdV31) with false. change (schemeIdV3 =? schemeIdV3) with true. cbv iota.
    intros H Er. apply obind_ret in H as ([[st cds0] res1] & H1 & H). apply obind_ret in H1 as ([[sigs cds1] c1] & Pa & H1).
    assert (st = StV3 sigs /\ cds0 = cds1 /\ res1 = withCore res c1) as (-> & -> & ->) by (inversion H1; auto). clear H1.
    cbn [withCore v_core] in H. pose proof Pa as Pa0. apply v3ParseSigners_sound in Pa as (X & T). cbn [cfg_maxSdk rotationMin] in T.
    assert (E1 : errors c1 = []).
    { destruct (certs c1); [inversion H; subst; cbn in Er; now apply app_eq_nil in Er|].
      destruct cds1; [inversion H; subst; cbn in Er; now apply app_eq_nil in Er|].
      apply obind_ret in H as ([c2 good] & V & H). apply integrity_grows in V. apply (grows_nil _ _ V).
      destruct good; cbn [negb] in H; [|inversion H; subst; exact Er]. cbn [finalizeScheme] in H.
      apply obind_ret in H as (res3 & Fi & H). apply obind_ret in Fi as (c3 & Fi & H'). apply finalize_grows in Fi. apply (grows_nil _ _ Fi).
      inversion H'; subst. inversion H; subst. exact Er. }
    assert (E0 : errors (v_core res) = []) by (eapply ext_nil; eassumption).
    destruct T as (signers & junk & is & -> & F1 & F2 & F & C & Hc & ->); [congruence|].
    pose proof (collects_recorded _ _ C) as R. pose proof (collects_kinds _ _ _ C) as K.
    assert (B : v3_block E maxSdk 0 (lp (lps signers) ++ junk) is).
    { exists signers, junk. repeat split; try assumption. eapply collects_consistent; eassumption. }
    destruct (certs c1) as [|x cx] eqn:Cc; [inversion H; subst; cbn in Er; apply app_eq_nil in Er as [_ Er]; discriminate|].
    destruct cds1 as [|d ds] eqn:Cd; [inversion H; subst; cbn in Er; apply app_eq_nil in Er as [_ Er]; discriminate|].
    destruct (integrity_recorded k _ (d :: ds) c1 R ltac:(discriminate)) as (e & good & V & G & M).
    rewrite V in H. cbn [obind] in H.
    assert (e = [] /\ good = true) as [-> ->].
    { assert (e = []).
      { destruct good; cbn [negb] in H; [|inversion H; subst; cbn in Er; now apply app_eq_nil in Er].
        cbn [finalizeScheme] in H. apply obind_ret in H as (res3 & Fi & H). apply obind_ret in Fi as (c3 & Fi & H'). apply finalize_grows in Fi.
        inversion H'; subst. inversion H; subst. cbn in Er. apply (grows_nil _ _ Fi) in Er. cbn in Er. now apply app_eq_nil in Er. }
      subst e. split; [reflexivity|]. destruct good; [reflexivity|]. now destruct (G eq_refl). }
    cbn [negb finalizeScheme] in H. apply obind_ret in H as (res3 & Fi & H). apply obind_ret in Fi as (c3 & Fi & H').
    assert (res3 = withCore (withCore (withCore res c1) (mkCore (certs c1) (signingLineage c1) (warnings c1) (errors c1 ++ []))) c3) as -> by (inversion H'; reflexivity).
    assert (cds = d :: ds /\ v_core res' = c3) as [-> Q] by (inversion H; auto). rewrite Q in *. clear H H' Q.
    cbn [withCore v_core] in Fi. pose proof (finalize_grows _ _ _ _ _ _ _ Fi) as (Gc & _ & _). cbn in Gc.
    assert (Ne : is <> []) by (intros ->; inversion C).
    exists is. split; [|split; [assumption | rewrite Gc, Cc, Hc, Ce; reflexivity]].
    split; [assumption|]. split; [assumption|]. split; [now apply M|].
    destruct X as (_ & Sl1 & _).
    apply (finalize_sound (mkV3Cfg false maxSdk 0) is _ minSdk maxSdk _ _ B Ne rot0 Fi); cbn; [|congruence].
    rewrite Er, E1. reflexivity.
  Qed.

  Lemma verify_v3_complete k block minSdk maxSdk res is lin :
    certs (v_core res) = [] -> errors (v_core res) = [] ->
    v3_ok minSdk maxSdk block is lin ->
    exists cds res', verifyScheme E S k file s schemeIdV3 block minSdk maxSdk res = Ret (cds, res') /\ errors (v_core res') = [].
  Proof.
    intros Ce Er (Ne & B & M & Co). pose proof (v3_block_kinds _ _ _ _ _ B) as K.
    destruct (v3ParseSigners_complete E (mkV3Cfg false maxSdk 0) block is (v_core res) (is_int32_rot _ rot0) B) as (m & r' & Pa & R & w & Q).
    unfold verifyScheme, extractCertsScheme. change (schemeIdV3 =? schemeIdV31) with false. change (schemeIdV3 =? schemeIdV3) with true. cbv iota.
    rewrite Pa. cbn [obind withCore v_core]. rewrite Ce in Q. cbn [app certs signingLineage warnings errors] in Q.
    assert (Hc : certs r' = map chain3 is) by (rewrite Q; reflexivity).
    destruct (certs r') as [|x cx] eqn:Cc. { destruct is; [contradiction | discriminate]. }
    destruct m as [|d ds] eqn:Cm. { exfalso. apply Ne. apply (recorded_nil (map i3_signer is) []) in R as [R _]; [|assumption]. specialize (R eq_refl). now apply map_eq_nil in R. }
    destruct (integrity_recorded k _ (d :: ds) r' R ltac:(discriminate)) as (e & good & V & G & M').
    cbn [sb_eocd sblock_of sb_offset] in V |- *. rewrite V. cbn [obind].
    apply M' in M. subst e. destruct good; [|now destruct (G eq_refl)]. cbn [negb finalizeScheme obind].
    destruct (finalize_complete (mkV3Cfg false maxSdk 0) is block minSdk maxSdk (mkCore (certs r') (signingLineage r') (warnings r') (errors r' ++ [])) lin B Ne rot0 Co) as (l & Fi).
    cbn [withCore v_core]. rewrite Fi. cbn [obind]. do 2 eexists. split; [reflexivity|]. cbn. rewrite Q. cbn. now rewrite Er.
  Qed.

  (** scheme v3.1 *)
  Definition v31_rest (minSdk maxSdk : Z) (block3 : bytes) (is31 is3 : list v3_info) : Prop :=
    is3 <> [] /\ v3_block E maxSdk (v31RotationMin (map kept is31)) block3 is3 /\ digests_match E sections (map i3_signer is3) /\
    exists lin3, v3_covering (Z.max minSdk 28) (below_rotation maxSdk (v31RotationMin (map kept is31))) is3 lin3.
  Definition v31_ok (minSdk maxSdk : Z) (block31 block3 : bytes) (is31 : list v3_info) (lin : option (list lnode)) (is3 : list v3_info) : Prop :=
    is31 <> [] /\ v3_block E maxSdk 0 block31 is31 /\ v3_covering maxSdk maxSdk is31 lin /\ v31_rest minSdk maxSdk block3 is31 is3.

  Lemma highBound_below acting maxSdk rot : highBound (mkV3Cfg acting maxSdk rot) maxSdk = below_rotation maxSdk rot.
  Proof. reflexivity. Qed.

  Lemma verify_v31_gen k block minSdk maxSdk res cds res' :
    verifyScheme E S k file s schemeIdV31 block minSdk maxSdk res = Ret (cds, res') ->
    errors (v_core res') = [] ->
    exists block3 is31, zget blockIdSchemeV3 (v_extraBlocks res) = Some block3 /\ v3_block E maxSdk 0 block is31 /\
      certs (v_core res') = certs (v_core res) ++ map chain3 is31 /\ certs (v_core res') <> [] /\
      (is31 <> [] -> exists is3 c2, v31_rest minSdk maxSdk block3 is31 is3 /\ recorded_digests (map i3_signer is3) cds /\
        errors c2 = [] /\ signingLineage c2 = signingLineage (v_core res) /\
        exists c3, v3FinalizeWith (sortV3 S) (mkV3Cfg true maxSdk 0) (map kept is31) (if minSdk <? V13_0_TIRAMISU then V13_0_TIRAMISU else minSdk) maxSdk c2 = Ret c3 /\
          errors c3 = [] /\ signingLineage c3 = signingLineage (v_core res')).
  Proof.
    unfold verifyScheme, extractCertsScheme. change (schemeIdV31 =? schemeIdV31) with true. cbv iota.
    intros H Er. apply obind_ret in H as ([[st cds0] res1] & H1 & H). apply obind_ret in H1 as ([[[st1 cds1] c1] extra] & Pa & H1).
    unfold v31ParseSigners in Pa. apply obind_ret in Pa as ([[sigs31 cds31] c31] & P31 & Pa).
    pose proof P31 as P31'. apply v3ParseSigners_sound in P31' as (X & T). cbn [cfg_maxSdk rotationMin] in T.
    destruct (zget blockIdSchemeV3 (v_extraBlocks res)) as [block3|] eqn:Zg.
    2:{ exfalso. assert (c1 = addError c31 "The APK contains a v3.1 signing block without a v3.0 base block" /\ extra = None) as [-> ->] by (inversion Pa; auto).
        inversion H1; subst. clear H1. cbn [v_core] in H.
        assert (N : errors (addError c31 "The APK contains a v3.1 signing block without a v3.0 base block") <> []) by (cbn; intro Q; apply app_eq_nil in Q as [_ Q]; discriminate).
        set (cc := addError c31 _) in *. clearbody cc. apply N.
        destruct (certs cc); [inversion H; subst; cbn in Er; now apply app_eq_nil in Er|].
        destruct cds0; [inversion H; subst; cbn in Er; now apply app_eq_nil in Er|].
        apply obind_ret in H as ([c2 good] & V & H). apply integrity_grows in V. apply (grows_nil _ _ V).
        destruct good; cbn [negb] in H; [|inversion H; subst; exact Er]. cbn [finalizeScheme] in H.
        apply obind_ret in H as (res3 & Fi & H). apply obind_ret in Fi as ([c3 ex] & Fi & H').
        unfold v31FinalizeWith in Fi. apply obind_ret in Fi as (c4 & Fi & Fx). apply finalize_grows in Fi. apply (grows_nil _ _ Fi).
        cbn [v_extraResult3 withCore] in Fx. destruct (v_extraResult3 res) as [r3|].
        - apply obind_ret in Fx as (r3' & _ & Fx). inversion Fx; subst. inversion H'; subst. inversion H; subst. cbn in Er. now apply app_eq_nil in Er.
        - inversion Fx; subst. inversion H'; subst. inversion H; subst. exact Er. }
    apply obind_ret in Pa as ([[sigs3 cds3] r3] & P3 & Pa). pose proof P3 as P3'. apply v3ParseSigners_sound in P3' as (X3 & T3). cbn [cfg_maxSdk rotationMin] in T3.
    assert (st = StV31 {| s31_signers := sigs31; s31_v3signers := sigs3; s31_rotationMin := v31RotationMin sigs31 |} /\ cds0 = cds3 /\
      res1 = mkRes c31 (v_schemeId res) (Some r3) (v_frosting res) (v_sourceStamp res) (v_extraBlocks res)) as (-> & -> & ->).
    { inversion Pa; subst. inversion H1; subst. auto. }
    clear H1 Pa. cbn [v_core] in H.
    destruct (certs c31) as [|x cx] eqn:Cc; [inversion H; subst; cbn in Er; apply app_eq_nil in Er as [_ Er]; discriminate|].
    destruct cds3 as [|d ds] eqn:Cd; [inversion H; subst; cbn in Er; apply app_eq_nil in Er as [_ Er]; discriminate|].
    apply obind_ret in H as ([c2 good] & V & H). pose proof (integrity_grows _ _ _ _ _ _ _ _ _ V) as Gr.
    assert (Good : good = true -> exists c3 r3', v3FinalizeWith (sortV3 S) (mkV3Cfg true maxSdk 0) sigs31 (if minSdk <? V13_0_TIRAMISU then V13_0_TIRAMISU else minSdk) maxSdk c2 = Ret c3 /\
        v3FinalizeWith (sortV3 S) (mkV3Cfg false maxSdk (v31RotationMin sigs31)) sigs3 minSdk maxSdk r3 = Ret r3' /\
        errors c3 = [] /\ errors r3' = [] /\ v_core res' = mkCore (certs c3) (signingLineage c3) (warnings c3 ++ warnings r3') [] /\ cds = d :: ds).
    { intros ->. cbn [negb finalizeScheme] in H. apply obind_ret in H as (res3 & Fi & H). apply obind_ret in Fi as ([c3 ex] & Fi & H').
      unfold v31FinalizeWith in Fi. cbn [v_core withCore v_extraResult3 s31_signers s31_v3signers s31_rotationMin] in Fi.
      apply obind_ret in Fi as (c4 & Fi & Fx). apply obind_ret in Fx as (r3' & Fi3 & Fx).
      assert (c3 = mkCore (certs c4) (signingLineage c4) (warnings c4 ++ warnings r3') (errors c4 ++ errors r3')) as -> by (inversion Fx; reflexivity).
      assert (Vc : v_core res' = mkCore (certs c4) (signingLineage c4) (warnings c4 ++ warnings r3') (errors c4 ++ errors r3')) by (inversion H'; subst; inversion H; reflexivity).
      rewrite Vc in Er. cbn in Er. apply app_eq_nil in Er as [Er1 Er2]. exists c4, r3'. rewrite Vc, Er1, Er2. repeat split; try assumption.
      inversion H. reflexivity. }
    assert (E1 : errors c31 = []).
    { apply (grows_nil _ _ Gr). destruct good; [|cbn in H; inversion H; subst; exact Er].
      destruct (Good eq_refl) as (c3 & r3' & Fi & _ & E3 & _). apply finalize_grows in Fi. now apply (grows_nil _ _ Fi). }
    assert (E0 : errors (v_core res) = []) by (eapply ext_nil; eassumption).
    destruct T as (signers & junk & is31 & -> & F1 & F2 & F & C & Hc & ->); [congruence|].
    assert (B : v3_block E maxSdk 0 (lp (lps signers) ++ junk) is31).
    { exists signers, junk. repeat split; try assumption. eapply collects_consistent; eassumption. }
    exists block3, is31. split; [reflexivity|]. split; [assumption|].
    assert (Crt : certs (v_core res') = x :: cx).
    { destruct Gr as (Gc & _). destruct good; [|cbn in H; inversion H; subst; cbn; congruence].
      destruct (Good eq_refl) as (c3 & r3' & Fi & _ & _ & _ & -> & _). cbn. apply finalize_grows in Fi as (Gc' & _). congruence. }
    rewrite Crt. split; [congruence|]. split; [discriminate|]. intro Ne.
    destruct (v31Rotation_spec _ _ _ _ _ B Ne) as [_ Rot].
    (* the v3.0 block *)
    destruct good.
    2:{ exfalso. cbn in H. inversion H; subst. cbn in Er.
        revert V. unfold verifyIntegrity. intro V. apply obind_ret in V as (? & _ & V). apply obind_ret in V as (y & _ & V). destruct y; inversion V; subst.
        cbn in Er. apply app_eq_nil in Er as [_ Er]. discriminate. }
    destruct (Good eq_refl) as (c3 & r3' & Fi & Fi3 & E3 & E3' & Vc & ->).
    assert (Er3 : errors r3 = []) by (apply finalize_grows in Fi3; now apply (grows_nil _ _ Fi3)).
    destruct T3 as (signers3 & junk3 & is3 & -> & F13 & F23 & F3 & C3 & _ & ->); [exact Er3|].
    pose proof (collects_recorded _ _ C3) as R.
    assert (B3 : v3_block E maxSdk (v31RotationMin (map kept is31)) (lp (lps signers3) ++ junk3) is3).
    { exists signers3, junk3. repeat split; try assumption. eapply collects_consistent; eassumption. }
    assert (Ne3 : is3 <> []) by (intros ->; inversion C3).
    destruct (integrity_recorded k _ (d :: ds) c31 R ltac:(discriminate)) as (e & good & V' & G & M).
    change (sb_eocd _) with (sb_eocd s) in V. change (sb_offset _) with (sb_offset s) in V. rewrite V' in V.
    assert (c2 = mkCore (certs c31) (signingLineage c31) (warnings c31) (errors c31 ++ e)) as -> by (inversion V; reflexivity).
    assert (e = []) as ->.
    { apply finalize_grows in Fi. apply (grows_nil _ _ Fi) in E3. cbn in E3. now apply app_eq_nil in E3. }
    destruct X as (_ & Sl & _). destruct X3 as (_ & Sl3 & _).
    exists is3, (mkCore (certs c31) (signingLineage c31) (warnings c31) (errors c31 ++ [])).
    split; [|split; [assumption|split; [cbn; now rewrite E1|split; [exact Sl|]]]].
    - split; [assumption|]. split; [assumption|]. split; [now apply M|]. exists (lin_nodes (signingLineage r3')).
      apply (finalize_sound (mkV3Cfg false maxSdk (v31RotationMin (map kept is31))) is3 _ minSdk maxSdk _ _ B3 Ne3 Rot Fi3); [congruence | exact Sl3].
    - exists c3. repeat split; try assumption. rewrite Vc. reflexivity.
  Qed.

  Lemma verify_v31_sound k block minSdk maxSdk res cds res' :
    certs (v_core res) = [] -> signingLineage (v_core res) = None ->
    verifyScheme E S k file s schemeIdV31 block minSdk maxSdk res = Ret (cds, res') ->
    errors (v_core res') = [] ->
    exists block3 is31 is3, zget blockIdSchemeV3 (v_extraBlocks res) = Some block3 /\
      v31_ok minSdk maxSdk block block3 is31 (lin_nodes (signingLineage (v_core res'))) is3 /\
      recorded_digests (map i3_signer is3) cds /\ certs (v_core res') = map chain3 is31.
  Proof.
    intros Ce Sl H Er. apply verify_v31_gen in H as (block3 & is31 & Zg & B & Hc & Hn & T); [|assumption].
    rewrite Ce in Hc. cbn in Hc. assert (Ne : is31 <> []) by (intros ->; now rewrite Hc in Hn).
    destruct (T Ne) as (is3 & c2 & Re & R & E2 & Sl2 & c3 & Fi & E3 & Sl3).
    exists block3, is31, is3. split; [assumption|]. split; [|auto]. split; [assumption|]. split; [assumption|]. split; [|assumption].
    rewrite <- Sl3. apply (finalize_sound (mkV3Cfg true maxSdk 0) is31 _ _ maxSdk _ _ B Ne rot0 Fi); [congruence|]. congruence.
  Qed.

  Lemma verify_v31_complete k block block3 minSdk maxSdk res is31 lin is3 :
    certs (v_core res) = [] -> errors (v_core res) = [] ->
    zget blockIdSchemeV3 (v_extraBlocks res) = Some block3 ->
    v31_ok minSdk maxSdk block block3 is31 lin is3 ->
    exists cds res', verifyScheme E S k file s schemeIdV31 block minSdk maxSdk res = Ret (cds, res') /\ errors (v_core res') = [].
  Proof.
    intros Ce Er Zg (Ne & B & Co & Ne3 & B3 & M & lin3 & Co3). pose proof (v3_block_kinds _ _ _ _ _ B3) as K.
    destruct (v31Rotation_spec _ _ _ _ _ B Ne) as [_ Rot].
    destruct (v3ParseSigners_complete E (mkV3Cfg true maxSdk 0) block is31 (v_core res) (is_int32_rot _ rot0) B) as (m31 & r1 & Pa & _ & w & Q).
    destruct (v3ParseSigners_complete E (mkV3Cfg false maxSdk (v31RotationMin (map kept is31))) block3 is3 core0 (is_int32_rot _ Rot) B3) as (m & r3 & Pa3 & R & w3 & Q3).
    unfold verifyScheme, extractCertsScheme. change (schemeIdV31 =? schemeIdV31) with true. cbv iota.
    unfold v31ParseSigners. rewrite Pa. cbn [obind]. rewrite Zg, Pa3. cbn [obind withCore v_core]. rewrite Ce in Q. cbn [app certs signingLineage warnings errors] in Q.
    assert (Hc : certs r1 = map chain3 is31) by (rewrite Q; reflexivity).
    destruct (certs r1) as [|x cx] eqn:Cc. { destruct is31; [contradiction | discriminate]. }
    destruct m as [|d ds] eqn:Cm. { exfalso. apply Ne3. apply (recorded_nil (map i3_signer is3) []) in R as [R _]; [|assumption]. specialize (R eq_refl). now apply map_eq_nil in R. }
    destruct (integrity_recorded k _ (d :: ds) r1 R ltac:(discriminate)) as (e & good & V & G & M').
    cbn [sb_eocd sblock_of sb_offset] in V |- *. rewrite V. cbn [obind].
    apply M' in M. subst e. destruct good; [|now destruct (G eq_refl)]. cbn [negb finalizeScheme obind].
    unfold v31FinalizeWith. cbn [withCore v_core v_extraResult3 s31_signers s31_v3signers s31_rotationMin].
    destruct (finalize_complete (mkV3Cfg true maxSdk 0) is31 block (if minSdk <? V13_0_TIRAMISU then V13_0_TIRAMISU else minSdk) maxSdk (mkCore (certs r1) (signingLineage r1) (warnings r1) (errors r1 ++ [])) lin B Ne rot0 Co) as (l & Fi).
    rewrite Fi. cbn [obind].
    destruct (finalize_complete (mkV3Cfg false maxSdk (v31RotationMin (map kept is31))) is3 block3 minSdk maxSdk r3 lin3 B3 Ne3 Rot Co3) as (l3 & Fi3).
    rewrite Fi3. cbn [obind]. do 2 eexists. split; [reflexivity|]. cbn. rewrite Q, Q3. cbn. now rewrite Er.
  Qed.

  (** what a run leaves behind, even a failing one *)
  Lemma verify_v31_trace k block minSdk maxSdk res cds res' is31 :
    verifyScheme E S k file s schemeIdV31 block minSdk maxSdk res = Ret (cds, res') ->
    v3_block E maxSdk 0 block is31 -> signingLineage (v_core res) = None ->
    certs (v_core res') = certs (v_core res) ++ map chain3 is31 /\
    (signingLineage (v_core res') = None \/
     exists c2 c3, v3FinalizeWith (sortV3 S) (mkV3Cfg true maxSdk 0) (map kept is31) (if minSdk <? V13_0_TIRAMISU then V13_0_TIRAMISU else minSdk) maxSdk c2 = Ret c3 /\
       signingLineage c2 = None /\ signingLineage c3 = signingLineage (v_core res')).
  Proof.
    unfold verifyScheme, extractCertsScheme. change (schemeIdV31 =? schemeIdV31) with true. cbv iota.
    intros H B Sl. apply obind_ret in H as ([[st cds0] res1] & H1 & H). apply obind_ret in H1 as ([[[st1 cds1] c1] extra] & Pa & H1).
    unfold v31ParseSigners in Pa. apply obind_ret in Pa as ([[sigs31 cds31] c31] & P31 & Pa).
    pose proof (v3ParseSigners_iff E (mkV3Cfg true maxSdk 0) _ _ _ _ _ (is_int32_rot _ rot0) P31) as [_ T]. cbn [cfg_maxSdk rotationMin] in T.
    destruct (T is31 B) as (-> & _ & w & Q).
    assert (Cs : certs c31 = certs (v_core res) ++ map chain3 is31 /\ signingLineage c31 = None) by (rewrite Q; cbn; auto).
    assert (X : exists sigs3 rot, st = StV31 {| s31_signers := map kept is31; s31_v3signers := sigs3; s31_rotationMin := rot |} /\
       certs (v_core res1) = certs c31 /\ signingLineage (v_core res1) = None).
    { destruct (zget blockIdSchemeV3 (v_extraBlocks res)) as [b3|].
      - apply obind_ret in Pa as ([[sigs3 cds3] r3] & _ & Pa). inversion Pa; subst. inversion H1; subst. do 2 eexists. split; [reflexivity|]. cbn [v_core]. tauto.
      - inversion Pa; subst. inversion H1; subst. do 2 eexists. split; [reflexivity|]. cbn [v_core addError certs signingLineage]. tauto. }
    destruct X as (sigs3 & rot & -> & Xc & Xs). destruct Cs as [Cs Ss].
    destruct (certs (v_core res1)) as [|x cx] eqn:Cc.
    { inversion H; subst. cbn. split; [congruence | now left]. }
    destruct cds0 as [|d ds]. { inversion H; subst. cbn. split; [congruence | now left]. }
    apply obind_ret in H as ([c2 good] & V & H). pose proof (integrity_grows _ _ _ _ _ _ _ _ _ V) as (Gc & _).
    assert (Gs : signingLineage c2 = None).
    { revert V. unfold verifyIntegrity. intro V. apply obind_ret in V as (? & _ & V). apply obind_ret in V as (y & _ & V). destruct y as [m|]; inversion V; subst; [|exact Xs].
      clear - Xs. match goal with |- context [fold_left _ ?K _] => generalize K end. intro ks. revert Xs. generalize (v_core res1). induction ks as [|a ks IH]; intros c Hc; cbn [fold_left]; [assumption|].
      apply IH. destruct (bytes_eqb _ _); exact Hc. }
    destruct good; cbn [negb] in H.
    2:{ inversion H; subst. cbn. split; [congruence | now left]. }
    cbn [finalizeScheme] in H. apply obind_ret in H as (res3 & Fi & H). apply obind_ret in Fi as ([c3 ex] & Fi & H').
    unfold v31FinalizeWith in Fi. cbn [v_core withCore s31_signers] in Fi. apply obind_ret in Fi as (c4 & Fi & Fx).
    assert (certs c3 = certs c4 /\ signingLineage c3 = signingLineage c4) as [Y1 Y2].
    { destruct (v_extraResult3 _) as [r3|]; [apply obind_ret in Fx as (r3' & _ & Fx)|]; inversion Fx; subst; auto. }
    assert (v_core res' = c3) as -> by (inversion H'; subst; inversion H; reflexivity).
    pose proof (finalize_grows _ _ _ _ _ _ _ Fi) as (Gc' & _). split; [congruence|]. right. exists c2, c4. repeat split; congruence.
  Qed.

  Lemma verify_v31_again k k' block minSdk maxSdk res cds res' res2 cds2 res3 :
    certs (v_core res) = [] -> signingLineage (v_core res) = None -> errors (v_core res) = [] ->
    verifyScheme E S k file s schemeIdV31 block minSdk maxSdk res = Ret (cds, res') ->
    certs (v_core res2) = certs (v_core res') -> signingLineage (v_core res2) = signingLineage (v_core res') ->
    zget blockIdSchemeV3 (v_extraBlocks res2) = zget blockIdSchemeV3 (v_extraBlocks res) ->
    verifyScheme E S k' file s schemeIdV31 block minSdk maxSdk res2 = Ret (cds2, res3) ->
    errors (v_core res3) = [] -> errors (v_core res') = [].
  Proof.
    intros Ce Sl Er H Ce2 Sl2 Zx H2 Er3. pose proof (verify_v31_gen _ _ _ _ _ _ _ H2 Er3) as (block3 & is31 & Zg & B & Hc & Hn & T).
    destruct (verify_v31_trace _ _ _ _ _ _ _ _ H B Sl) as [Tc Tl]. rewrite Ce in Tc. cbn in Tc.
    assert (Ne : is31 <> []).
    { intros ->. cbn in Hc, Tc. rewrite Ce2, Tc in Hc. now rewrite Hc in Hn. }
    destruct (T Ne) as (is3 & c2 & Re & R & E2 & Sl2' & c3 & Fi & E3 & Sl3). rewrite Zx in Zg.
    pose proof (v3_block_ranges _ _ _ _ _ B) as Ra.
    assert (exists lin, v3_covering maxSdk maxSdk is31 lin) as [lin Co].
    { set (mn := if minSdk <? V13_0_TIRAMISU then V13_0_TIRAMISU else minSdk) in *.
      destruct (finalize_spec S (mkV3Cfg true maxSdk 0) (map kept is31) mn maxSdk c2 HS (kept_ne _ Ne) Ra rot0) as (r2 & F & D).
      change (ordered S) with (sortV3 S) in F. rewrite F in Fi. inversion Fi; subst r2. clear F.
      destruct D as [(_ & _ & D1 & D2 & D3)|((e & Ee & Nn) & _)].
      2:{ exfalso. rewrite E2, E3 in Ee. cbn in Ee. congruence. }
      change (lowBound (mkV3Cfg true maxSdk 0) mn maxSdk) with maxSdk in D1. change (highBound (mkV3Cfg true maxSdk 0) maxSdk) with maxSdk in D1.
      destruct (signingLineage c2) as [l|] eqn:L2.
      2:{ exists (lin_nodes (signingLineage c3)). eapply (covering_of S); eassumption. }
      destruct Tl as [Tl|(c2' & c3' & Fi' & N2' & N3')]; [congruence|].
      destruct (finalize_spec S (mkV3Cfg true maxSdk 0) (map kept is31) mn maxSdk c2' HS (kept_ne _ Ne) Ra rot0) as (r2 & F & D).
      change (ordered S) with (sortV3 S) in F. rewrite F in Fi'. inversion Fi'; subst r2. clear F.
      destruct D as [(_ & _ & D1' & D2' & D3')|(_ & _ & _ & D4 & _)].
      - rewrite N2' in D3'. exists (lin_nodes (signingLineage c3')). eapply (covering_of S); eassumption.
      - exfalso. apply D4; [assumption | congruence|]. split; [exact D1 | exact D2]. }
    destruct (verify_v31_complete k block block3 minSdk maxSdk res is31 lin is3 Ce Er Zg) as (cds' & res4 & V & E4).
    { split; [assumption|]. split; [assumption|]. split; assumption. }
    rewrite H in V. inversion V; subst. exact E4.
  Qed.
End Apk.

(** What a verifier run does not touch. *)
Lemma verifyScheme_frame E S k file s id block minSdk maxSdk res cds res' :
  verifyScheme E S k file s id block minSdk maxSdk res = Ret (cds, res') ->
  v_schemeId res' = v_schemeId res /\ v_frosting res' = v_frosting res /\ v_sourceStamp res' = v_sourceStamp res /\ v_extraBlocks res' = v_extraBlocks res.
Proof.
  unfold verifyScheme. intro H. apply obind_ret in H as ([[st cds0] res1] & H1 & H).
  assert (F1 : v_schemeId res1 = v_schemeId res /\ v_frosting res1 = v_frosting res /\ v_sourceStamp res1 = v_sourceStamp res /\ v_extraBlocks res1 = v_extraBlocks res).
  { revert H1. unfold extractCertsScheme. destruct (id =? schemeIdV31).
    - intro H1. apply obind_ret in H1 as ([[[? ?] ?] ?] & _ & H1). inversion H1; subst. cbn. auto.
    - destruct (id =? schemeIdV3); intro H1.
      + apply obind_ret in H1 as ([[? ?] ?] & _ & H1). inversion H1; subst. cbn. auto.
      + apply obind_ret in H1 as ([? ?] & _ & H1). inversion H1; subst. cbn. auto. }
  destruct (certs (v_core res1)). { inversion H; subst. exact F1. }
  destruct cds0. { inversion H; subst. exact F1. }
  apply obind_ret in H as ([c good] & _ & H). destruct good; cbn [negb] in H; [|inversion H; subst; exact F1].
  apply obind_ret in H as (res3 & Fi & H). inversion H; subst. clear H. destruct st; cbn [finalizeScheme] in Fi.
  - inversion Fi; subst. exact F1.
  - apply obind_ret in Fi as (? & _ & Fi). inversion Fi; subst. exact F1.
  - apply obind_ret in Fi as ([? ?] & _ & Fi). inversion Fi; subst. exact F1.
Qed.
