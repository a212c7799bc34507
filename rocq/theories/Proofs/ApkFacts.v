(** Verification of the whole signing block against the file-level predicates of Spec/Verified.v *)
From Coq Require Import String.
From Coq Require Import Lia Permutation.
From Verif.Model Require Import Bytes ApiLevel Env Utils SigBlock Result Signer SchemeV2 SchemeV3 DataSource Digest Frosting SourceStamp Verify.
From Verif.Spec Require Import Encoding Algorithms Nondet Signer SignerV3 Ranges ApkLayout Digests Entries Verified.
From Verif.Proofs Require Import BytesFacts UtilsFacts SigBlockFacts SignerFacts SchemeV2Facts CollectFacts V2BlockFacts LineageFacts SchemeV3Facts V3BlockFacts RangeFacts CoveringFacts IntegrityFacts EntriesFacts VerifyFacts.

Lemma last_entry_fun es id p q : last_entry es id p -> last_entry es id q -> p = q.
Proof.
  intros (b & a & -> & N) (b' & a' & Q & N'). revert b' Q. induction b as [|x b IH]; intros [|x' b'] Q; cbn in Q.
  - congruence.
  - exfalso. apply N. inversion Q; subst. rewrite map_app, in_app_iff. right. now left.
  - exfalso. apply N'. inversion Q; subst. rewrite map_app, in_app_iff. right. now left.
  - inversion Q; subst. eauto.
Qed.
Lemma last_entry_in es id : In id (map fst es) <-> exists p, last_entry es id p.
Proof.
  split.
  - induction es as [|[i p] es IH]; [intros []|]. intros H. destruct (in_dec Z.eq_dec id (map fst es)) as [I|N].
    + destruct (IH I) as (q & b & a & -> & Na). exists q, ((i, p) :: b), a. auto.
    + destruct H as [<-|H]; [|contradiction]. exists p, [], es. auto.
  - intros (p & b & a & -> & _). rewrite map_app, in_app_iff. right. now left.
Qed.

Lemma zget_zdel (k k' : Z) (m : list (Z * bytes)) : NoDup (map fst m) -> zget k (zdel k' m) = if k =? k' then None else zget k m.
Proof.
  induction m as [|[a v] m IH]; intro N; cbn; [now destruct (k =? k')|]. cbn in N. inversion N as [|? ? Na Nm]; subst.
  destruct (Z.eqb_spec k' a) as [->|].
  - destruct (Z.eqb_spec k a) as [->|]; [|reflexivity]. now apply zget_none.
  - cbn. rewrite IH by assumption. destruct (Z.eqb_spec k a) as [->|]; [|reflexivity]. destruct (Z.eqb_spec a k'); [congruence | reflexivity].
Qed.

Lemma fresh_core c : quiet core0 c -> certs c = [] /\ signingLineage c = None /\ errors c = [].
Proof. intros (w & ->). auto. Qed.

Section Run.
  Variables (E : env) (S : sched) (file before pairs cd rec : bytes) (sections : list bytes) (es : list (Z * bytes)) (minSdk maxSdk : Z).
  Hypothesis HE : hash_sizes_ok E.
  Hypothesis HS : sched_ok S.
  Hypothesis A : apk file before pairs cd rec.
  Hypothesis P : protected before cd rec sections.
  Notation s := (sblock_of before pairs cd rec).
  Variable blocks : list (Z * bytes).
  Hypothesis Bl : forall id p, zget id blocks = Some p <-> used_at maxSdk id /\ last_entry es id p.

  Lemma block_v31 : (exists b, zget blockIdSchemeV31 blocks = Some b) <-> v31_in maxSdk es.
  Proof.
    change blockIdSchemeV31 with id_v31. setoid_rewrite Bl. unfold v31_in. rewrite last_entry_in. unfold used_at, id_v2, id_v3, id_v31, id_stamp. split.
    - intros (b & U & L). split; [lia | eauto].
    - intros (U & b & L). exists b. split; [lia | assumption].
  Qed.
  Lemma block_v3 : (exists b, zget blockIdSchemeV3 blocks = Some b) <-> v3_in maxSdk es.
  Proof.
    change blockIdSchemeV3 with id_v3. setoid_rewrite Bl. unfold v3_in. rewrite last_entry_in. unfold used_at, id_v2, id_v3, id_v31, id_stamp. split.
    - intros (b & U & L). split; [lia | eauto].
    - intros (U & b & L). exists b. split; [lia | assumption].
  Qed.
  Lemma block_v2 : (exists b, zget blockIdSchemeV2 blocks = Some b) <-> v2_in maxSdk es.
  Proof.
    change blockIdSchemeV2 with id_v2. setoid_rewrite Bl. unfold v2_in. rewrite last_entry_in. unfold used_at, id_v2, id_v3, id_v31, id_stamp. split.
    - intros (b & U & L). split; [lia | eauto].
    - intros (U & b & L). exists b. split; [lia | assumption].
  Qed.

  (** which scheme is picked *)
  Lemma pick_31 : v31_in maxSdk es -> exists b, pickScheme blocks = (schemeIdV31, Some b) /\ last_entry es id_v31 b /\ zget blockIdSchemeV31 blocks = Some b.
  Proof.
    intro H. apply block_v31 in H as [b H]. exists b. unfold pickScheme. rewrite H. split; [reflexivity|]. split; [now apply Bl in H | reflexivity].
  Qed.
  Lemma none_of (id : Z) : ~ (exists b, zget id blocks = Some b) -> zget id blocks = None.
  Proof. destruct (zget id blocks); [intro H; exfalso; eauto | reflexivity]. Qed.
  Lemma pick_3 : ~ v31_in maxSdk es -> v3_in maxSdk es -> exists b, pickScheme blocks = (schemeIdV3, Some b) /\ last_entry es id_v3 b /\ zget blockIdSchemeV3 blocks = Some b.
  Proof.
    intros N H. rewrite <- block_v31 in N. apply none_of in N. apply block_v3 in H as [b H]. exists b. unfold pickScheme. rewrite N, H.
    split; [reflexivity|]. split; [now apply Bl in H | reflexivity].
  Qed.
  Lemma pick_2 : ~ v31_in maxSdk es -> ~ v3_in maxSdk es -> v2_in maxSdk es -> exists b, pickScheme blocks = (schemeIdV2, Some b) /\ last_entry es id_v2 b.
  Proof.
    intros N N3 H. rewrite <- block_v31 in N. rewrite <- block_v3 in N3. apply none_of in N, N3. apply block_v2 in H as [b H]. exists b. unfold pickScheme. rewrite N, N3, H.
    split; [reflexivity | now apply Bl in H].
  Qed.
  Lemma pick_1 : ~ v31_in maxSdk es -> ~ v3_in maxSdk es -> ~ v2_in maxSdk es -> pickScheme blocks = (schemeIdV1, None).
  Proof.
    intros N N3 N2. rewrite <- block_v31 in N. rewrite <- block_v3 in N3. rewrite <- block_v2 in N2. apply none_of in N, N3, N2. unfold pickScheme. now rewrite N, N3, N2.
  Qed.

  (** ExtraBlocks when verification starts *)
  Variable xb : list (Z * bytes).
  Hypothesis Xb : forall id p, zget id xb = Some p <-> extra_at maxSdk id /\ last_entry es id p.

  Lemma extra_v3 b : 33 <= maxSdk -> (zget blockIdSchemeV3 xb = Some b <-> last_entry es id_v3 b).
  Proof.
    intro M. change blockIdSchemeV3 with id_v3. rewrite Xb. split; [tauto|]. intro L. split; [|assumption].
    unfold extra_at, id_v2, id_v3, id_v31, id_stamp, id_padding, id_frosting. lia.
  Qed.
  Lemma present_direct id : ~ v31_in maxSdk es -> ~ v3_in maxSdk es -> 28 <= maxSdk -> id = id_v2 \/ id = id_v3 \/ id = id_v31 -> (has xb id <-> present_in es id).
  Proof.
    intros N N3 M I. unfold has, present_in. setoid_rewrite Xb. rewrite last_entry_in. split.
    - intros (p & (X1 & X2 & X3 & X4 & X5 & X6) & L). split; [|eauto]. intro Q. specialize (X4 Q). lia.
    - intros (Q & p & L). exists p. split; [|assumption].
      assert (I' : In id (map fst es)) by (apply last_entry_in; eauto).
      unfold v31_in, v3_in in *. destruct I as [-> | [-> | ->]]; [congruence | exfalso; tauto|].
      assert (maxSdk < 33) by (destruct (Z_lt_le_dec maxSdk 33); [assumption | exfalso; tauto]).
      unfold extra_at, id_v2, id_v3, id_v31, id_stamp, id_padding, id_frosting. lia.
  Qed.
  Lemma present_fallback b id : ~ v31_in maxSdk es -> last_entry es id_v3 b -> 28 <= maxSdk -> id = id_v2 \/ id = id_v3 \/ id = id_v31 ->
    (has (zset blockIdSchemeV3 b xb) id <-> present_in es id).
  Proof.
    intros N L3 M I. unfold has, present_in. change blockIdSchemeV3 with id_v3. rewrite last_entry_in. setoid_rewrite zget_zset.
    destruct (Z.eqb_spec id id_v3) as [->|Ne].
    - split; [|eauto]. intros _. split; [discriminate | eauto].
    - setoid_rewrite Xb. split.
      + intros (p & (X1 & X2 & X3 & X4 & X5 & X6) & L). split; [|eauto]. intro Q. specialize (X4 Q). lia.
      + intros (Q & p & L). exists p. split; [|assumption].
        assert (I' : In id (map fst es)) by (apply last_entry_in; eauto).
        unfold v31_in in *. destruct I as [-> | [-> | ->]]; [congruence | contradiction|].
        assert (maxSdk < 33) by (destruct (Z_lt_le_dec maxSdk 33); [assumption | exfalso; tauto]).
        unfold extra_at, id_v2, id_v3, id_v31, id_stamp, id_padding, id_frosting. lia.
  Qed.
  Lemma v2_block_ids (Q Q' : Z -> Prop) block is : (28 <= maxSdk -> forall id, id = id_v2 \/ id = id_v3 \/ id = id_v31 -> (Q id <-> Q' id)) ->
    (v2_block E maxSdk Q block is <-> v2_block E maxSdk Q' block is).
  Proof.
    intro H.
    assert (W : forall Q0 : Z -> Prop, v2_block E maxSdk Q0 block is -> v2_block E maxSdk (fun id => (id = id_v2 \/ id = id_v3 \/ id = id_v31) /\ Q0 id) block is).
    { intros Q0 (signers & junk & E1 & F1 & F2 & F & C). exists signers, junk. split; [assumption|]. split; [assumption|]. split; [assumption|].
      split; [|assumption]. clear - F. induction F as [|s0 i ss is V F IH]; constructor; [|assumption].
      destruct V as (sd & sigs & pk & j & digs & cs & attrs & j' & al & A1 & A2 & A3 & A4 & A5 & A6 & A7 & A8 & A9 & A10 & A11).
      exists sd, sigs, pk, j, digs, cs, attrs, j', al. repeat (split; [assumption|]).
      eapply Forall_impl; [|exact A11]. intros a Ha X Y. destruct (Ha X Y) as (sc & rest & id & B1 & B2 & B3 & B4). exists sc, rest, id. repeat (split; [assumption|]).
      split; [|assumption]. unfold scheme_block_id in B3.
      destruct sc as [|q|q]; try discriminate. repeat (destruct q as [q|q|]; try discriminate B3); inversion B3; subst; unfold id_v2, id_v3, id_v31; auto. }
    split; intro B; apply W in B; eapply v2_block_present; try exact B; cbn; intros M id [I X]; apply (H M id I); assumption.
  Qed.

  (** first run *)
  Variable res : vresult.
  Hypothesis Rc : quiet core0 (v_core res).
  Hypothesis Rx : v_extraBlocks res = xb.

  Notation pv k bl r := (pickAndVerify E S k file s bl minSdk maxSdk r).

  Lemma run_old k bl r : maxSdk < 24 -> pv k bl r = Ret ([], setScheme r 1).
  Proof. intro H. unfold pickAndVerify, SupportsSigV2, V7_0_Nougat. destruct (Z.leb_spec 24 maxSdk); [lia | reflexivity]. Qed.
  Lemma run_unfold k bl r : 24 <= maxSdk -> pv k bl r =
    (let '(id, block) := pickScheme bl in
     match block with
     | None => Ret ([], withCore (setScheme r id) (mkCore (certs (v_core r)) (signingLineage (v_core r)) (warnings (v_core r)) (errors (v_core r) ++ [noBlockError])))
     | Some b => verifyScheme E S k file s id b minSdk maxSdk (setScheme r id)
     end).
  Proof.
    intro H. unfold pickAndVerify, SupportsSigV2, V7_0_Nougat. destruct (Z.leb_spec 24 maxSdk); [|lia]. cbn [negb].
    destruct (pickScheme bl) as [id [b|]]; reflexivity.
  Qed.

  Lemma v31_ok_verified b is31 lin is3 : last_entry es id_v31 b -> 33 <= maxSdk ->
    ((exists b3, last_entry es id_v3 b3 /\ v31_ok E sections minSdk maxSdk b b3 is31 lin is3) <-> v31_verified E minSdk maxSdk es sections is31 lin is3).
  Proof.
    intros L M. split.
    - intros (b3 & L3 & Ne & B & Co & Ne3 & B3 & Dm & lin3 & Co3). split; [assumption|]. split; [assumption|]. split; [assumption|].
      destruct (v31Rotation_spec _ _ _ _ _ B Ne) as [RL _]. exists b, b3, (v31RotationMin (map kept is31)), lin3. repeat (split; [assumption|]). assumption.
    - intros (_ & Ne & Ne3 & b' & b3 & rot & lin3 & L' & L3 & B & RL & B3 & Dm & Co & Co3).
      assert (b' = b) by (eapply last_entry_fun; eassumption). subst b'.
      destruct (v31Rotation_spec _ _ _ _ _ B Ne) as [RL' _]. assert (rot = v31RotationMin (map kept is31)) by (eapply rotation_level_fun; eassumption). subst rot.
      exists b3. split; [assumption|]. split; [assumption|]. split; [assumption|]. split; [assumption|]. split; [assumption|]. split; [assumption|]. split; [assumption|]. eauto.
  Qed.

  Lemma first_31 cds res' : v31_in maxSdk es -> pv 0%nat blocks res = Ret (cds, res') ->
    v_schemeId res' = 31 /\
    (errors (v_core res') = [] -> exists is31 is3, v31_verified E minSdk maxSdk es sections is31 (lin_nodes (signingLineage (v_core res'))) is3 /\
       certs (v_core res') = map chain3 is31 /\ recorded_digests (map i3_signer is3) cds) /\
    (forall is31 lin is3, v31_verified E minSdk maxSdk es sections is31 lin is3 -> errors (v_core res') = []).
  Proof.
    intros V H. pose proof V as [M _]. rewrite run_unfold in H by lia. destruct (pick_31 V) as (b & Pk & L & _). rewrite Pk in H.
    pose proof (fresh_core _ Rc) as (Fc & Fl & Fe).
    split; [apply verifyScheme_frame in H as (H & _); exact H|]. split.
    - intro Er. destruct (verify_v31_sound E S file before pairs cd rec sections HE HS A P _ _ _ _ (setScheme res _) _ _ Fc Fl H Er) as (b3 & is31 & is3 & Zg & Ok & R & Hc).
      cbn in Zg. rewrite Rx in Zg. apply extra_v3 in Zg; [|assumption]. exists is31, is3. split; [|auto].
      apply (v31_ok_verified b); [assumption | assumption|]. eauto.
    - intros is31 lin is3 Ve. apply (v31_ok_verified b) in Ve as (b3 & L3 & Ok); [|assumption|assumption].
      destruct (verify_v31_complete E S file before pairs cd rec sections HE HS A P 0%nat b b3 minSdk maxSdk (setScheme res schemeIdV31) is31 lin is3) as (cds' & res2 & V2 & E2); try assumption.
      { cbn. rewrite Rx. now apply extra_v3. }
      rewrite H in V2. inversion V2; subst. exact E2.
  Qed.

  Lemma first_3 cds res' : ~ v31_in maxSdk es -> v3_in maxSdk es -> pv 0%nat blocks res = Ret (cds, res') ->
    v_schemeId res' = 3 /\
    (errors (v_core res') = [] -> exists is, v3_verified E minSdk maxSdk es sections is (lin_nodes (signingLineage (v_core res'))) /\
       certs (v_core res') = map chain3 is /\ recorded_digests (map i3_signer is) cds) /\
    (forall is lin, v3_verified E minSdk maxSdk es sections is lin -> errors (v_core res') = []).
  Proof.
    intros N V H. pose proof V as [M _]. rewrite run_unfold in H by lia. destruct (pick_3 N V) as (b & Pk & L & _). rewrite Pk in H.
    pose proof (fresh_core _ Rc) as (Fc & Fl & Fe).
    split; [apply verifyScheme_frame in H as (H & _); exact H|]. split.
    - intro Er. destruct (verify_v3_sound E S file before pairs cd rec sections HE HS A P _ _ _ _ (setScheme res _) _ _ Fc Fl H Er) as (is & (Ne & B & Dm & Co) & R & Hc).
      exists is. split; [|auto]. split; [assumption|]. split; [assumption|]. exists b. auto.
    - intros is lin (_ & Ne & b' & L' & B & Dm & Co). assert (b' = b) by (eapply last_entry_fun; eassumption). subst b'.
      destruct (verify_v3_complete E S file before pairs cd rec sections HE HS A P 0%nat b minSdk maxSdk (setScheme res schemeIdV3) is lin) as (cds' & res2 & V2 & E2); try assumption.
      { split; [assumption|]. auto. }
      rewrite H in V2. inversion V2; subst. exact E2.
  Qed.

  Lemma first_2 cds res' : ~ v31_in maxSdk es -> ~ v3_in maxSdk es -> v2_in maxSdk es -> pv 0%nat blocks res = Ret (cds, res') ->
    v_schemeId res' = 2 /\
    (errors (v_core res') = [] -> exists is, v2_verified E maxSdk es sections is /\
       certs (v_core res') = map si_chain is /\ signingLineage (v_core res') = None /\ recorded_digests is cds) /\
    (forall is, v2_verified E maxSdk es sections is -> errors (v_core res') = []).
  Proof.
    intros N N3 V H. pose proof V as [M _]. rewrite run_unfold in H by lia. destruct (pick_2 N N3 V) as (b & Pk & L). rewrite Pk in H.
    pose proof (fresh_core _ Rc) as (Fc & Fl & Fe).
    split; [apply verifyScheme_frame in H as (H & _); exact H|]. split.
    - intro Er. destruct (verify_v2_sound E S file before pairs cd rec sections HE HS A P _ _ _ _ _ _ _ H Er) as (_ & is & (Ne & B & Dm) & Le & R & w & ->).
      cbn [withCore v_core setScheme certs signingLineage] in *. rewrite Fc, Fl. exists is. split; [|auto]. split; [assumption|]. split; [assumption|]. exists b. split; [assumption|]. split; [|assumption].
      eapply v2_block_ids; [|exact B]. cbn [v_extraBlocks setScheme]. rewrite Rx. intros M' id I. symmetry. apply present_direct; assumption.
    - intros is (_ & Ne & b' & L' & B & Dm). assert (b' = b) by (eapply last_entry_fun; eassumption). subst b'.
      destruct (verify_v2_complete E S file before pairs cd rec sections HE HS A P 0%nat b minSdk maxSdk (setScheme res schemeIdV2) is) as (cds' & w & V2 & _); try assumption.
      { split; [assumption|]. split; [|assumption]. eapply v2_block_ids; [|exact B]. cbn [v_extraBlocks setScheme]. rewrite Rx. intros M' id I. apply present_direct; assumption. }
      rewrite H in V2. inversion V2; subst. reflexivity.
  Qed.

  Lemma first_1 cds res' : 24 <= maxSdk -> ~ v31_in maxSdk es -> ~ v3_in maxSdk es -> ~ v2_in maxSdk es -> pv 0%nat blocks res = Ret (cds, res') ->
    v_schemeId res' = 1 /\ errors (v_core res') = [noBlockError].
  Proof.
    intros M N N3 N2 H. rewrite run_unfold in H by lia. rewrite (pick_1 N N3 N2) in H. pose proof (fresh_core _ Rc) as (Fc & Fl & Fe).
    inversion H; subst. cbn. now rewrite Fe.
  Qed.

  (** the runs on honestly signed files do not panic *)
  Lemma total_31 is31 lin is3 : v31_verified E minSdk maxSdk es sections is31 lin is3 -> exists cds res', pv 0%nat blocks res = Ret (cds, res').
  Proof.
    intro Ve. pose proof Ve as (M & _ & _ & b0 & _ & _ & _ & L0 & _).
    assert (V : v31_in maxSdk es) by (split; [assumption | apply last_entry_in; eauto]).
    rewrite run_unfold by lia. destruct (pick_31 V) as (b & Pk & L & _). rewrite Pk. pose proof (fresh_core _ Rc) as (Fc & Fl & Fe).
    apply (v31_ok_verified b) in Ve as (b3 & L3 & Ok); [|assumption|assumption].
    destruct (verify_v31_complete E S file before pairs cd rec sections HE HS A P 0%nat b b3 minSdk maxSdk (setScheme res schemeIdV31) is31 lin is3) as (cds' & res2 & V2 & E2); try assumption; [|eauto].
    cbn. rewrite Rx. now apply extra_v3.
  Qed.
  Lemma total_3 is lin : ~ v31_in maxSdk es -> v3_verified E minSdk maxSdk es sections is lin -> exists cds res', pv 0%nat blocks res = Ret (cds, res').
  Proof.
    intros N Ve. pose proof Ve as (M & Ne & b0 & L0 & B & Dm & Co).
    assert (V : v3_in maxSdk es) by (split; [assumption | apply last_entry_in; eauto]).
    rewrite run_unfold by lia. destruct (pick_3 N V) as (b & Pk & L & _). rewrite Pk. pose proof (fresh_core _ Rc) as (Fc & Fl & Fe).
    assert (b0 = b) by (eapply last_entry_fun; eassumption). subst b0.
    destruct (verify_v3_complete E S file before pairs cd rec sections HE HS A P 0%nat b minSdk maxSdk (setScheme res schemeIdV3) is lin) as (cds' & res2 & V2 & E2); try assumption; [|eauto].
    split; [assumption|]. auto.
  Qed.
  Lemma total_2 is : ~ v31_in maxSdk es -> ~ v3_in maxSdk es -> v2_verified E maxSdk es sections is -> exists cds res', pv 0%nat blocks res = Ret (cds, res').
  Proof.
    intros N N3 Ve. pose proof Ve as (M & Ne & b0 & L0 & B & Dm).
    assert (V : v2_in maxSdk es) by (split; [assumption | apply last_entry_in; eauto]).
    rewrite run_unfold by lia. destruct (pick_2 N N3 V) as (b & Pk & L). rewrite Pk. pose proof (fresh_core _ Rc) as (Fc & Fl & Fe).
    assert (b0 = b) by (eapply last_entry_fun; eassumption). subst b0.
    destruct (verify_v2_complete E S file before pairs cd rec sections HE HS A P 0%nat b minSdk maxSdk (setScheme res schemeIdV2) is) as (cds' & w & V2 & _); try assumption; [|eauto].
    split; [assumption|]. split; [|assumption]. eapply v2_block_ids; [|exact B]. cbn [v_extraBlocks setScheme]. rewrite Rx. intros M' id I. apply present_direct; assumption.
  Qed.

  (** fallback *)
  Hypothesis Nb : NoDup (map fst blocks).
  Notation fb c r := (fallback E S file s blocks minSdk maxSdk c r).

  Lemma fallback_ok cds r : errors (v_core r) = [] -> fb cds r = Ret (cds, r).
  Proof. intro H. unfold fallback, containsErrors. now rewrite H. Qed.

  Lemma fallback_cond cds r cds2 r2 : fb cds r = Ret (cds2, r2) -> (cds2 = cds /\ r2 = r) \/
    (errors (v_core r) <> [] /\ 3 <= v_schemeId r /\ minSdk < 28 /\ v2_in maxSdk es /\
     let extra := match zget blockIdSchemeV3 blocks with
                   | Some b => zset blockIdSchemeV3 b (v_extraBlocks r)
                   | None => zdel blockIdSchemeV3 (v_extraBlocks r)
                   end in
     pv 1%nat (zdel blockIdSchemeV3 blocks)
       (mkRes (mkCore (certs (v_core r)) (signingLineage (v_core r)) (warnings (v_core r) ++ map WSchemeV3 (errors (v_core r))) [])
              (v_schemeId r) (v_extraResult3 r) (v_frosting r) (v_sourceStamp r) extra) = Ret (cds2, r2)).
  Proof.
    unfold fallback, containsErrors, V9_0_Pie, schemeIdV3. destruct (errors (v_core r)) as [|e er] eqn:Er; [intro H; inversion H; auto|].
    destruct (Z.leb_spec 3 (v_schemeId r)); [|intro H'; inversion H'; auto].
    destruct (Z.ltb_spec minSdk 28); [|intro H'; inversion H'; auto].
    destruct (zget blockIdSchemeV2 blocks) as [b|] eqn:Z2; cbn [andb]; [|intro H'; inversion H'; auto].
    intro H'. right. split; [discriminate|]. split; [assumption|]. split; [assumption|]. split; [apply block_v2; eauto|]. exact H'.
  Qed.

  Lemma whole cds res' cds2 res2 : pv 0%nat blocks res = Ret (cds, res') -> fb cds res' = Ret (cds2, res2) -> errors (v_core res2) = [] ->
    (res2 = res' /\ cds2 = cds) \/
    (v_schemeId res2 = 2 /\ ~ v31_in maxSdk es /\ v3_in maxSdk es /\ minSdk < 28 /\ errors (v_core res') <> [] /\
     exists is w, v2_verified E maxSdk es sections is /\ certs (v_core res2) = certs (v_core res') ++ map si_chain is /\ recorded_digests is cds2 /\
       signingLineage (v_core res2) = signingLineage (v_core res') /\
       warnings (v_core res2) = (warnings (v_core res') ++ map WSchemeV3 (errors (v_core res'))) ++ w).
  Proof.
    intros H F Er. apply fallback_cond in F as [[-> ->]|(Ne & Id & Mi & V2 & F)]; [left; auto|]. right. cbn zeta in F.
    assert (M24 : 24 <= maxSdk) by apply V2.
    assert (D : v31_in maxSdk es \/ ~ v31_in maxSdk es).
    { unfold v31_in. destruct (Z_le_gt_dec 33 maxSdk); [|right; lia]. destruct (in_dec Z.eq_dec id_v31 (map fst es)); [left; auto | right; tauto]. }
    destruct D as [V31|N31].
    - exfalso. apply Ne. destruct (pick_31 V31) as (b & Pk & L & Zb). pose proof V31 as [M33 _].
      rewrite run_unfold in H by lia. rewrite Pk in H. rewrite run_unfold in F by lia.
      assert (Pk2 : pickScheme (zdel blockIdSchemeV3 blocks) = (schemeIdV31, Some b)).
      { unfold pickScheme. rewrite zget_zdel by assumption. change (blockIdSchemeV31 =? blockIdSchemeV3) with false. cbv iota. now rewrite Zb. }
      rewrite Pk2 in F. pose proof (fresh_core _ Rc) as (Fc & Fl & Fe).
      pose proof (verifyScheme_frame _ _ _ _ _ _ _ _ _ _ _ _ H) as (_ & _ & _ & Fx). cbn in Fx.
      refine (verify_v31_again E S file before pairs cd rec sections HE HS A P _ _ b minSdk maxSdk (setScheme res _) cds res' _ _ _ Fc Fl Fe H _ _ _ F Er); cbn; [reflexivity | reflexivity|].
      rewrite Fx. destruct (zget blockIdSchemeV3 blocks) as [b3|] eqn:Z3.
      + rewrite zget_zset. change (blockIdSchemeV3 =? blockIdSchemeV3) with true. cbv iota. symmetry. rewrite Rx. apply extra_v3; [assumption|]. apply Bl in Z3. apply Z3.
      + assert (Nx : zget blockIdSchemeV3 xb = None).
        { destruct (zget blockIdSchemeV3 xb) as [p|] eqn:Q; [|reflexivity]. exfalso. apply extra_v3 in Q; [|assumption].
          assert (zget blockIdSchemeV3 blocks = Some p); [|congruence]. apply Bl. split; [|exact Q]. unfold used_at, id_v3. change blockIdSchemeV3 with id_v3. unfold id_v3. lia. }
        rewrite Rx. rewrite Nx. clear - Nx. revert Nx. induction xb as [|[a v] m IH]; [reflexivity|]. cbn [zdel mdel zget mget].
        destruct (Z.eqb_spec blockIdSchemeV3 a) as [->|Q]; [discriminate|]. cbn [mget]. intro X. destruct (Z.eqb_spec blockIdSchemeV3 a); [congruence | auto].
    - assert (V3 : v3_in maxSdk es).
      { destruct (Z_le_gt_dec 28 maxSdk); [destruct (in_dec Z.eq_dec id_v3 (map fst es)); [split; auto|]|].
        - exfalso. assert (N3 : ~ v3_in maxSdk es) by (unfold v3_in; tauto). apply first_2 in H as (X & _); [|assumption|assumption|assumption]. lia.
        - exfalso. assert (N3 : ~ v3_in maxSdk es) by (unfold v3_in; lia). apply first_2 in H as (X & _); [|assumption|assumption|assumption]. lia. }
      destruct (pick_3 N31 V3) as (b3 & Pk & L3 & Z3).
      assert (exists b, zget blockIdSchemeV2 blocks = Some b /\ last_entry es id_v2 b) as (b & Z2 & L2).
      { apply block_v2 in V2 as [b Z2]. exists b. split; [assumption|]. now apply Bl in Z2. }
      assert (Pk2 : pickScheme (zdel blockIdSchemeV3 blocks) = (schemeIdV2, Some b)).
      { unfold pickScheme. rewrite !zget_zdel by assumption. change (blockIdSchemeV31 =? blockIdSchemeV3) with false.
        change (blockIdSchemeV3 =? blockIdSchemeV3) with true. change (blockIdSchemeV2 =? blockIdSchemeV3) with false. cbv iota.
        rewrite Z2. destruct (zget blockIdSchemeV31 blocks) eqn:Q; [|reflexivity]. exfalso. apply N31. apply block_v31. eauto. }
      rewrite run_unfold in F by assumption. rewrite Pk2, Z3 in F.
      rewrite run_unfold in H by assumption. rewrite Pk in H. pose proof (verifyScheme_frame _ _ _ _ _ _ _ _ _ _ _ _ H) as (_ & _ & _ & Fx). cbn in Fx.
      split; [apply verifyScheme_frame in F as (F & _); exact F|]. split; [assumption|]. split; [assumption|]. split; [assumption|]. split; [assumption|].
      destruct (verify_v2_sound E S file before pairs cd rec sections HE HS A P _ _ _ _ _ _ _ F Er) as (_ & is & (Ni & B & Dm) & Le & R & w & ->).
      exists is, w. split; [|cbn; auto].
      split; [assumption|]. split; [assumption|]. exists b. split; [assumption|]. split; [|assumption].
      eapply v2_block_ids; [|exact B]. intros M' id I. symmetry. cbn. rewrite Fx, Rx. apply present_fallback; assumption.
  Qed.
End Run.

Lemma getLastError_none c : getLastError c = None <-> errors c = [].
Proof. unfold getLastError. destruct (errors c); split; congruence. Qed.

Lemma applyFrosting_frame E file st s r : applyFrosting E file st s = Ret r ->
  v_core r = v_core (en_res st) /\ v_extraBlocks r = v_extraBlocks (en_res st) /\ v_extraResult3 r = v_extraResult3 (en_res st).
Proof.
  unfold applyFrosting. destruct (en_frosting st); [|intro H; inversion H; subst; auto]. destruct (v_frosting (en_res st)) as [fr|]; [|intro H; inversion H; subst; auto].
  destruct s; [|intro H; inversion H; subst; auto].
  destruct (fr_error fr); [intro H'; inversion H'; subst; auto|]. intro H'. apply obind_ret in H' as (e & _ & H'). inversion H'; subst. auto.
Qed.

(** The verdict, and everything reported with it. *)
Inductive verdict (E : env) (minSdk maxSdk : Z) (es : list (Z * bytes)) (sections : list bytes) (scheme : Z) (cs : list (list cert)) (lin : option (list lnode)) : Prop :=
| vd_old : maxSdk < 24 -> scheme = 1 -> cs = [] -> lin = None -> verdict E minSdk maxSdk es sections scheme cs lin
| vd_v31 is31 is3 : scheme = 31 -> v31_verified E minSdk maxSdk es sections is31 lin is3 -> cs = map chain3 is31 ->
    verdict E minSdk maxSdk es sections scheme cs lin
| vd_v3 is : scheme = 3 -> ~ v31_in maxSdk es -> v3_verified E minSdk maxSdk es sections is lin -> cs = map chain3 is ->
    verdict E minSdk maxSdk es sections scheme cs lin
| vd_v2 is : scheme = 2 -> ~ v31_in maxSdk es -> ~ v3_in maxSdk es -> v2_verified E maxSdk es sections is -> cs = map si_chain is -> lin = None ->
    verdict E minSdk maxSdk es sections scheme cs lin
| vd_fallback is c0 : scheme = 2 -> ~ v31_in maxSdk es -> v3_in maxSdk es -> minSdk < 28 -> (~ exists is lin, v3_verified E minSdk maxSdk es sections is lin) ->
    v2_verified E maxSdk es sections is -> cs = c0 ++ map si_chain is -> verdict E minSdk maxSdk es sections scheme cs lin.

Lemma in_cases maxSdk es : (v31_in maxSdk es \/ ~ v31_in maxSdk es) /\ (v3_in maxSdk es \/ ~ v3_in maxSdk es) /\ (v2_in maxSdk es \/ ~ v2_in maxSdk es).
Proof.
  unfold v31_in, v3_in, v2_in. repeat split.
  - destruct (Z_le_gt_dec 33 maxSdk), (in_dec Z.eq_dec id_v31 (map fst es)); (left; tauto) || (right; intros [? ?]; (lia || tauto)).
  - destruct (Z_le_gt_dec 28 maxSdk), (in_dec Z.eq_dec id_v3 (map fst es)); (left; tauto) || (right; intros [? ?]; (lia || tauto)).
  - destruct (Z_le_gt_dec 24 maxSdk), (in_dec Z.eq_dec id_v2 (map fst es)); (left; tauto) || (right; intros [? ?]; (lia || tauto)).
Qed.

Lemma protected_exists file before pairs cd rec : apk file before pairs cd rec -> exists sections, protected before cd rec sections.
Proof.
  intro A. pose proof (apk_bounds _ _ _ _ _ A) as (B1 & B2 & [B3 B4] & B5). destruct (patched_exists rec (zlen before)) as (rec' & Pa & _); [lia|].
  exists [before; cd; rec'], rec'. auto.
Qed.

Lemma v2_block_chains E maxSdk Q block a b : v2_block E maxSdk Q block a -> v2_block E maxSdk Q block b -> map si_chain a = map si_chain b.
Proof.
  set (xb := [(id_v2, []); (id_v3, []); (id_v31, [])] : list (Z * bytes)).
  assert (W : forall is, v2_block E maxSdk Q block is -> v2_block E maxSdk (has xb) block is).
  { intros is (signers & junk & E1 & F1 & F2 & F & C). exists signers, junk. split; [assumption|]. split; [assumption|]. split; [assumption|].
    split; [|assumption]. clear - F. induction F as [|s0 i ss is V F IH]; constructor; [|assumption].
    destruct V as (sd & sigs & pk & j & digs & cs & attrs & j' & al & A1 & A2 & A3 & A4 & A5 & A6 & A7 & A8 & A9 & A10 & A11).
    exists sd, sigs, pk, j, digs, cs, attrs, j', al. repeat (split; [assumption|]).
    eapply Forall_impl; [|exact A11]. intros x Hx X Y. destruct (Hx X Y) as (sc & rest & id & B1 & B2 & B3 & B4). exists sc, rest, id. repeat (split; [assumption|]).
    exists []. unfold scheme_block_id in B3.
    destruct sc as [|q|q]; try discriminate. repeat (destruct q as [q|q|]; try discriminate B3); inversion B3; subst; reflexivity. }
  intros Ha Hb. apply W in Ha, Hb.
  assert (C : forall is, v2_block E maxSdk (has xb) block is -> exists m r', v2ParseSigners E maxSdk xb block [] core0 = Ret (m, r') /\ certs r' = map si_chain is).
  { intros is B. pose proof (v2_infos_kinds _ _ _ _ _ B) as K. destruct B as (signers & junk & -> & F1 & F2 & F & Co & Le).
    destruct (collects_total is [] [] (c_nil _)) as (m & C); [assumption | assumption|].
    destruct (v2ParseSigners_complete E maxSdk xb signers junk is [] m core0 F1 F2 F C) as (r' & Pa & w & X). { unfold zlen at 1. cbn. lia. }
    exists m, r'. split; [assumption|]. rewrite X. reflexivity. }
  destruct (C a Ha) as (m1 & r1 & H1 & <-), (C b Hb) as (m2 & r2 & H2 & <-). congruence.
Qed.

Section Top.
  Variables (E : env) (S : sched).
  Hypothesis HE : hash_sizes_ok E.
  Hypothesis HS : sched_ok S.

  Theorem verifySigningBlock_sound file minSdk maxSdk z vr :
    verifySigningBlock E S file minSdk maxSdk z = Ret vr -> vr_err vr = None ->
    exists es sections res, apk_with file es sections /\ vr_res vr = Some res /\
      verdict E minSdk maxSdk es sections (v_schemeId res) (certs (v_core res)) (lin_nodes (signingLineage (v_core res))).
  Proof.
    unfold verifySigningBlock. destruct (newSigningBlock file) as [magic|]; [|intro H; inversion H; subst; discriminate].
    intro H. apply obind_ret in H as (fr & Fi & H). destruct fr as [st s|st s]; [apply obind_ret in H as (? & _ & H); inversion H; subst; discriminate|].
    apply findSignatureBlocks_ok in Fi as (before & pairs & cd & rec & es & A & -> & En & [Ib Ie [Nb Ne] Ic Ir] & _).
    destruct (protected_exists _ _ _ _ _ A) as (sections & P).
    apply obind_ret in H as (res & Fr & H). apply applyFrosting_frame in Fr as (Fc & Fx & _).
    apply obind_ret in H as ([cds res1] & Pv & H). apply obind_ret in H as ([cds2 res2] & Fb & H). apply obind_ret in H as (stamp & _ & H).
    inversion H; subst. clear H. cbn [vr_err vr_res]. intro Er. apply getLastError_none in Er. cbn [v_core] in Er.
    exists es, sections. eexists. split; [exists before, pairs, cd, rec; auto|]. split; [reflexivity|]. cbn [v_schemeId v_core].
    assert (Rc : quiet core0 (v_core res)) by (now rewrite Fc).
    destruct (whole E S file before pairs cd rec sections es minSdk maxSdk HE HS A P (en_blocks st) Ib _ Ie res Rc Fx Nb _ _ _ _ Pv Fb Er)
      as [[-> ->]|(Id & N31 & V3 & Mi & Er1 & is & w & Vd & Hc & _)].
    - destruct (Z_lt_le_dec maxSdk 24) as [M|M].
      { rewrite run_old in Pv by assumption. inversion Pv; subst. pose proof (fresh_core _ Rc) as (C1 & C2 & _). cbn. rewrite C1, C2. now apply vd_old. }
      destruct (in_cases maxSdk es) as ([I31|I31] & [I3|I3] & [I2|I2]).
      1-4: apply (first_31 E S file before pairs cd rec sections es minSdk maxSdk HE HS A P (en_blocks st) Ib _ Ie res Rc Fx) in Pv as (Id & Sd & _);
           [|assumption]; destruct (Sd Er) as (is31 & is3 & V & Hc & _); eapply vd_v31; eassumption.
      1-2: apply (first_3 E S file before pairs cd rec sections es minSdk maxSdk HE HS A P (en_blocks st) Ib _ Ie res Rc Fx) in Pv as (Id & Sd & _);
           [|assumption|assumption]; destruct (Sd Er) as (is & V & Hc & _); eapply vd_v3; eassumption.
      + apply (first_2 E S file before pairs cd rec sections es minSdk maxSdk HE HS A P (en_blocks st) Ib _ Ie res Rc Fx) in Pv as (Id & Sd & _);
           [|assumption|assumption|assumption]. destruct (Sd Er) as (is & V & Hc & Hl & _). rewrite Hl. eapply vd_v2; try eassumption. reflexivity.
      + apply (first_1 E S file before pairs cd rec es minSdk maxSdk (en_blocks st) Ib _ Ie res Rc Fx) in Pv as (_ & X); try assumption. congruence.
    - eapply vd_fallback; try eassumption. intros (is' & lin' & V).
      apply (first_3 E S file before pairs cd rec sections es minSdk maxSdk HE HS A P (en_blocks st) Ib _ Ie res Rc Fx) in Pv as (_ & _ & Cm); [|assumption|assumption].
      apply Er1. eapply Cm; eassumption.
  Qed.

  (** what happens on an APK with given entries *)
  Lemma verify_unfold file es sections minSdk maxSdk z vr : apk_with file es sections ->
    verifySigningBlock E S file minSdk maxSdk z = Ret vr ->
    exists before pairs cd rec st res cds res1 cds2 res2 stamp,
      apk file before pairs cd rec /\ protected before cd rec sections /\ entries_inv maxSdk es st /\
      quiet core0 (v_core res) /\ v_extraBlocks res = v_extraBlocks (en_res st) /\
      pickAndVerify E S 0 file (sblock_of before pairs cd rec) (en_blocks st) minSdk maxSdk res = Ret (cds, res1) /\
      fallback E S file (sblock_of before pairs cd rec) (en_blocks st) minSdk maxSdk cds res1 = Ret (cds2, res2) /\
      vr_res vr = Some (mkRes (v_core res2) (v_schemeId res2) (v_extraResult3 res2) (v_frosting res2) stamp (v_extraBlocks res2)) /\
      verifySourceV2Stamp E S (v_schemeId res2) minSdk maxSdk z (zget blockIdSourceStampV2 (en_blocks st)) cds2 = Ret stamp /\
      vr_err vr = getLastError (v_core res2).
  Proof.
    intros (before & pairs & cd & rec & A & En & P). unfold verifySigningBlock. destruct (newSigningBlock file) as [magic|] eqn:Nm.
    2:{ exfalso. unfold newSigningBlock in Nm. pose proof (apk_bounds _ _ _ _ _ A) as (B1 & B2 & [B3 B4] & B5). destruct A as (Ef & _).
        unfold read_at in Nm. assert (4 <= zlen file) by (rewrite Ef, !zlen_app; pose proof (zlen_nonneg before); pose proof (zlen_nonneg (signing_block pairs)); pose proof (zlen_nonneg cd); lia).
        cbn in Nm. destruct (Z.ltb_spec (zlen file) 4); [lia | discriminate]. }
    rewrite (findSignatureBlocks_apk E file maxSdk _ _ _ _ A). intro H. apply obind_ret in H as (fr & Fi & H).
    apply obind_ret in Fi as ([st ok] & Lo & Fi). destruct (entries_spec E maxSdk pairs st ok Lo) as [Ok In].
    destruct (In es En) as [_ I]. assert (ok = true) as -> by (apply Ok; eauto). inversion Fi; subst fr. clear Fi.
    apply obind_ret in H as (res & Fr & H). apply applyFrosting_frame in Fr as (Fc & Fx & _).
    apply obind_ret in H as ([cds res1] & Pv & H). apply obind_ret in H as ([cds2 res2] & Fb & H). apply obind_ret in H as (stamp & St & H).
    inversion H; subst. clear H. exists before, pairs, cd, rec, st, res, cds, res1, cds2, res2, stamp. cbn [vr_res vr_err].
    repeat (split; [first [assumption | reflexivity | (rewrite Fc; apply I)]|]). reflexivity.
  Qed.

  Ltac open_run H Ap :=
    destruct (verify_unfold _ _ _ _ _ _ _ Ap H) as (before & pairs & cd & rec & st & res & cds & res1 & cds2 & res2 & stamp & A & P & [Ib Ie [Nb Ne] Ic Ir] & Rc & Fx & Pv & Fb & Rs & St & Ve).

  Theorem complete_31 file es sections minSdk maxSdk z vr is31 lin is3 : apk_with file es sections ->
    v31_verified E minSdk maxSdk es sections is31 lin is3 ->
    verifySigningBlock E S file minSdk maxSdk z = Ret vr ->
    vr_err vr = None /\ exists res, vr_res vr = Some res /\ v_schemeId res = 31 /\ certs (v_core res) = map chain3 is31.
  Proof.
    intros Ap V H. open_run H Ap. pose proof V as (M & Ne31 & Ne3 & b & b3 & rot & lin3 & L & L3 & B & _).
    assert (I : v31_in maxSdk es) by (split; [assumption | apply last_entry_in; eauto]).
    apply (first_31 E S file before pairs cd rec sections es minSdk maxSdk HE HS A P (en_blocks st) Ib _ Ie res Rc Fx) in Pv as (Id & Sd & Cm); [|assumption].
    pose proof (Cm _ _ _ V) as Er. rewrite fallback_ok in Fb by assumption. inversion Fb; subst res2 cds2. clear Fb.
    split; [rewrite Ve; now apply getLastError_none|]. eexists. split; [exact Rs|]. cbn. split; [assumption|].
    destruct (Sd Er) as (is' & is3' & V' & Hc & _). rewrite Hc. destruct V' as (_ & _ & _ & b' & b3' & rot' & lin3' & L' & L3' & B' & _).
    assert (b' = b) by (eapply last_entry_fun; eassumption). subst b'. destruct (v3_block_det E maxSdk 0 b is' is31) as [_ X]; try assumption. unfold is_int32; lia.
  Qed.

  Theorem complete_3 file es sections minSdk maxSdk z vr is lin : apk_with file es sections ->
    v3_verified E minSdk maxSdk es sections is lin -> ~ v31_in maxSdk es ->
    verifySigningBlock E S file minSdk maxSdk z = Ret vr ->
    vr_err vr = None /\ exists res, vr_res vr = Some res /\ v_schemeId res = 3 /\ certs (v_core res) = map chain3 is.
  Proof.
    intros Ap V N H. open_run H Ap. pose proof V as (M & Nei & b & L & B & _).
    assert (I : v3_in maxSdk es) by (split; [assumption | apply last_entry_in; eauto]).
    apply (first_3 E S file before pairs cd rec sections es minSdk maxSdk HE HS A P (en_blocks st) Ib _ Ie res Rc Fx) in Pv as (Id & Sd & Cm); [|assumption|assumption].
    pose proof (Cm _ _ V) as Er. rewrite fallback_ok in Fb by assumption. inversion Fb; subst res2 cds2. clear Fb.
    split; [rewrite Ve; now apply getLastError_none|]. eexists. split; [exact Rs|]. cbn. split; [assumption|].
    destruct (Sd Er) as (is' & V' & Hc & _). rewrite Hc. destruct V' as (_ & _ & b' & L' & B' & _).
    assert (b' = b) by (eapply last_entry_fun; eassumption). subst b'. destruct (v3_block_det E maxSdk 0 b is' is) as [_ X]; try assumption. unfold is_int32; lia.
  Qed.

  Theorem complete_2 file es sections minSdk maxSdk z vr is : apk_with file es sections ->
    v2_verified E maxSdk es sections is -> ~ v31_in maxSdk es -> ~ v3_in maxSdk es ->
    verifySigningBlock E S file minSdk maxSdk z = Ret vr ->
    vr_err vr = None /\ exists res, vr_res vr = Some res /\ v_schemeId res = 2 /\ certs (v_core res) = map si_chain is.
  Proof.
    intros Ap V N N3 H. open_run H Ap. pose proof V as (M & Nei & b & L & B & _).
    assert (I : v2_in maxSdk es) by (split; [assumption | apply last_entry_in; eauto]).
    apply (first_2 E S file before pairs cd rec sections es minSdk maxSdk HE HS A P (en_blocks st) Ib _ Ie res Rc Fx) in Pv as (Id & Sd & Cm); [|assumption|assumption|assumption].
    pose proof (Cm _ V) as Er. rewrite fallback_ok in Fb by assumption. inversion Fb; subst res2 cds2. clear Fb.
    split; [rewrite Ve; now apply getLastError_none|]. eexists. split; [exact Rs|]. cbn. split; [assumption|].
    destruct (Sd Er) as (is' & V' & Hc & _). rewrite Hc. destruct V' as (_ & _ & b' & L' & B' & _).
    assert (b' = b) by (eapply last_entry_fun; eassumption). subst b'. eapply v2_block_chains; eassumption.
  Qed.
End Top.
