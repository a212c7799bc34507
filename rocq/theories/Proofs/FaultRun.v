(** The verification of the signing block with and without I/O errors, side by side. *)
From Coq Require Import String.
From Coq Require Import Lia Permutation.
From Verif.Model Require Import Bytes ApiLevel Env Utils SigBlock Result Signer SchemeV2 SchemeV3 DataSource Digest Frosting SourceStamp Verify Reader.
From Verif.Spec Require Import Encoding Algorithms Nondet Signer SignerV3 Ranges ApkLayout Digests Entries Verified Faults.
From Verif.Proofs Require Import BytesFacts UtilsFacts SigBlockFacts SignerFacts SchemeV2Facts CollectFacts V2BlockFacts LineageFacts SchemeV3Facts V3BlockFacts RangeFacts CoveringFacts IntegrityFacts EntriesFacts VerifyFacts ApkFacts ReaderFacts FaultFacts.

Section Run.
  Variables (E : env) (S : sched) (file before pairs cd rec : bytes) (sections : list bytes) (es : list (Z * bytes)) (minSdk maxSdk : Z).
  Hypothesis HE : hash_sizes_ok E.
  Hypothesis HS : sched_ok S.
  Hypothesis A : apk file before pairs cd rec.
  Hypothesis P : protected before cd rec sections.
  Notation s := (sblock_of before pairs cd rec).
  Variable blocks : list (Z * bytes).
  Hypothesis Bl : forall id p, zget id blocks = Some p <-> used_at maxSdk id /\ last_entry es id p.
  Variable xb : list (Z * bytes).
  Hypothesis Xb : forall id p, zget id xb = Some p <-> extra_at maxSdk id /\ last_entry es id p.
  Hypothesis Nb : NoDup (map fst blocks).
  Variable R : reader.
  Hypothesis U : unreliable file R.
  Notation pvR k b r := (pickAndVerifyR E S R k s b minSdk maxSdk r).
  Notation fbR c r := (fallbackR E S R s blocks minSdk maxSdk c r).
  Notation pv k b r := (pickAndVerify E S k file s b minSdk maxSdk r).
  Notation fb c r := (fallback E S file s blocks minSdk maxSdk c r).

  Lemma runR_unfold k bl r : 24 <= maxSdk -> pvR k bl r =
    (let '(id, block) := pickScheme bl in
     match block with
     | None => Ret ([], withCore (setScheme r id) (mkCore (certs (v_core r)) (signingLineage (v_core r)) (warnings (v_core r)) (errors (v_core r) ++ [noBlockError])))
     | Some b => verifySchemeR E S R k s id b minSdk maxSdk (setScheme r id)
     end).
  Proof.
    intro H. unfold pickAndVerifyR, SupportsSigV2, V7_0_Nougat. destruct (Z.leb_spec 24 maxSdk); [|lia]. cbn [negb].
    destruct (pickScheme bl) as [id [b|]]; reflexivity.
  Qed.
  Definition again (r : vresult) : vresult :=
    mkRes (mkCore (certs (v_core r)) (signingLineage (v_core r)) (warnings (v_core r) ++ map WSchemeV3 (errors (v_core r))) [])
          (v_schemeId r) (v_extraResult3 r) (v_frosting r) (v_sourceStamp r)
          (match zget blockIdSchemeV3 blocks with Some b => zset blockIdSchemeV3 b (v_extraBlocks r) | None => zdel blockIdSchemeV3 (v_extraBlocks r) end).
  Lemma fallbackR_cond cds r cds2 r2 : fbR cds r = Ret (cds2, r2) -> (cds2 = cds /\ r2 = r) \/
    (errors (v_core r) <> [] /\ 3 <= v_schemeId r /\ minSdk < 28 /\ v2_in maxSdk es /\ pvR 1%nat (zdel blockIdSchemeV3 blocks) (again r) = Ret (cds2, r2)).
  Proof.
    unfold fallbackR, containsErrors, V9_0_Pie, schemeIdV3. destruct (errors (v_core r)) as [|e er] eqn:Er; [intro H; inversion H; auto|].
    destruct (Z.leb_spec 3 (v_schemeId r)); [|intro H'; inversion H'; auto].
    destruct (Z.ltb_spec minSdk 28); [|intro H'; inversion H'; auto].
    destruct (zget blockIdSchemeV2 blocks) as [b|] eqn:Z2; cbn [andb]; [|intro H'; inversion H'; auto].
    intro H'. right. split; [discriminate|]. split; [assumption|]. split; [assumption|]. split; [apply (block_v2 es maxSdk blocks Bl); eauto|].
    unfold again. rewrite Er. exact H'.
  Qed.
  Lemma fallback_taken cds r : errors (v_core r) <> [] -> 3 <= v_schemeId r -> minSdk < 28 -> v2_in maxSdk es ->
    fb cds r = pv 1%nat (zdel blockIdSchemeV3 blocks) (again r).
  Proof.
    intros Ne Id M V. unfold fallback, containsErrors, V9_0_Pie, schemeIdV3. apply (block_v2 es maxSdk blocks Bl) in V as [b Zb].
    destruct (errors (v_core r)) as [|e er] eqn:Er; [contradiction|].
    destruct (Z.leb_spec 3 (v_schemeId r)); [|lia]. destruct (Z.ltb_spec minSdk 28); [|lia]. rewrite Zb. cbn [andb]. unfold again. rewrite Er. reflexivity.
  Qed.

  Lemma pick_again_31 b : zget blockIdSchemeV31 blocks = Some b -> pickScheme (zdel blockIdSchemeV3 blocks) = (schemeIdV31, Some b).
  Proof. intro Z. unfold pickScheme. rewrite zget_zdel by assumption. change (blockIdSchemeV31 =? blockIdSchemeV3) with false. cbv iota. now rewrite Z. Qed.
  Lemma pick_again_2 b : ~ v31_in maxSdk es -> zget blockIdSchemeV2 blocks = Some b -> pickScheme (zdel blockIdSchemeV3 blocks) = (schemeIdV2, Some b).
  Proof.
    intros N Z. unfold pickScheme. rewrite !zget_zdel by assumption. change (blockIdSchemeV31 =? blockIdSchemeV3) with false.
    change (blockIdSchemeV3 =? blockIdSchemeV3) with true. change (blockIdSchemeV2 =? blockIdSchemeV3) with false. cbv iota.
    rewrite Z. destruct (zget blockIdSchemeV31 blocks) eqn:Q; [|reflexivity]. exfalso. apply N. apply (block_v31 es maxSdk blocks Bl). eauto.
  Qed.
  Lemma again_extra r : v_extraBlocks r = xb -> 33 <= maxSdk -> zget blockIdSchemeV3 (v_extraBlocks (again r)) = zget blockIdSchemeV3 xb.
  Proof.
    intros Fx M. cbn [again v_extraBlocks]. rewrite Fx. destruct (zget blockIdSchemeV3 blocks) as [b3|] eqn:Z3.
    + rewrite zget_zset. change (blockIdSchemeV3 =? blockIdSchemeV3) with true. cbv iota. symmetry. apply (extra_v3 es maxSdk xb Xb); [assumption|]. apply Bl in Z3. apply Z3.
    + assert (Nx : zget blockIdSchemeV3 xb = None).
      { destruct (zget blockIdSchemeV3 xb) as [p|] eqn:Q; [|reflexivity]. exfalso. apply (extra_v3 es maxSdk xb Xb) in Q; [|assumption].
        assert (zget blockIdSchemeV3 blocks = Some p); [|congruence]. apply Bl. split; [|exact Q]. unfold used_at, id_v3. change blockIdSchemeV3 with id_v3. unfold id_v3. lia. }
      rewrite Nx. clear - Nx. revert Nx. induction xb as [|[a v] m IH]; [reflexivity|]. cbn [zdel mdel zget mget].
      destruct (Z.eqb_spec blockIdSchemeV3 a) as [->|Q]; [discriminate|]. cbn [mget]. intro X. destruct (Z.eqb_spec blockIdSchemeV3 a); [congruence | auto].
  Qed.

  (** [res]: the result in the run with faults, [resv]: in the run without; they may differ in the frosting. *)
  Variables res resv : vresult.
  Hypothesis Rc : quiet core0 (v_core res).
  Hypothesis Rv : v_core resv = v_core res.
  Hypothesis Rx : v_extraBlocks res = xb.
  Hypothesis Rxv : v_extraBlocks resv = xb.

  Definition same_or_downgraded (a b : Z) : Prop := a = b \/ (a = 2 /\ b = 3).

  Lemma accept_31 cds res1 cds2 res2 : v31_in maxSdk es -> pvR 0%nat blocks res = Ret (cds, res1) -> fbR cds res1 = Ret (cds2, res2) -> errors (v_core res2) = [] ->
    v_schemeId res2 = 31 /\ exists is31 lin is3, v31_verified E minSdk maxSdk es sections is31 lin is3 /\
      (certs (v_core res2) = map chain3 is31 \/ certs (v_core res2) = map chain3 is31 ++ map chain3 is31).
  Proof.
    intros V H F Er. pose proof V as [M33 _]. pose proof (fresh_core _ Rc) as (Fc & Fl & Fe).
    destruct (pick_31 es maxSdk blocks Bl V) as (b & Pk & L & Zb).
    rewrite runR_unfold in H by lia. rewrite Pk in H.
    apply fallbackR_cond in F as [[-> ->]|(Ne & Id & Mi & V2 & F)].
    - destruct (schemeR_cases E S file R U 0%nat s schemeIdV31 b minSdk maxSdk (setScheme res schemeIdV31)) as [Q|(st & cds0 & r1 & X & Q)].
      2:{ rewrite Q in H. inversion H; subst. cbn in Er. apply app_eq_nil in Er as [_ Er]. discriminate. }
      rewrite Q in H.
      destruct (first_31 E S file before pairs cd rec sections es minSdk maxSdk HE HS A P blocks Bl xb Xb res Rc Rx cds res1 V) as (Id & Sd & _).
      { rewrite run_unfold by lia. rewrite Pk. exact H. }
      destruct (Sd Er) as (is31 & is3 & Ve & Cs & _). split; [assumption|]. eauto 8.
    - rewrite runR_unfold in F by lia. rewrite (pick_again_31 b Zb) in F.
      destruct (schemeR_cases E S file R U 1%nat s schemeIdV31 b minSdk maxSdk (setScheme (again res1) schemeIdV31)) as [Q|(st & cds0 & r1 & X & Q)].
      2:{ rewrite Q in F. inversion F; subst. cbn in Er. apply app_eq_nil in Er as [_ Er]. discriminate. }
      rewrite Q in F. split; [apply verifyScheme_frame in F as (F & _); exact F|].
      destruct (schemeR_cases E S file R U 0%nat s schemeIdV31 b minSdk maxSdk (setScheme res schemeIdV31)) as [Q0|(st & cds0 & r1 & X & Q0)]; rewrite Q0 in H.
      + exfalso. apply Ne. pose proof (verifyScheme_frame _ _ _ _ _ _ _ _ _ _ _ _ H) as (_ & _ & _ & Fx). cbn in Fx.
        refine (verify_v31_again E S file before pairs cd rec sections HE HS A P _ _ b minSdk maxSdk (setScheme res _) cds res1 _ _ _ Fc Fl Fe H _ _ _ F Er); cbn [again setScheme v_core certs signingLineage]; [reflexivity | reflexivity|].
        change (v_extraBlocks (setScheme (again res1) schemeIdV31)) with (v_extraBlocks (again res1)). rewrite again_extra by congruence. cbn [setScheme v_extraBlocks]. now rewrite Rx.
      + destruct (verify_v31_gen E S file before pairs cd rec sections HE HS A P _ _ _ _ _ _ _ F Er) as (block3 & is31 & Zg & B & Hc & Hn & T).
        destruct (extract_v31_trace _ _ _ _ _ _ _ _ X B) as [Tc Tl]. cbn [setScheme v_core] in Tc, Tl. rewrite Fc in Tc. rewrite Fl in Tl.
        destruct (extract_frame _ _ _ _ _ _ _ _ X) as [_ Tx]. cbn [setScheme v_extraBlocks] in Tx.
        assert (res1 = withCore r1 (addError (v_core r1) "Failed to compute digest(s) of contents")) as -> by (now inversion H).
        assert (Ne31 : is31 <> []). { intros ->. cbn in Hc, Tc. rewrite Hc, Tc in Hn. now apply Hn. }
        destruct (T Ne31) as (is3 & c2 & Re & Rd & E2 & Sl2 & c3 & Fi & E3 & Sl3). cbn in Sl2. rewrite Tl in Sl2.
        change (v_extraBlocks (setScheme (again (withCore r1 (addError (v_core r1) "Failed to compute digest(s) of contents"))) schemeIdV31))
          with (v_extraBlocks (again (withCore r1 (addError (v_core r1) "Failed to compute digest(s) of contents")))) in Zg.
        rewrite again_extra in Zg by (cbn [withCore v_extraBlocks]; congruence).
        apply (extra_v3 es maxSdk xb Xb) in Zg; [|assumption].
        exists is31, (lin_nodes (signingLineage c3)), is3. split; [|right; rewrite Hc; f_equal; exact Tc].
        apply (v31_ok_verified E sections es minSdk maxSdk b); [assumption | assumption|]. exists block3. split; [assumption|].
        split; [assumption|]. split; [assumption|]. split; [|assumption].
        apply (finalize_sound E S HS (mkV3Cfg true maxSdk 0) is31 b _ maxSdk _ _ B Ne31 rot0 Fi); congruence.
  Qed.

  (** v3, possibly with the fallback to v2 *)
  Lemma accept_3 cds res1 cds2 res2 : ~ v31_in maxSdk es -> v3_in maxSdk es -> pvR 0%nat blocks res = Ret (cds, res1) -> fbR cds res1 = Ret (cds2, res2) -> errors (v_core res2) = [] ->
    (v_schemeId res2 = 3 /\ exists is lin, v3_verified E minSdk maxSdk es sections is lin /\ certs (v_core res2) = map chain3 is) \/
    (v_schemeId res2 = 2 /\ minSdk < 28 /\ v2_in maxSdk es /\ exists b3 st0 cds0 r0 is, last_entry es id_v3 b3 /\ zget blockIdSchemeV3 blocks = Some b3 /\
       extractCertsScheme E schemeIdV3 maxSdk b3 (setScheme res schemeIdV3) = Ret (st0, cds0, r0) /\
       v2_verified E maxSdk es sections is /\ zlen (certs (v_core r0)) + zlen is <= 10 /\ certs (v_core res2) = certs (v_core r0) ++ map si_chain is).
  Proof.
    intros N V H F Er. pose proof V as [M28 _]. pose proof (fresh_core _ Rc) as (Fc & Fl & Fe).
    destruct (pick_3 es maxSdk blocks Bl N V) as (b3 & Pk & L3 & Z3).
    rewrite runR_unfold in H by lia. rewrite Pk in H.
    apply fallbackR_cond in F as [[-> ->]|(Ne & Id & Mi & V2 & F)].
    - left. destruct (schemeR_cases E S file R U 0%nat s schemeIdV3 b3 minSdk maxSdk (setScheme res schemeIdV3)) as [Q|(st & cds0 & r1 & X & Q)].
      2:{ rewrite Q in H. inversion H; subst. cbn in Er. apply app_eq_nil in Er as [_ Er]. discriminate. }
      rewrite Q in H.
      destruct (first_3 E S file before pairs cd rec sections es minSdk maxSdk HE HS A P blocks Bl xb Xb res Rc Rx cds res1 N V) as (Id & Sd & _).
      { rewrite run_unfold by lia. rewrite Pk. exact H. }
      destruct (Sd Er) as (is & Ve & Cs & _). split; [assumption|]. eauto.
    - right.
      assert (exists b, zget blockIdSchemeV2 blocks = Some b /\ last_entry es id_v2 b) as (b & Z2 & L2).
      { pose proof V2 as V2'. apply (block_v2 es maxSdk blocks Bl) in V2' as [b Z2]. exists b. split; [assumption|]. now apply Bl in Z2. }
      rewrite runR_unfold in F by lia. rewrite (pick_again_2 b N Z2) in F.
      destruct (schemeR_cases E S file R U 1%nat s schemeIdV2 b minSdk maxSdk (setScheme (again res1) schemeIdV2)) as [Q|(st & cds0 & r1 & X & Q)].
      2:{ rewrite Q in F. inversion F; subst. cbn in Er. apply app_eq_nil in Er as [_ Er]. discriminate. }
      rewrite Q in F. split; [apply verifyScheme_frame in F as (F & _); exact F|]. split; [assumption|]. split; [assumption|].
      assert (exists st0 cds0 r0, extractCertsScheme E schemeIdV3 maxSdk b3 (setScheme res schemeIdV3) = Ret (st0, cds0, r0) /\ certs (v_core res1) = certs (v_core r0) /\ v_extraBlocks res1 = xb)
        as (st0 & cds0 & r0 & X0 & Hc & Hx).
      { destruct (schemeR_cases E S file R U 0%nat s schemeIdV3 b3 minSdk maxSdk (setScheme res schemeIdV3)) as [Q0|(st & cds0 & r1 & X & Q0)]; rewrite Q0 in H.
        - pose proof (verifyScheme_frame _ _ _ _ _ _ _ _ _ _ _ _ H) as (_ & _ & _ & Fx). apply verifyScheme_certs in H as (st & c & r1 & X & Hc). exists st, c, r1.
          split; [assumption|]. split; [assumption|]. cbn in Fx. congruence.
        - exists st, cds0, r1. split; [assumption|]. apply extract_frame in X as [_ X]. inversion H; subst. cbn in X |- *. auto. }
      destruct (verify_v2_sound E S file before pairs cd rec sections HE HS A P _ _ _ _ _ _ _ F Er) as (_ & is & (Ni & B & Dm) & Le & _ & w & Rq).
      exists b3, st0, cds0, r0, is. split; [assumption|]. split; [assumption|]. split; [assumption|].
      split; [|split; [cbn in Le; rewrite <- Hc; exact Le|rewrite Rq, <- Hc; reflexivity]].
      split; [lia|]. split; [assumption|]. exists b. split; [assumption|]. split; [|assumption].
      eapply v2_block_ids; [|exact B]. intros M' id I. symmetry. cbn [setScheme again v_extraBlocks]. rewrite Z3, Hx. apply (present_fallback es maxSdk xb Xb); assumption.
  Qed.

  Lemma accept_2 cds res1 cds2 res2 : ~ v31_in maxSdk es -> ~ v3_in maxSdk es -> 24 <= maxSdk -> pvR 0%nat blocks res = Ret (cds, res1) -> fbR cds res1 = Ret (cds2, res2) -> errors (v_core res2) = [] ->
    v_schemeId res2 = 2 /\ exists is, v2_verified E maxSdk es sections is /\ certs (v_core res2) = map si_chain is.
  Proof.
    intros N N3 M H F Er. pose proof (fresh_core _ Rc) as (Fc & Fl & Fe).
    destruct (in_cases maxSdk es) as (_ & _ & [V|N2]).
    - destruct (pick_2 es maxSdk blocks Bl N N3 V) as (b & Pk & L). rewrite runR_unfold in H by lia. rewrite Pk in H.
      destruct (schemeR_cases E S file R U 0%nat s schemeIdV2 b minSdk maxSdk (setScheme res schemeIdV2)) as [Q|(st & cds0 & r1 & X & Q)]; rewrite Q in H.
      2:{ exfalso. destruct (extract_frame _ _ _ _ _ _ _ _ X) as [Fs _]. cbn in Fs. inversion H; subst cds res1. clear H.
          apply fallbackR_cond in F as [[-> ->]|(_ & Id & _)]; [cbn in Er; apply app_eq_nil in Er as [_ Er]; discriminate|].
          cbn in Id. rewrite Fs in Id. unfold schemeIdV2 in Id. lia. }
      destruct (first_2 E S file before pairs cd rec sections es minSdk maxSdk HE HS A P blocks Bl xb Xb res Rc Rx cds res1 N N3 V) as (Id & Sd & _).
      { rewrite run_unfold by lia. rewrite Pk. exact H. }
      apply fallbackR_cond in F as [[-> ->]|(_ & Id' & _)]; [|lia]. destruct (Sd Er) as (is & Ve & Cs & _). split; [assumption|]. eauto.
    - exfalso. rewrite runR_unfold in H by lia. rewrite (pick_1 es maxSdk blocks Bl N N3 N2) in H. inversion H; subst cds res1.
      apply fallbackR_cond in F as [[-> ->]|(_ & Id & _)]; [cbn in Er; apply app_eq_nil in Er as [_ Er]; discriminate|]. cbn in Id. unfold schemeIdV1 in Id. lia.
  Qed.

  (** If the run with faults accepts, so does the one without. *)
  Lemma accept_both cds res1 cds2 res2 cds' res1' cds2' res2' : pvR 0%nat blocks res = Ret (cds, res1) -> fbR cds res1 = Ret (cds2, res2) -> errors (v_core res2) = [] ->
    pv 0%nat blocks resv = Ret (cds', res1') -> fb cds' res1' = Ret (cds2', res2') -> errors (v_core res2') = [] /\ same_or_downgraded (v_schemeId res2) (v_schemeId res2').
  Proof.
    intros H F Er H' F'. assert (Rcv : quiet core0 (v_core resv)) by (now rewrite Rv). unfold same_or_downgraded.
    destruct (Z_lt_le_dec maxSdk 24) as [M|M].
    { rewrite run_old in H' by assumption. assert (X : pvR 0%nat blocks res = Ret ([], setScheme res 1)).
      { unfold pickAndVerifyR, SupportsSigV2, V7_0_Nougat. destruct (Z.leb_spec 24 maxSdk); [lia | reflexivity]. }
      rewrite X in H. inversion H; subst cds res1. inversion H'; subst cds' res1'. pose proof (fresh_core _ Rcv) as (_ & _ & Fe). pose proof (fresh_core _ Rc) as (_ & _ & Fe').
      rewrite fallback_ok in F' by (exact Fe). inversion F'; subst. cbn. split; [assumption|]. left.
      apply fallbackR_cond in F as [[_ ->]|(Ne & _)]; [reflexivity|]. contradiction. }
    destruct (in_cases maxSdk es) as ([V31|N31] & C3 & _).
    - destruct (accept_31 _ _ _ _ V31 H F Er) as (Id & is31 & lin & is3 & Ve & _).
      destruct (first_31 E S file before pairs cd rec sections es minSdk maxSdk HE HS A P blocks Bl xb Xb resv Rcv Rxv cds' res1' V31 H') as (Id' & _ & Cm).
      pose proof (Cm _ _ _ Ve) as Er'. rewrite fallback_ok in F' by assumption. inversion F'; subst. split; [assumption|]. left. congruence.
    - destruct C3 as [V3|N3].
      + destruct (first_3 E S file before pairs cd rec sections es minSdk maxSdk HE HS A P blocks Bl xb Xb resv Rcv Rxv cds' res1' N31 V3 H') as (Id' & _ & Cm).
        destruct (accept_3 _ _ _ _ N31 V3 H F Er) as [(Id & is & lin & Ve & _)|(Id & Mi & V2 & b3 & st0 & cds0 & r0 & is & L3 & Z3 & X0 & Ve & Le & _)].
        * pose proof (Cm _ _ Ve) as Er'. rewrite fallback_ok in F' by assumption. inversion F'; subst. split; [assumption|]. left. congruence.
        * destruct (errors (v_core res1')) as [|e er] eqn:Ee.
          { rewrite fallback_ok in F' by assumption. inversion F'; subst. split; [assumption|]. right. auto. }
          rewrite fallback_taken in F'; [|rewrite Ee; discriminate | lia | assumption | assumption].
          pose proof Ve as (M24 & Ni & b & L2 & B & Dm).
          assert (Z2 : zget blockIdSchemeV2 blocks = Some b).
          { apply (block_v2 es maxSdk blocks Bl) in V2 as [b' Z2]. pose proof Z2 as Z2'. apply Bl in Z2' as [_ L2']. assert (b' = b) by (eapply last_entry_fun; eassumption). congruence. }
          rewrite run_unfold in F' by lia. rewrite (pick_again_2 b N31 Z2) in F'.
          rewrite run_unfold in H' by lia. destruct (pick_3 es maxSdk blocks Bl N31 V3) as (b3' & Pk & _ & Z3'). rewrite Pk in H'. assert (b3' = b3) by congruence. subst b3'.
          pose proof (verifyScheme_frame _ _ _ _ _ _ _ _ _ _ _ _ H') as (_ & _ & _ & Fx). cbn in Fx.
          apply verifyScheme_certs in H' as (st1 & cds1 & r1 & X1 & Hc).
          assert (Qc : certs (v_core r1) = certs (v_core r0)) by (eapply extract_v3_certs; [|exact X1|exact X0]; cbn; exact Rv).
          destruct (verify_v2_more E S file before pairs cd rec sections HE HS A P 1%nat b minSdk maxSdk (setScheme (again res1') schemeIdV2) is) as (cdsx & w & Q & _).
          { reflexivity. }
          { cbn. rewrite Hc, Qc. exact Le. }
          { split; [assumption|]. split; [|assumption]. eapply v2_block_ids; [|exact B]. intros M' id I. cbn [setScheme again v_extraBlocks]. rewrite Z3, Fx, Rxv. apply (present_fallback es maxSdk xb Xb); assumption. }
          rewrite Q in F'. inversion F'; subst. cbn. split; [reflexivity|]. left. rewrite Id. reflexivity.
      + destruct (accept_2 _ _ _ _ N31 N3 M H F Er) as (Id & is & Ve & _).
        assert (V : v2_in maxSdk es). { destruct Ve as (M24 & _ & b & L & _). split; [assumption|]. apply last_entry_in. eauto. }
        destruct (first_2 E S file before pairs cd rec sections es minSdk maxSdk HE HS A P blocks Bl xb Xb resv Rcv Rxv cds' res1' N31 N3 V H') as (Id' & _ & Cm).
        pose proof (Cm _ Ve) as Er'. rewrite fallback_ok in F' by assumption. inversion F'; subst. split; [assumption|]. left. congruence.
  Qed.

  Lemma accept_sound cds res1 cds2 res2 : pvR 0%nat blocks res = Ret (cds, res1) -> fbR cds res1 = Ret (cds2, res2) -> errors (v_core res2) = [] ->
    (maxSdk < 24 /\ v_schemeId res2 = 1 /\ certs (v_core res2) = []) \/ signed_through E es sections minSdk maxSdk (v_schemeId res2) (certs (v_core res2)).
  Proof.
    intros H F Er. destruct (Z_lt_le_dec maxSdk 24) as [M|M].
    { left. assert (X : pvR 0%nat blocks res = Ret ([], setScheme res 1)).
      { unfold pickAndVerifyR, SupportsSigV2, V7_0_Nougat. destruct (Z.leb_spec 24 maxSdk); [lia | reflexivity]. }
      rewrite X in H. inversion H; subst cds res1. pose proof (fresh_core _ Rc) as (Fc & _ & Fe').
      apply fallbackR_cond in F as [[_ ->]|(Ne & _)]; [auto|]. contradiction. }
    right. unfold signed_through. destruct (in_cases maxSdk es) as ([V31|N31] & C3 & _).
    - right. right. destruct (accept_31 _ _ _ _ V31 H F Er) as (Id & is31 & lin & is3 & Ve & Cs). split; [assumption|]. exists is31, lin, is3. auto.
    - destruct C3 as [V3|N3].
      + destruct (accept_3 _ _ _ _ N31 V3 H F Er) as [(Id & is & lin & Ve & Cs)|(Id & Mi & V2 & b3 & st0 & cds0 & r0 & is & L3 & Z3 & X0 & Ve & Le & Cs)].
        * right. left. split; [assumption|]. exists is, lin. auto.
        * left. split; [assumption|]. exists is, (certs (v_core r0)). split; [assumption|]. split; [exact Cs|]. intros [M28|N3]; [lia|contradiction].
      + left. destruct (accept_2 _ _ _ _ N31 N3 M H F Er) as (Id & is & Ve & Cs). split; [assumption|]. exists is, []. auto.
  Qed.
End Run.

Section Top.
  Variables (E : env) (S : sched) (file : bytes) (R : reader).
  Hypothesis HE : hash_sizes_ok E.
  Hypothesis HS : sched_ok S.
  Hypothesis U : unreliable file R.

  Lemma sizeR size m : newSigningBlockR R = Some (size, m) -> size = zlen file /\ newSigningBlock file = Some m.
  Proof.
    unfold newSigningBlockR, newSigningBlock. destruct U as [Us Ur]. destruct (rd_size R) as [n|]; [|discriminate]. destruct (n <? 4); [discriminate|].
    destruct (rd_read R SMagic 0 4) as [b|] eqn:Q; [|discriminate]. apply Ur in Q. rewrite Q. intro H. inversion H; subst. auto.
  Qed.

  (** Nothing is accepted because of an I/O error. *)
  Theorem faulty_accept minSdk maxSdk z vr vr' : ~ zip64_file file \/ (forall o n, rd_read R SZip64 o n = read_at file o n) ->
    verifySigningBlockR E S R minSdk maxSdk z = Ret vr -> vr_err vr = None ->
    verifySigningBlock E S file minSdk maxSdk z = Ret vr' ->
    vr_err vr' = None /\ vr_magic vr' = vr_magic vr /\ exists res res', vr_res vr = Some res /\ vr_res vr' = Some res' /\ same_or_downgraded (v_schemeId res) (v_schemeId res').
  Proof.
    intros Nz H Er H'. unfold verifySigningBlockR in H. destruct (newSigningBlockR R) as [[size m]|] eqn:Ns; [|inversion H; subst; discriminate].
    apply sizeR in Ns as [-> Nm]. unfold verifySigningBlock in H'. rewrite Nm in H'.
    destruct (find_or E file R U maxSdk Nz) as [Q|Q]; rewrite Q in H.
    { cbn [obind] in H. apply obind_ret in H as (? & _ & H). inversion H; subst. discriminate. }
    apply obind_ret in H as (fr & Fi & H). rewrite Fi in H'. cbn [obind] in H'.
    destruct fr as [st s|st s]; [apply obind_ret in H as (? & _ & H); inversion H; subst; discriminate|].
    apply findSignatureBlocks_ok in Fi as (before & pairs & cd & rec & es & A & -> & En & [Ib Ie [Nb Ne] Ic Ir] & _).
    destruct (protected_exists _ _ _ _ _ A) as (sections & P).
    apply obind_ret in H as (res & Fr & H). apply applyFrostingR_frame in Fr as (Fc & Fx & _).
    apply obind_ret in H as ([cds res1] & Pv & H). apply obind_ret in H as ([cds2 res2] & Fb & H). apply obind_ret in H as (stamp & _ & H).
    inversion H; subst. clear H. cbn [vr_err vr_res vr_magic] in *. apply getLastError_none in Er. cbn [v_core] in Er.
    apply obind_ret in H' as (res' & Fr' & H'). apply applyFrosting_frame in Fr' as (Fc' & Fx' & _).
    apply obind_ret in H' as ([cds' res1'] & Pv' & H'). apply obind_ret in H' as ([cds2' res2'] & Fb' & H'). apply obind_ret in H' as (stamp' & _ & H').
    inversion H'; subst. clear H'. cbn [vr_err vr_res vr_magic].
    destruct (accept_both E S file before pairs cd rec sections es minSdk maxSdk HE HS A P (en_blocks st) Ib _ Ie Nb R U res res' ltac:(now rewrite Fc) ltac:(congruence) Fx Fx' _ _ _ _ _ _ _ _ Pv Fb Er Pv' Fb') as [Er' Sc].
    split; [apply getLastError_none; exact Er'|]. split; [reflexivity|]. do 2 eexists. split; [reflexivity|]. split; [reflexivity|]. exact Sc.
  Qed.

  (** What is accepted in spite of I/O errors is signed. *)
  Theorem faulty_sound minSdk maxSdk z vr res : ~ zip64_file file \/ (forall o n, rd_read R SZip64 o n = read_at file o n) ->
    verifySigningBlockR E S R minSdk maxSdk z = Ret vr -> vr_err vr = None -> vr_res vr = Some res ->
    (maxSdk < 24 /\ v_schemeId res = 1 /\ certs (v_core res) = []) \/
    exists es sections, apk_with file es sections /\ signed_through E es sections minSdk maxSdk (v_schemeId res) (certs (v_core res)).
  Proof.
    intros Nz H Er Rr. unfold verifySigningBlockR in H. destruct (newSigningBlockR R) as [[size m]|] eqn:Ns; [|inversion H; subst; discriminate].
    apply sizeR in Ns as [-> Nm].
    destruct (find_or E file R U maxSdk Nz) as [Q|Q]; rewrite Q in H.
    { cbn [obind] in H. apply obind_ret in H as (? & _ & H). inversion H; subst. discriminate. }
    apply obind_ret in H as (fr & Fi & H).
    destruct fr as [st s|st s]; [apply obind_ret in H as (? & _ & H); inversion H; subst; discriminate|].
    apply findSignatureBlocks_ok in Fi as (before & pairs & cd & rec & es & A & -> & En & [Ib Ie [Nb Ne] Ic Ir] & _).
    destruct (protected_exists _ _ _ _ _ A) as (sections & P).
    apply obind_ret in H as (res0 & Fr & H). apply applyFrostingR_frame in Fr as (Fc & Fx & _).
    apply obind_ret in H as ([cds res1] & Pv & H). apply obind_ret in H as ([cds2 res2] & Fb & H). apply obind_ret in H as (stamp & _ & H).
    inversion H; subst. clear H. cbn [vr_err vr_res vr_magic] in *. apply getLastError_none in Er. cbn [v_core] in Er. inversion Rr; subst res. cbn [v_core v_schemeId].
    destruct (accept_sound E S file before pairs cd rec sections es minSdk maxSdk HE HS A P (en_blocks st) Ib _ Ie Nb R U res0 res0 ltac:(now rewrite Fc) ltac:(first [reflexivity|assumption]) Fx _ _ _ _ Pv Fb Er) as [X|X]; [now left|].
    right. exists es, sections. split; [|exact X]. exists before, pairs, cd, rec. auto.
  Qed.
End Top.
