(** Lemmas about v3 signers (Model/SchemeV3.v) *)
From Coq Require Import String.
From Coq Require Import Lia.
From Verif.Model Require Import Bytes ApiLevel Env Utils SigBlock Result Signer SchemeV3.
From Verif.Spec Require Import Encoding Algorithms Signer SignerV3.
From Verif.Proofs Require Import BytesFacts UtilsFacts SignerFacts SchemeV2Facts CollectFacts LineageFacts.

Definition mkLin (ns : list lnode) : option lineage :=
  match ns with [] => None | _ => Some {| l_minSdk := lineageCalculateMinSdkVersion ns; l_nodes := ns |} end.

Inductive lin_run (E : env) : list (Z * bytes) -> option lineage -> option lineage -> Prop :=
| lr_nil l : lin_run E [] l l
| lr_set v ns al l l' : ns <> [] -> lineage_of E v ns -> lin_run E al (mkLin ns) l' ->
    lin_run E ((id_proof_of_rotation, v) :: al) l l'
| lr_skip a al l l' : (fst a = id_proof_of_rotation -> forall ns, lineage_of E (snd a) ns -> ns = []) ->
    lin_run E al l l' -> lin_run E (a :: al) l l'.

Lemma mkLin_inj a b : mkLin a = mkLin b -> a = b.
Proof. destruct a, b; cbn; intro H; inversion H; congruence. Qed.

Lemma lin_run_inv E al l l' : lin_run E al l l' ->
  (l' = l /\ forall v ns, In (id_proof_of_rotation, v) al -> lineage_of E v ns -> ns = []) \/
  (exists before v after ns, al = before ++ (id_proof_of_rotation, v) :: after /\ ns <> [] /\ l' = mkLin ns /\ lineage_of E v ns /\
     forall v' l, In (id_proof_of_rotation, v') after -> lineage_of E v' l -> l = []).
Proof.
  induction 1 as [l|v ns al l l' Ne L R IH|a al l l' Sk R IH].
  - left. split; [reflexivity|]. intros ? ? [].
  - right. destruct IH as [[-> N]|(b & v' & a & ns' & -> & Ne' & -> & L' & N)].
    + exists [], v, al, ns. repeat split; assumption.
    + exists ((id_proof_of_rotation, v) :: b), v', a, ns'. repeat split; assumption.
  - destruct IH as [[-> N]|(b & v' & a' & ns' & -> & Ne' & -> & L' & N)].
    + left. split; [reflexivity|]. intros v ns [X|X] Lv; [|eauto]. subst a. apply Sk; [reflexivity | assumption].
    + right. exists (a :: b), v', a', ns'. repeat split; assumption.
Qed.

Lemma lin_run_rotation E al ns : lin_run E al None (mkLin ns) <-> rotation_lineage E al ns.
Proof.
  split.
  - intro R. apply lin_run_inv in R as [[Q N]|(b & v & a & ns' & -> & Ne & Q & L & N)].
    + left. split; [|assumption]. now apply (mkLin_inj ns []).
    + apply mkLin_inj in Q. subst ns'. right. split; [assumption|]. exists b, v, a. auto.
  - assert (Skip : forall al l, (forall v l, In (id_proof_of_rotation, v) al -> lineage_of E v l -> l = []) -> lin_run E al l l).
    { clear. induction al as [|[i v] al IH]; intros l H; [constructor|]. apply lr_skip; [|apply IH; intros; eapply H; [right|]; eassumption].
      cbn. intros -> ns L. eapply H; [left; reflexivity | exact L]. }
    intros [[-> N]|(Ne & b & v & a & -> & L & N)]; [now apply Skip|].
    enough (forall l, lin_run E (b ++ (id_proof_of_rotation, v) :: a) l (mkLin ns)) by auto.
    assert (Base : forall l, lin_run E ((id_proof_of_rotation, v) :: a) l (mkLin ns)) by (intro; eapply lr_set; eauto).
    clear - L Base Ne. induction b as [|[i w] b IH]; intro l; [apply Base|]. cbn [app].
    (* previous attributes may or may not hold a lineage *)
    destruct (readSigningCertificateLineage E w) as [[[|n ns']|]|] eqn:Rd.
    + apply lr_skip; [|apply IH]. cbn. intros _ ns' L'. assert (readSigningCertificateLineage E w = Ret (Some ns')) by (apply readLineage_iff; auto). congruence.
    + apply readLineage_iff in Rd as [[_ X]|L']; [discriminate|].
      destruct (Z.eq_dec i id_proof_of_rotation) as [->|Ni].
      * eapply lr_set; [|exact L' | apply IH]. discriminate.
      * apply lr_skip; [|apply IH]. cbn. contradiction.
    + apply lr_skip; [|apply IH]. cbn. intros _ ns' L'. assert (readSigningCertificateLineage E w = Ret (Some ns')) by (apply readLineage_iff; auto). congruence.
    + apply lr_skip; [|apply IH]. cbn. intros _ ns' L'. assert (readSigningCertificateLineage E w = Ret (Some ns')) by (apply readLineage_iff; auto). congruence.
Qed.

Lemma rotation_lineage_det E al a b : rotation_lineage E al a -> rotation_lineage E al b -> a = b.
Proof.
  assert (G : forall before1 v1 after1 before2 v2 after2 l1 l2,
     before1 ++ (id_proof_of_rotation, v1) :: after1 = before2 ++ (id_proof_of_rotation, v2) :: after2 ->
     lineage_of E v1 l1 -> lineage_of E v2 l2 -> l1 <> [] -> l2 <> [] ->
     (forall v' l, In (id_proof_of_rotation, v') after1 -> lineage_of E v' l -> l = []) ->
     (forall v' l, In (id_proof_of_rotation, v') after2 -> lineage_of E v' l -> l = []) -> l1 = l2).
  { induction before1 as [|x b1 IH]; intros v1 a1 [|y b2] v2 a2 l1 l2 Q L1 L2 N1 N2 A1 A2; cbn [app] in Q; injection Q as Q1 Q2.
    - subst. eapply lineage_of_det; eassumption.
    - subst. exfalso. apply N2. eapply A1; [|exact L2]. apply in_or_app. right. now left.
    - subst. exfalso. apply N1. eapply A2; [|exact L1]. apply in_or_app. right. now left.
    - eapply IH; eassumption. }
  intros [[-> N]|(Ne & b1 & v1 & a1 & -> & L1 & A1)] [[-> N']|(Ne' & b2 & v2 & a2 & Q & L2 & A2)].
  - reflexivity.
  - symmetry. eapply N; [|exact L2]. rewrite Q. apply in_or_app. right. now left.
  - eapply N'; [|exact L1]. apply in_or_app. right. now left.
  - eapply G; eassumption.
Qed.

Section Attr.
  Variable E : env.
  Variable cfg : v3cfg.
  Variable main : cert.
  Hypothesis Rot : is_int32 (rotationMin cfg).
  Notation aok := (v3_attribute_ok E (cfg_maxSdk cfg) (rotationMin cfg) main).

  Lemma v3Attributes_sound ok items : forall lin found r lin' found' r' good,
    v3Attributes E cfg main items ok lin found r = Ret (lin', found', r', good) ->
    ext r r' /\
    (good = false -> worse r r') /\
    (errors r' = errors r -> ok = true /\ good = true /\ exists al, items = map enc_rec al /\
        Forall (fun a => is_uint32 (fst a)) al /\ Forall aok al /\ lin_run E al lin lin' /\ quiet r r').
  Proof.
    induction items as [|item items IH]; intros lin found r lin' found' r' good H; cbn [v3Attributes] in H.
    - destruct ok.
      + inversion H; subst. split; [apply ext_refl|]. split; [discriminate|]. intros _. repeat split. exists []. repeat split; try constructor.
        apply quiet_refl.
      + inversion H; subst. split; [auto|]. split; [auto|]. intro X. exfalso. eapply addError_worse; eassumption.
    - assert (Stop : forall lin0 e, Ret (lin0, found, addError r e, false) = Ret (lin', found', r', good) \/ Ret (lin0, true, addError r e, false) = Ret (lin', found', r', good) ->
        ext r r' /\ (good = false -> worse r r') /\
        (errors r' = errors r -> ok = true /\ good = true /\ exists al, item :: items = map enc_rec al /\
            Forall (fun a => is_uint32 (fst a)) al /\ Forall aok al /\ lin_run E al lin lin' /\ quiet r r')).
      { intros lin0 e X. assert (r' = addError r e /\ good = false) as [-> ->] by (destruct X as [X|X]; inversion X; auto).
        split; [auto|]. split; [auto|]. intro Y. exfalso. eapply addError_worse; eassumption. }
      assert (Cont : forall id v lin1 found1 r1, item = enc_rec (id, v) -> is_uint32 id -> aok (id, v) ->
         (forall al l', lin_run E al lin1 l' -> lin_run E ((id, v) :: al) lin l') -> quiet r r1 ->
         v3Attributes E cfg main items ok lin1 found1 r1 = Ret (lin', found', r', good) ->
         ext r r' /\ (good = false -> worse r r') /\
         (errors r' = errors r -> ok = true /\ good = true /\ exists al, item :: items = map enc_rec al /\
            Forall (fun a => is_uint32 (fst a)) al /\ Forall aok al /\ lin_run E al lin lin' /\ quiet r r')).
      { intros id v lin1 found1 r1 Ei U A LR Q H1. apply IH in H1 as (X & W & T).
        split; [eapply ext_trans; [apply quiet_ext; exact Q | exact X]|].
        split; [intro G; eapply worse_trans_l; [apply quiet_ext; exact Q | auto]|].
        intro Eq. rewrite <- (quiet_errors _ _ Q) in Eq. destruct (T Eq) as (-> & -> & al & -> & Ua & Aa & La & Qa).
        repeat split. exists ((id, v) :: al). repeat split; try (constructor; assumption).
        - now rewrite Ei.
        - now apply LR.
        - eapply quiet_trans; eassumption. }
      assert (Bad : forall lin1 found1 e, v3Attributes E cfg main items ok lin1 found1 (addError r e) = Ret (lin', found', r', good) ->
         ext r r' /\ (good = false -> worse r r') /\
         (errors r' = errors r -> ok = true /\ good = true /\ exists al, item :: items = map enc_rec al /\
            Forall (fun a => is_uint32 (fst a)) al /\ Forall aok al /\ lin_run E al lin lin' /\ quiet r r')).
      { intros lin1 found1 e H1. apply IH in H1 as (X & W & T).
        assert (Wr : worse r r') by (eapply worse_trans_r; [apply addError_worse | exact X]).
        split; [apply Wr|]. split; [auto|]. intro Eq. exfalso. now apply Wr. }
      destruct (read_u32 item) as [[id v]|] eqn:Ru; [|eapply Stop; left; exact H].
      apply read_u32_inv in Ru as [Ei U]. assert (Ei' : item = enc_rec (id, v)) by exact Ei. clear Ei.
      change attrV3ProofOfRotation with id_proof_of_rotation in H. change attrV3MinSdkVersion with id_rotation_min_sdk in H.
      destruct (Z.eqb_spec id id_proof_of_rotation) as [->|N1].
      { apply obind_ret in H as (o & Hl & H). destruct o as [ns|]; [|eapply Stop; left; exact H].
        destruct ns as [|n ns].
        - eapply Cont; [exact Ei' | exact U | | | apply quiet_refl | exact H].
          + split; [|intro X; cbn in X; discriminate]. intros _. cbn [snd]. apply readLineage_iff in Hl as [[-> _]|L]; [now left|]. right. exists []. auto.
          + intros al l' R. apply lr_skip; [|exact R]. cbn. intros _ ns L.
            assert (X : readSigningCertificateLineage E v = Ret (Some ns)) by (apply readLineage_iff; auto). congruence.
        - set (nl := n :: ns) in *. assert (L : lineage_of E v nl) by (apply readLineage_iff in Hl as [[_ X]|L]; [discriminate | exact L]).
          assert (D : NoDup (raws nl)) by (destruct L as (? & _ & _ & _ & D); exact D).
          destruct (subLineageLen nl main) as [k|] eqn:Sl; [|eapply Bad; exact H].
          destruct (Z.eqb_spec (zlen nl) k) as [<-|Nk]; [|eapply Bad; exact H].
          apply subLineage_full in Sl; [|assumption|discriminate].
          eapply Cont; [exact Ei' | exact U | | | apply quiet_refl | exact H].
          + split; [|intro X; cbn in X; discriminate]. intros _. right. exists nl. split; [exact L|]. right. exact Sl.
          + intros al l' R. eapply lr_set; [|exact L | exact R]. discriminate. }
      assert (Skip : forall al lin1 l', lin_run E al lin1 l' -> lin_run E ((id, v) :: al) lin1 l').
      { intros al lin1 l' R. apply lr_skip; [|exact R]. cbn. intro. contradiction. }
      destruct (Z.eqb_spec id id_rotation_min_sdk) as [->|N2].
      { unfold SupportsSigV31, V13_0_TIRAMISU in H. destruct (Z.leb_spec 33 (cfg_maxSdk cfg)) as [Le|Gt].
        - destruct (read_i32 v) as [[cur rest]|] eqn:Rv; [|eapply Stop; right; exact H].
          apply read_i32_inv in Rv as [-> Rc].
          destruct (Z.eqb_spec (rotationMin cfg) 0) as [Z0|Nz]; cbn [negb] in H; [eapply Bad; exact H|].
          destruct (Z.eqb_spec (rotationMin cfg) cur) as [<-|Nc]; cbn [negb] in H; [|eapply Bad; exact H].
          eapply Cont; [exact Ei' | exact U | | intros ? ?; apply Skip | apply quiet_refl | exact H].
          split; [intro X; cbn in X; discriminate|]. intros _ _. split; [assumption|]. exists rest. reflexivity.
        - eapply Cont; [exact Ei' | exact U | | intros ? ?; apply Skip | apply addWarning_quiet | exact H].
          split; [intro X; cbn in X; discriminate|]. intros _ X. lia. }
      assert (A : aok (id, v)) by (split; intro X; cbn in X; contradiction).
      destruct (id =? attrV3RotationOnDev).
      { eapply Cont; [exact Ei' | exact U | exact A | intros ? ?; apply Skip | | exact H].
        destruct (actingAsV31 cfg); [apply quiet_refl | apply addWarning_quiet]. }
      eapply Cont; [exact Ei' | exact U | exact A | intros ? ?; apply Skip | apply addWarning_quiet | exact H].
  Qed.

  Lemma v3Attributes_complete al : Forall (fun a => is_uint32 (fst a)) al -> Forall aok al -> forall lin found r,
    exists lin' found' r', v3Attributes E cfg main (map enc_rec al) true lin found r = Ret (lin', found', r', true) /\
      lin_run E al lin lin' /\ quiet r r'.
  Proof.
    intros Hu Ha. induction al as [|[id v] al IH]; intros lin found r.
    - exists lin, found, r. repeat split; [constructor | apply quiet_refl].
    - inversion Hu as [|? ? U Us]; inversion Ha as [|? ? A As]; subst. specialize (IH Us As).
      cbn [map v3Attributes]. rewrite enc_rec_read_u32 by exact U.
      change attrV3ProofOfRotation with id_proof_of_rotation. change attrV3MinSdkVersion with id_rotation_min_sdk.
      assert (Cont : forall lin1 found1 r1, (forall l', lin_run E al lin1 l' -> lin_run E ((id, v) :: al) lin l') -> quiet r r1 ->
        exists lin' found' r', v3Attributes E cfg main (map enc_rec al) true lin1 found1 r1 = Ret (lin', found', r', true) /\
          lin_run E ((id, v) :: al) lin lin' /\ quiet r r').
      { intros lin1 found1 r1 LR Q. destruct (IH lin1 found1 r1) as (lin' & found' & r' & -> & R & Q').
        exists lin', found', r'. repeat split; [now apply LR | eapply quiet_trans; eassumption]. }
      destruct A as [A1 A2]. cbn [fst snd] in A1, A2.
      destruct (Z.eqb_spec id id_proof_of_rotation) as [->|N1].
      { destruct (A1 eq_refl) as [->|(ns & L & Hn)].
        - rewrite (proj2 (readLineage_iff E [] [])) by auto. cbn [obind]. apply Cont; [|apply quiet_refl].
          intros l' R. apply lr_skip; [|exact R]. cbn. intros _ ns (items & X & _). unfold le32 in X. cbn [le_enc] in X. discriminate.
        - rewrite (proj2 (readLineage_iff E v ns)) by auto. cbn [obind]. destruct ns as [|n ns].
          + apply Cont; [|apply quiet_refl]. intros l' R. apply lr_skip; [|exact R]. cbn. intros _ ns' L'. eapply lineage_of_det; eassumption.
          + set (nl := n :: ns) in *. assert (D : NoDup (raws nl)) by (destruct L as (? & _ & _ & _ & D); exact D).
            destruct Hn as [X|Hn]; [discriminate|].
            rewrite (proj2 (subLineage_full nl main D ltac:(discriminate)) Hn). rewrite Z.eqb_refl.
            apply Cont; [|apply quiet_refl]. intros l' R. eapply lr_set; [|exact L|exact R]. discriminate. }
      assert (Skip : forall l', lin_run E al lin l' -> lin_run E ((id, v) :: al) lin l').
      { intros l' R. apply lr_skip; [|exact R]. cbn. intro. contradiction. }
      destruct (Z.eqb_spec id id_rotation_min_sdk) as [->|N2].
      { unfold SupportsSigV31, V13_0_TIRAMISU. destruct (Z.leb_spec 33 (cfg_maxSdk cfg)) as [Le|Gt].
        - destruct (A2 eq_refl Le) as (Nz & rest & ->). unfold le32. rewrite read_i32_enc_id by exact Rot.
          destruct (Z.eqb_spec (rotationMin cfg) 0); [contradiction|]. rewrite Z.eqb_refl. cbn [negb].
          apply Cont; [assumption | apply quiet_refl].
        - apply Cont; [assumption | apply addWarning_quiet]. }
      destruct (id =? attrV3RotationOnDev).
      { apply Cont; [assumption|]. destruct (actingAsV31 cfg); [apply quiet_refl | apply addWarning_quiet]. }
      apply Cont; [assumption | apply addWarning_quiet].
  Qed.
End Attr.

(** signerInfo kept by the code for an accepted signer *)
Definition kept (i : v3_info) : v3signer := mkV3Signer (mkLin (i3_lineage i)) (i3_min i) (i3_max i).

Lemma digest_list_det slice algos algo d d' : digest_list slice algos algo d -> digest_list slice algos algo d' -> d = d'.
Proof.
  intros (rs & bf & fi & af & [Er Fr] & _ & Ers & V & N & _) (rs' & bf' & fi' & af' & [Er' Fr'] & _ & Ers' & V' & N' & _).
  assert (Hrs : rs' = rs).
  { rewrite Er in Er'. apply records_shape in Fr as [Sh Fr], Fr' as [Sh' Fr']. apply lps_inj in Er'; [|assumption|assumption].
    symmetry. apply enc_recs_inj; [| |exact Er']; (eapply Forall_impl; [|eassumption]); now intros ? []. }
  rewrite Hrs in Ers'. assert (X : fi = fi').
  { clear - Ers Ers' N N'. rewrite Ers in Ers'. clear Ers.
    revert bf' Ers'. induction bf as [|x bf IH]; intros [|y bf'] E; inversion E; subst.
    - reflexivity.
    - exfalso. eapply N. apply in_or_app. right. now left.
    - exfalso. eapply N'. apply in_or_app. right. now left.
    - eauto. }
  subst fi'. eapply holds_value_det; eassumption.
Qed.

Section Signer.
  Variable E : env.
  Variable cfg : v3cfg.
  Hypothesis Rot : is_int32 (rotationMin cfg).

  Theorem v3VerifySigner_sound signer cds r o cds' r' :
    v3VerifySigner E cfg signer cds r = Ret (o, cds', r') ->
    worse r r' \/
    exists i k, v3_signer E (cfg_maxSdk cfg) (rotationMin cfg) signer i /\ has_kind (si_algo (i3_signer i)) k /\
      accepted (si_chain (i3_signer i)) k (si_digest (i3_signer i)) cds cds' r r' /\ o = Some (kept i).
  Proof.
    unfold v3VerifySigner. intro H.
    destruct (getLengthPrefixedSlice signer) as [[sd s1]|] eqn:G1; [|inversion H; subst; left; auto].
    destruct (read_i32 s1) as [[pmin s2]|] eqn:G2; [|inversion H; subst; left; auto].
    destruct (read_i32 s2) as [[pmax s3]|] eqn:G3; [|inversion H; subst; left; auto].
    rewrite Z.eqb_refl in H. cbn [negb] in H.
    destruct ((pmin <? 1) || (pmax <? pmin)) eqn:Rg.
    { (* invalid range: an error is recorded, whatever follows *)
      left. eapply worse_trans_r; [apply (addError_worse r "invalid min/max sdk versions")|]. set (r0 := addError r "invalid min/max sdk versions") in *. clearbody r0.
      destruct (getLengthPrefixedSlice s3) as [[sigs s4]|] eqn:G4; [|inversion H; subst; auto].
      destruct (parseSignatures_spec sigs r0) as (c & r1 & b & E1 & X1 & F1 & T1). rewrite E1 in H. cbn [obind] in H.
      destruct b; cbn [negb] in H; [|inversion H; subst; exact X1].
      destruct (T1 eq_refl) as (Q1 & SL).
      destruct (getLengthPrefixedSlice s4) as [[pk junk]|] eqn:G5; [|inversion H; subst; eapply ext_trans; [exact X1 | auto]].
      apply obind_ret in H as ([r2 keyOk] & PK & H). apply parsePublicKey_spec in PK as [(-> & W & _)|(-> & -> & key & Ek & SV)].
      { cbn [negb] in H. inversion H; subst. eapply ext_trans; [exact X1 | apply W]. }
      cbn [negb] in H.
      destruct (getLengthPrefixedSlice sd) as [[digs sd1]|]; [|inversion H; subst; eapply ext_trans; [exact X1 | auto]].
      destruct (getLengthPrefixedSlice sd1) as [[cs sd2]|]; [|inversion H; subst; eapply ext_trans; [exact X1 | auto]].
      destruct (read_i32 sd2) as [[smin sd3]|]; [|inversion H; subst; eapply ext_trans; [exact X1 | auto]].
      destruct (read_i32 sd3) as [[smax sd4]|]; [|inversion H; subst; eapply ext_trans; [exact X1 | auto]].
      set (r3 := if negb (pmin =? smin) then _ else _) in H.
      assert (X3 : ext r0 r3) by (unfold r3; destruct (negb _); [eapply ext_trans; [exact X1 | auto] | exact X1]). clearbody r3.
      destruct (parseCertificates_spec E cs pk r3) as (r5 & m & PC & Hm). rewrite PC in H.
      assert (X5 : ext r0 r5).
      { eapply ext_trans; [exact X3|]. destruct Hm as [(_ & W & _)|(main & others & _ & _ & _ & ->)]; [apply W|].
        repeat split; cbn; [eexists; reflexivity | exists []; now rewrite app_nil_r | exists []; now rewrite app_nil_r]. }
      destruct m as [main|]; [|inversion H; subst; exact X5].
      destruct (signature_list_kind _ _ _ _ SL) as ((k & K) & Ik).
      destruct (parseDigests_spec digs c cds r5 k K Ik) as (cds1 & r6 & b & PD & Hd). rewrite PD in H. cbn [obind] in H.
      assert (X6 : ext r0 r6).
      { eapply ext_trans; [exact X5|]. destruct Hd as [(_ & W & _)|(_ & -> & _)]; [apply W | apply ext_refl]. }
      destruct b; cbn [negb] in H; [|inversion H; subst; exact X6].
      destruct (getLengthPrefixedSlice sd4) as [[attrs junk']|]; [|inversion H; subst; eapply ext_trans; [exact X6 | auto]].
      destruct (lpItems attrs) as [items ok]. apply obind_ret in H as ([[[lin found] r7] good] & Ha & H).
      apply v3Attributes_sound in Ha as (X7 & _).
      destruct (negb good); [inversion H; subst; eapply ext_trans; eassumption|].
      destruct (negb (rotationMin cfg =? 0) && negb found); inversion H; subst; [|eapply ext_trans; eassumption].
      eapply ext_trans; [exact X6|]. eapply ext_trans; [exact X7|]. apply quiet_ext, addWarning_quiet. }
    apply orb_false_elim in Rg as [Rg1 Rg2]. apply Z.ltb_ge in Rg1, Rg2.
    destruct (getLengthPrefixedSlice s3) as [[sigs s4]|] eqn:G4; [|inversion H; subst; left; auto].
    destruct (parseSignatures_spec sigs r) as (c & r1 & b & E1 & X1 & F1 & T1). rewrite E1 in H. cbn [obind] in H.
    destruct b; cbn [negb] in H.
    2:{ inversion H; subst. left. now apply F1. }
    destruct (T1 eq_refl) as (Q1 & SL).
    destruct (getLengthPrefixedSlice s4) as [[pk junk]|] eqn:G5; [|inversion H; subst; done_worse].
    apply obind_ret in H as ([r2 keyOk] & PK & H). apply parsePublicKey_spec in PK as [(-> & W & _)|(-> & -> & key & Ek & SV)].
    { cbn [negb] in H. inversion H; subst. done_worse. }
    cbn [negb] in H.
    destruct (getLengthPrefixedSlice sd) as [[digs sd1]|] eqn:G6; [|inversion H; subst; done_worse].
    destruct (getLengthPrefixedSlice sd1) as [[cs sd2]|] eqn:G7; [|inversion H; subst; done_worse].
    destruct (read_i32 sd2) as [[smin sd3]|] eqn:G8; [|inversion H; subst; done_worse].
    destruct (read_i32 sd3) as [[smax sd4]|] eqn:G9; [|inversion H; subst; done_worse].
    set (r3 := if negb (pmin =? smin) then _ else _) in H.
    assert (X3 : worse r r3 \/ (pmin = smin /\ r3 = r1)).
    { unfold r3. destruct (Z.eqb_spec pmin smin); cbn [negb]; [right; split; [assumption|reflexivity] | left; eapply worse_trans_l; [exact X1|apply addError_worse]]. }
    assert (X3' : ext r r3) by (destruct X3 as [W|[_ ->]]; [apply W | exact X1]). clearbody r3.
    destruct (parseCertificates_spec E cs pk r3) as (r5 & m & PC & [(-> & W & _)|(main & others & -> & CL & Spki & ->)]).
    { rewrite PC in H. inversion H; subst. done_worse. }
    rewrite PC in H. destruct (signature_list_kind _ _ _ _ SL) as ((k & K) & Ik).
    set (r5 := mkCore (certs r3 ++ [main :: others]) (signingLineage r3) (warnings r3) (errors r3)) in *.
    assert (X35 : ext r3 r5).
    { unfold r5. repeat split; cbn; [eexists; reflexivity | exists []; now rewrite app_nil_r | exists []; now rewrite app_nil_r]. }
    assert (X5 : ext r r5) by (eapply ext_trans; eassumption).
    destruct (parseDigests_spec digs c cds r5 k K Ik) as (cds1 & r6 & b & PD & [(-> & W & _)|(-> & -> & d & DL & Ag & ->)]).
    { rewrite PD in H. cbn in H. inversion H; subst. done_worse. }
    rewrite PD in H. cbn [obind negb] in H.
    destruct (getLengthPrefixedSlice sd4) as [[attrs junk']|] eqn:G10; [|inversion H; subst; done_worse].
    destruct (lpItems attrs) as [items ok] eqn:L. apply obind_ret in H as ([[[lin found] r7] good] & Ha & H).
    apply v3Attributes_sound in Ha as (X7 & W7 & T7).
    assert (HH : o = Some (mkV3Signer lin pmin pmax) /\ cds' = zset (kind_id k) d cds /\ quiet r7 r').
    { destruct (negb good); [inversion H; subst; auto using quiet_refl|].
      destruct (negb (rotationMin cfg =? 0) && negb found); inversion H; subst; auto using quiet_refl, addWarning_quiet. }
    destruct HH as (-> & -> & Q7). clear H.
    destruct X3 as [W3|[Em E3]].
    { left. eapply worse_trans_r; [exact W3|]. eapply ext_trans; [exact X35|]. eapply ext_trans; [exact X7|]. now apply quiet_ext. }
    subst r3 smin.
    destruct (list_eq_dec (fun a b : verr => ltac:(decide equality; apply string_dec) : {a = b} + {a <> b})
              (errors r7) (errors r5)) as [Eq|Ne].
    - right. destruct (T7 Eq) as (-> & -> & al & -> & Ua & Aa & La & Qa).
      assert (exists ns, lin = mkLin ns) as [ns ->].
      { apply lin_run_inv in La as [[-> _]|(_ & _ & _ & ns & _ & _ & -> & _)]; [now exists [] | now exists ns]. }
      apply lin_run_rotation in La.
      exists (mkV3Info {| si_chain := main :: others; si_algo := bestAlgo c; si_digest := d |} pmin pmax pmin smax ns), k.
      apply getLP_inv in G1 as [-> ?]. apply read_i32_inv in G2 as [-> ?]. apply read_i32_inv in G3 as [-> ?].
      apply getLP_inv in G4 as [-> ?], G5 as [-> ?], G6 as [-> ?], G7 as [-> ?].
      apply read_i32_inv in G8 as [-> ?]. apply read_i32_inv in G9 as [-> ?]. apply getLP_inv in G10 as [-> ?].
      apply lpItems_inv in L as [Eat Fa].
      split.
      { exists (lp digs ++ lp cs ++ le_enc 4 pmin ++ le_enc 4 smax ++ lp attrs ++ junk'), sigs, pk, junk, digs, cs, attrs, junk', al, main, others.
        cbn [i3_min i3_max i3_signedMin i3_signedMax i3_lineage i3_signer si_chain si_algo si_digest]. unfold le32.
        repeat match goal with |- _ /\ _ => split end; try assumption; try reflexivity.
        - exists (signaturesAlgos c), (bestAlgoSignature c), key, main, others. repeat split; assumption.
        - split; [exact Eat|]. rewrite Forall_map in Fa. rewrite Forall_forall in *. intros x Hx. split; auto. }
      cbn [i3_signer si_algo si_chain si_digest]. split; [assumption|]. split; [|reflexivity].
      split; [assumption|]. split; [reflexivity|]. eapply quiet_trans; [|exact Q7]. eapply quiet_trans; [|exact Qa].
      destruct Q1 as (w & ->). exists w. reflexivity.
    - left. eapply worse_trans_r; [eapply worse_trans_l; [exact X5|]; split; [exact X7 | exact Ne]|]. now apply quiet_ext.
  Qed.

  Theorem v3VerifySigner_complete signer cds r i k :
    v3_signer E (cfg_maxSdk cfg) (rotationMin cfg) signer i -> has_kind (si_algo (i3_signer i)) k ->
    digest_agrees cds (kind_id k) (si_digest (i3_signer i)) ->
    exists r', v3VerifySigner E cfg signer cds r = Ret (Some (kept i), zset (kind_id k) (si_digest (i3_signer i)) cds, r') /\
      accepted (si_chain (i3_signer i)) k (si_digest (i3_signer i)) cds (zset (kind_id k) (si_digest (i3_signer i)) cds) r r'.
  Proof.
    intros (sd & sigs & pk & junk & digs & cs & attrs & junk' & al & main & others & -> & F1 & I1 & I2 & F2 & F3 & Esd & F4 & F5 & I3 & I4 & F6 &
          Rg & Em & (algos & sig & key & main' & others' & SL & Ek & SV & CL & Ech' & Spki & DL) & Ech & AL & AO & RL) K Ag.
    rewrite Ech in *. inversion Ech'; subst main' others'; clear Ech'.
    unfold v3VerifySigner. rewrite getLP_enc by assumption. unfold le32. rewrite read_i32_enc_id by apply I1. rewrite read_i32_enc_id by apply I2.
    destruct ((i3_min i <? 1) || (i3_max i <? i3_min i)) eqn:RR.
    { apply orb_prop in RR as [RR|RR]; apply Z.ltb_lt in RR; lia. }
    rewrite getLP_enc by assumption.
    destruct (parseSignatures_spec sigs r) as (c & r1 & b & -> & X1 & Fb & Tb). cbn [obind].
    destruct b. 2:{ exfalso. eapply (proj2 (Fb eq_refl)). eassumption. }
    destruct (Tb eq_refl) as (Q1 & SL'). destruct (signature_list_det _ _ _ _ _ _ _ SL' SL) as (Ea & Eb & Es).
    cbn [negb]. rewrite getLP_enc by assumption.
    rewrite (parsePublicKey_ok E c pk sd r1 key) by (assumption || congruence). cbn [obind negb].
    rewrite Esd, !getLP_enc by assumption. unfold le32. rewrite read_i32_enc_id by apply I3. rewrite read_i32_enc_id by apply I4.
    rewrite Em, !Z.eqb_refl. cbn [negb].
    destruct (parseCertificates_spec E cs pk r1) as (r3 & m & -> & [(-> & _ & N)|(m' & o' & -> & CL' & _ & ->)]).
    { exfalso. apply N. eauto. }
    pose proof (cert_list_det _ _ _ _ CL' CL) as D. inversion D; subst m' o'; clear D.
    set (r5 := mkCore (certs r1 ++ [main :: others]) (signingLineage r1) (warnings r1) (errors r1)).
    assert (K' : has_kind (bestAlgo c) k) by congruence.
    assert (Ik : In (bestAlgo c) (signaturesAlgos c)) by (rewrite Ea, Eb; eapply signature_list_kind; eassumption).
    destruct (parseDigests_spec digs c cds r5 k K' Ik) as (cds1 & r4 & b & -> & [(-> & _ & N)|(-> & -> & d & DL' & _ & ->)]).
    { exfalso. apply N. eexists. rewrite Ea, Eb. split; eassumption. }
    rewrite Ea, Eb in DL'. rewrite (digest_list_det _ _ _ _ _ DL' DL) in *. cbn [obind negb]. rewrite getLP_enc by assumption.
    destruct AL as [-> Fal]. rewrite lpItems_enc.
    2:{ rewrite Forall_map. eapply Forall_impl; [|exact Fal]. now intros ? []. }
    destruct (v3Attributes_complete E cfg main Rot al) with (lin := @None lineage) (found := false) (r := r5) as (lin' & found' & r' & -> & LR & Q).
    { eapply Forall_impl; [|exact Fal]. now intros ? []. }
    { assumption. }
    cbn [obind negb].
    assert (lin' = mkLin (i3_lineage i)) as ->.
    { assert (exists ns, lin' = mkLin ns) as [ns ->].
      { apply lin_run_inv in LR as [[-> _]|(_ & _ & _ & ns & _ & _ & -> & _)]; [now exists [] | now exists ns]. }
      apply lin_run_rotation in LR. f_equal. eapply rotation_lineage_det; eassumption. }
    assert (Qf : quiet (mkCore (certs r ++ [main :: others]) (signingLineage r) (warnings r) (errors r)) r').
    { eapply quiet_trans; [|exact Q]. destruct Q1 as (w & ->). exists w. reflexivity. }
    unfold kept. rewrite Em.
    destruct (negb (rotationMin cfg =? 0) && negb found').
    - eexists. split; [reflexivity|]. split; [assumption|]. split; [reflexivity|]. eapply quiet_trans; [exact Qf | apply addWarning_quiet].
    - eexists. split; [reflexivity|]. split; [assumption|]. split; [reflexivity|]. exact Qf.
  Qed.
End Signer.
