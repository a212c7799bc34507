(** Without ties the source stamp result does not depend on map iteration order. *)
From Coq Require Import String.
From Coq Require Import Lia Permutation Sorted.
From Verif.Model Require Import Bytes ApiLevel Env Utils SigBlock Result Signer SchemeV2 SchemeV3 DataSource Digest Frosting SourceStamp Verify.
From Verif.Spec Require Import Encoding Algorithms Nondet ApkLayout Digests Entries Signer SignerV3 Stamp Verified Calls.
From Verif.Proofs Require Import BytesFacts UtilsFacts SignerFacts LineageFacts SigBlockFacts EntriesFacts VerifyFacts ApkFacts TotalFacts CallFacts CollectFacts SchedFacts StampFacts StampApkFacts.

Lemma strength_inj k k' : strength k = strength k' -> k = k'.
Proof. destruct k, k'; cbn; congruence. Qed.

Definition untied_keys (ks : list Z) : Prop :=
  forall a a' k m, In a ks -> In a' ks -> In (a, k, m) algorithm_table -> In (a', k, m) algorithm_table -> a = a'.

Lemma cand_eq sigs l l' maxSdk cand cand' : NoDup (map fst sigs) -> untied_keys (map fst sigs) ->
  Permutation l sigs -> Permutation l' sigs -> cand_ok l maxSdk cand -> cand_ok l' maxSdk cand' ->
  forall m a x, zget m cand = Some (a, x) -> zget m cand' = Some (a, x).
Proof.
  intros N U P P' (_ & C1 & C2) (_ & C1' & C2') m a x Z.
  destruct (C1 _ _ _ Z) as (I & (k & T) & Le).
  assert (I' : In (a, x) l') by (eapply Permutation_in; [symmetry; exact P'|]; eapply Permutation_in; [exact P|exact I]).
  destruct (C2' _ _ _ _ I' T Le) as (a' & x' & k' & Z' & T' & St). rewrite Z'. destruct (C1' _ _ _ Z') as (J' & _ & _).
  assert (J : In (a', x') l) by (eapply Permutation_in; [symmetry; exact P|]; eapply Permutation_in; [exact P'|exact J']).
  destruct (C2 _ _ _ _ J T' Le) as (a2 & x2 & k2 & Z2 & T2 & St2). assert (a2 = a /\ x2 = x) as [-> ->] by (rewrite Z in Z2; inversion Z2; auto).
  destruct (level_fun _ _ _ _ _ T T2) as [<- _]. assert (k = k') by (apply strength_inj; lia). subst k'.
  assert (Is : In (a, x) sigs) by (eapply Permutation_in; [exact P|exact I]). assert (Js : In (a', x') sigs) by (eapply Permutation_in; [exact P|exact J]).
  assert (a = a') by (eapply U; [apply (in_map fst) in Is; exact Is|apply (in_map fst) in Js; exact Js|exact T|exact T']). subst a'.
  f_equal. f_equal. apply in_mget in Is, Js; try assumption. congruence.
Qed.
Lemma min_le sigs l l' maxSdk mp mp' : Permutation l sigs -> Permutation l' sigs -> min_ok l maxSdk mp -> min_ok l' maxSdk mp' -> mp <= mp'.
Proof.
  intros P P' [M1 M2] [M1' M2'].
  assert (W : forall a x, In (a, x) l' -> In (a, x) l) by (intros a x I; eapply Permutation_in; [symmetry; exact P|]; eapply Permutation_in; [exact P'|exact I]).
  destruct M2' as [->|(a & x & I & Lv & Le)]; [|eapply M1; eauto].
  destruct M2 as [->|(a & x & I & (k & T) & Le)]; [lia|]. apply table_level in T. lia.
Qed.

Section TwoSched.
  Variables (E : env) (S S' : sched).
  Hypothesis HS : sched_ok S.
  Hypothesis HS' : sched_ok S'.

  Lemma verifyAll_eq key data l l' s b r b' r' : Permutation l l' ->
    stampVerifyAll E key data l s = Ret (b, r) -> stampVerifyAll E key data l' s = Ret (b', r') -> b = b' /\ r = r'.
  Proof.
    assert (W : forall l b r, stampVerifyAll E key data l s = Ret (b, r) ->
      (b = true /\ r = s /\ forall a x, In (a, x) l -> verifySignature E key a data x = Ret true) \/
      (b = false /\ r = stAddError s "failed to verify signature" /\ exists a x, In (a, x) l /\ verifySignature E key a data x = Ret false)).
    { clear l l' b r b' r'. induction l as [|[a x] l IH]; intros b r H; cbn [stampVerifyAll] in H.
      - inversion H; subst. left. split; [reflexivity|]. split; [reflexivity|]. intros ? ? [].
      - apply obind_ret in H as (v & V & H). destruct v.
        + apply IH in H as [(-> & -> & F)|(-> & -> & a' & x' & I & F)].
          * left. split; [reflexivity|]. split; [reflexivity|]. intros a' x' [Q|I]; [inversion Q; subst; assumption | auto].
          * right. split; [reflexivity|]. split; [reflexivity|]. exists a', x'. split; [now right | assumption].
        + inversion H; subst. right. split; [reflexivity|]. split; [reflexivity|]. exists a, x. split; [now left | assumption]. }
    intros P H H'. apply W in H as [(-> & -> & F)|(-> & -> & a & x & I & F)]; apply W in H' as [(-> & -> & F')|(-> & -> & a' & x' & I' & F')]; auto.
    - exfalso. rewrite F in F'; [discriminate|]. eapply Permutation_in; [symmetry; exact P | exact I'].
    - exfalso. rewrite F' in F; [discriminate|]. eapply Permutation_in; [exact P | exact I].
  Qed.

  Lemma filter_eq k minSdk maxSdk sigs s tv r tv' r' : NoDup (map fst sigs) -> Forall (fun x => supported (fst x)) sigs -> untied_keys (map fst sigs) ->
    filterSignaturesToVerify S k minSdk maxSdk sigs s = Ret (tv, r) -> filterSignaturesToVerify S' k minSdk maxSdk sigs s = Ret (tv', r') ->
    Permutation tv tv' /\ r = r'.
  Proof.
    intros N Su U H H'. unfold filterSignaturesToVerify in H, H'. apply obind_ret in H as ([cand mp] & C & H). apply obind_ret in H' as ([cand' mp'] & C' & H').
    pose proof (ord_perm S HS _ 10%nat k sigs) as P. pose proof (ord_perm S' HS' _ 10%nat k sigs) as P'.
    assert (C0 : forall l, cand_ok l maxSdk [] -> cand_ok l maxSdk []) by auto.
    destruct (stampCandidates_ok (ord S _ 10 k sigs) [] maxSdk [] max_int32 cand mp) as [Co Mo]; try assumption.
    { eapply Permutation_Forall; [symmetry; exact P | exact Su]. }
    { split; [constructor|]. split; [discriminate|]. intros ? ? ? ? []. }
    { split; [intros ? ? ? []|auto]. }
    destruct (stampCandidates_ok (ord S' _ 10 k sigs) [] maxSdk [] max_int32 cand' mp') as [Co' Mo']; try assumption.
    { eapply Permutation_Forall; [symmetry; exact P' | exact Su]. }
    { split; [constructor|]. split; [discriminate|]. intros ? ? ? ? []. }
    { split; [intros ? ? ? []|auto]. }
    cbn [app] in *. clear C C' C0.
    assert (mp = mp') by (pose proof (min_le _ _ _ _ _ _ P P' Mo Mo'); pose proof (min_le _ _ _ _ _ _ P' P Mo' Mo); lia). subst mp'.
    assert (Eq : forall m a x, zget m cand = Some (a, x) <-> zget m cand' = Some (a, x)).
    { intros m a x. split; [eapply cand_eq; [| |exact P|exact P'|exact Co|exact Co']; assumption | eapply cand_eq; [| |exact P'|exact P|exact Co'|exact Co]; assumption]. }
    assert (Em : cand = [] <-> cand' = []).
    { split; intros ->.
      - destruct cand' as [|[m [a x]] t]; [reflexivity|]. specialize (Eq m a x). cbn [zget] in Eq. rewrite Z.eqb_refl in Eq. discriminate (proj2 Eq eq_refl).
      - destruct cand as [|[m [a x]] t]; [reflexivity|]. specialize (Eq m a x). cbn [zget] in Eq. rewrite Z.eqb_refl in Eq. discriminate (proj1 Eq eq_refl). }
    assert (Fs : forall T sch l c, sched_ok sch -> Permutation l sigs -> cand_ok l maxSdk c ->
       T = fold_left (fun m kv => zset (fst (snd kv)) (snd (snd kv)) m) (ord sch _ 11 k c) [] ->
       NoDup (map fst T) /\ forall a x, In (a, x) T <-> exists m, zget m c = Some (a, x)).
    { intros T sch l c Hs Pl (Nc & C1 & _) ->. pose proof (ord_perm sch Hs _ 11%nat k c) as P11.
      assert (Nt : NoDup (map fst (fold_left (fun (m : list (Z * bytes)) (kv : Z * (Z * bytes)) => zset (fst (snd kv)) (snd (snd kv)) m) (ord sch _ 11 k c) []))) by (apply fold_zset_nodup; constructor).
      split; [assumption|]. intros a x. rewrite <- mget_iff by assumption.
      assert (Ic : forall m a x, In (m, (a, x)) (ord sch _ 11 k c) <-> zget m c = Some (a, x)).
      { intros m0 a0 x0. rewrite mget_iff by assumption. split; intro I; eapply Permutation_in; [exact P11|exact I|symmetry; exact P11|exact I]. }
      rewrite fold_zset_get.
      - setoid_rewrite Ic. cbn. split; [intros [X|X]; [discriminate|assumption] | auto].
      - intros [m1 [a1 x1]] [m2 [a2 x2]] I J Q. cbn in *. subst a2. apply Ic in I, J. apply C1 in I as [I _], J as [J _].
        apply (Permutation_in _ Pl) in I, J. apply in_mget in I, J; try assumption. congruence.
      - intros ? ? _ X. discriminate. }
    destruct cand as [|c0 cand0].
    { rewrite (proj1 Em eq_refl) in H'. inversion H; inversion H'; subst. split; [constructor | reflexivity]. }
    destruct cand' as [|c0' cand0']; [discriminate (proj2 Em eq_refl)|]. set (cand := c0 :: cand0) in *. set (cand' := c0' :: cand0') in *.
    destruct (minSdk <? mp); [inversion H; inversion H'; subst; split; [constructor | reflexivity]|].
    inversion H as [[T Rs]]. inversion H' as [[T' Rs']]. split; [|congruence]. rewrite T, T'.
    destruct (Fs tv S _ cand HS P Co (eq_sym T)) as [N1 I1]. destruct (Fs tv' S' _ cand' HS' P' Co' (eq_sym T')) as [N2 I2].
    apply NoDup_Permutation.
    - eapply NoDup_map_inv; exact N1.
    - eapply NoDup_map_inv; exact N2.
    - intros [a x]. rewrite I1, I2. split; intros (m & Z); exists m; apply Eq; assumption.
  Qed.

  Lemma stampSig_eq k minSdk maxSdk data c slice s b r b' r' : (forall rs, stamp_records slice rs -> untied rs) ->
    stampVerifySignature E S k minSdk maxSdk data c slice s = Ret (b, r) -> stampVerifySignature E S' k minSdk maxSdk data c slice s = Ret (b', r') -> b = b' /\ r = r'.
  Proof.
    intro U. unfold stampVerifySignature. destruct (lpItems slice) as [items ok] eqn:L. destruct (stampReadSigs items ok [] s) as [[m|] s1] eqn:R.
    2:{ intros H H'. inversion H; inversion H'; subst; auto. }
    destruct m as [|p m]; [intros H H'; inversion H; inversion H'; subst; auto|]. set (sigs := p :: m) in *.
    assert (Fi : Forall fits items).
    { destruct ok; [apply lpItems_inv in L as [_ F]; exact F|]. apply lpItems_false in L as (t & _ & F & _). exact F. }
    destruct (stampReadSigs_ok items Fi [] [] s sigs s1) with (ok := ok) as (rs & -> & -> & Fr & N & Hm & Fm); try assumption; [constructor | constructor| |].
    { intros a x. cbn. split; [discriminate|]. intros (_ & f & ([|] & ? & Q & _) & _); discriminate. }
    apply lpItems_inv in L as [-> _]. cbn [app] in Hm. specialize (U rs (conj eq_refl Fr)).
    assert (Io : forall a x, In (a, x) sigs -> offered rs a x) by (intros a x I; apply Hm; now apply in_mget).
    assert (Su : Forall (fun x => supported (fst x)) sigs) by (apply Forall_forall; intros [a x] I; apply Io in I; apply I).
    assert (Uk : untied_keys (map fst sigs)).
    { assert (Ik : forall a, In a (map fst sigs) -> In a (map fst rs)).
      { intros a I. apply in_map_iff in I as ([a' x] & <- & I). apply Io in I as (_ & f & (p1 & q & -> & _) & _). rewrite map_app. apply in_or_app. right. now left. }
      intros a a' kk mm I I'. apply U; auto. }
    intros H H'. apply obind_ret in H as ([tv s2] & F & H). apply obind_ret in H' as ([tv' s2'] & F' & H').
    destruct (filter_eq _ _ _ _ _ _ _ _ _ N Su Uk F F') as [P <-].
    destruct tv as [|t0 tv].
    { apply Permutation_nil in P. subst tv'. inversion H; inversion H'; subst. auto. }
    destruct tv' as [|t0' tv']; [symmetry in P; apply Permutation_nil in P; discriminate|].
    eapply verifyAll_eq; [|exact H|exact H']. etransitivity; [apply (ord_perm S HS)|]. etransitivity; [exact P|]. symmetry. apply (ord_perm S' HS').
  Qed.

  Theorem stamp_eq scheme minSdk maxSdk z block (cds : digests) r r' : NoDup (map fst cds) ->
    (forall b, block = Some b -> untied_stamp b) ->
    verifySourceV2Stamp E S scheme minSdk maxSdk z block cds = Ret r -> verifySourceV2Stamp E S' scheme minSdk maxSdk z block cds = Ret r' -> r = r'.
  Proof.
    intros N U H H'. unfold verifySourceV2Stamp in H, H'.
    destruct block as [b|]; [|destruct (sget _ _); congruence]. specialize (U b eq_refl).
    destruct (getLengthPrefixedSlice b) as [[sb j]|] eqn:G1; [|congruence].
    destruct (getLengthPrefixedSlice sb) as [[enc sb1]|] eqn:G2; [|congruence].
    destruct (e_cert_andr E enc) as [c|] eqn:Hc; [|congruence].
    destruct (sget sourceStampZipEntryName (z_map z)) as [entry|]; [|congruence].
    assert (exists cds1 s1, match cds with
                       | [] => let '(d, s) := getSchemeV1ContentDigest E z (mkStamp (Some c) None [] [] []) in ([(digestNonChunkedSha256, d)], s)
                       | _ => (cds, mkStamp (Some c) None [] [] [])
                       end = (cds1, s1) /\ NoDup (map fst cds1)) as (cds1 & s1 & Q & N1).
    { destruct cds as [|p cds]; [|eexists _, _; split; [reflexivity | assumption]]. destruct (getSchemeV1ContentDigest _ _ _) as [d s]. eexists _, _. split; [reflexivity|]. repeat constructor. intros []. }
    cbv zeta in H, H'. rewrite Q in H, H'. clear Q. cbv beta iota in H, H'.
    destruct (zf_readall entry sourceStampHashSizeLimit) as [hash|]; [|congruence].
    destruct (sourceStampHashSizeLimit <=? zlen hash); [congruence|].
    destruct (negb (bytes_eqb (e_hash E HSha256 (c_raw c)) hash)); [congruence|].
    destruct (getLengthPrefixedSlice sb1) as [[schemes sb2]|] eqn:G3; [|congruence].
    apply getLP_inv in G1 as [-> Fb], G2 as [-> Fe], G3 as [-> Fs].
    set (b := lp (lp enc ++ lp schemes ++ sb2) ++ j) in *. assert (Lay : stamp_layout b enc schemes sb2) by (exists (lp enc ++ lp schemes ++ sb2), j; auto).
    destruct (U _ _ _ Lay) as [U1 U2].
    set (needed := if scheme =? schemeIdV31 then schemeIdV3 else scheme) in H, H'. change needed with (stamp_scheme scheme) in H, H'. clear needed.
    destruct (lpItems schemes) as [items ok] eqn:L. destruct (stampSchemes items ok (stamp_scheme scheme) None s1) as [found s2] eqn:Sc.
    destruct found as [[sigs|]|]; [|congruence|congruence].
    assert (Sg : scheme_signatures schemes scheme sigs).
    { assert (Fi : Forall fits items).
      { destruct ok; [apply lpItems_inv in L as [_ F]; exact F|]. apply lpItems_false in L as (t & _ & F & _). exact F. }
      apply (stampSchemes_ok items (stamp_scheme scheme) Fi ok []) in Sc as (rs & -> & -> & -> & Fr & Hr).
      2:{ intro x. split; [discriminate|]. intros (f & ([|] & ? & X & _) & _); discriminate. }
      apply lpItems_inv in L as [-> _]. cbn [app] in Hr. destruct (proj1 (Hr sigs) eq_refl) as (f & Lf & Hf). exists rs, f. auto. }
    assert (M : getSignatureSchemeDigest S (ord S _ 13 0 cds1) = getSignatureSchemeDigest S' (ord S' _ 13 0 cds1)).
    { eapply message_fun; [exact N1|reflexivity| |]; apply message_spec; try assumption; [apply (ord_perm S HS)|apply (ord_perm S' HS')]. }
    rewrite <- M in H'. apply obind_ret in H as ([good s3] & V & H). apply obind_ret in H' as ([good' s3'] & V' & H').
    destruct (stampSig_eq _ _ _ _ _ _ _ _ _ _ _ (fun rs => U1 _ _ rs Sg) V V') as [<- <-].
    destruct (negb good); [congruence|]. destruct sb2 as [|x0 sb2]; [congruence|]. set (sb3 := x0 :: sb2) in *.
    destruct (getLengthPrefixedSlice sb3) as [[attrs sb4]|] eqn:G4; [|congruence].
    destruct (getLengthPrefixedSlice sb4) as [[asigs j2]|] eqn:G5; [|congruence].
    apply getLP_inv in G4 as [E4 Fa], G5 as [-> Fas]. assert (La : stamp_attributes_layout sb3 attrs asigs) by (exists j2; auto).
    apply obind_ret in H as ([good2 s4] & V2 & H). apply obind_ret in H' as ([good2' s4'] & V2' & H').
    destruct (stampSig_eq _ _ _ _ _ _ _ _ _ _ _ (fun rs => U2 _ _ rs La) V2 V2') as [<- <-].
    destruct (negb good2); [congruence|]. congruence.
  Qed.
End TwoSched.

(** Digests and certificates found by the parsers do not depend on the errors and warnings collected before. *)
Section Rel.
  Variable E : env.
  Definition rel (r r' : core) : Prop := certs r = certs r'.
  Lemma rel_err r r' m : rel r r' -> rel (addError r m) (addError r' m).
  Proof. exact (fun H => H). Qed.
  Lemma rel_warn r r' m : rel r r' -> rel (addWarning r m) (addWarning r' m).
  Proof. exact (fun H => H). Qed.
  Ltac fin H H' := inversion H; inversion H'; subst; auto using rel_err, rel_warn.

  Lemma nd0 : NoDup (map fst ([] : digests)).
  Proof. constructor. Qed.
  Lemma psl_rel items ok : forall c r r' c1 r1 g c1' r1' g', rel r r' ->
    parseSignaturesLoop items ok c r = Ret (c1, r1, g) -> parseSignaturesLoop items ok c r' = Ret (c1', r1', g') -> c1 = c1' /\ g = g' /\ rel r1 r1'.
  Proof.
    induction items as [|b items IH]; intros c r r' c1 r1 g c1' r1' g' R H H'; cbn [parseSignaturesLoop] in H, H'.
    - destruct ok; fin H H'.
    - destruct (zlen b <? 8); [fin H H'|]. destruct (read_i32 b) as [[a s]|]; [|fin H H'].
      destruct (negb (isSupported a)); [eapply IH; [|exact H|exact H']; exact R|].
      apply obind_ret in H as (bt & Bt & H). apply obind_ret in H' as (bt' & Bt' & H'). rewrite Bt in Bt'. inversion Bt'; subst bt'.
      destruct bt; [|eapply IH; [|exact H|exact H']; exact R]. destruct (getLengthPrefixedSlice s) as [[x j]|]; [|fin H H']. eapply IH; [|exact H|exact H']; exact R.
  Qed.
  Lemma ps_rel sl r r' c1 r1 g c1' r1' g' : rel r r' -> parseSignatures sl r = Ret (c1, r1, g) -> parseSignatures sl r' = Ret (c1', r1', g') -> c1 = c1' /\ g = g' /\ rel r1 r1'.
  Proof.
    unfold parseSignatures. destruct (lpItems sl) as [items ok]. intros R H H'. apply obind_ret in H as ([[c r2] gd] & L & H). apply obind_ret in H' as ([[c' r2'] gd'] & L' & H').
    destruct (psl_rel _ _ _ _ _ _ _ _ _ _ _ R L L') as (<- & <- & R2). destruct (negb gd); [fin H H'|]. destruct (bestAlgo c =? -1); fin H H'.
  Qed.
  Lemma ppk_rel c pk sd r r' r1 g r1' g' : rel r r' -> parsePublicKey E c pk sd r = Ret (r1, g) -> parsePublicKey E c pk sd r' = Ret (r1', g') -> g = g' /\ rel r1 r1'.
  Proof.
    unfold parsePublicKey. destruct (e_pkix_andr E pk); [|intros R H H'; fin H H']. intros R H H'. apply obind_ret in H as (v & V & H). apply obind_ret in H' as (v' & V' & H').
    rewrite V in V'. inversion V'; subst v'. destruct v; fin H H'.
  Qed.
  Lemma pcl_rel items ok : forall ch r r', rel r r' -> let '(c1, r1, g) := parseCertificatesLoop E items ok ch r in let '(c1', r1', g') := parseCertificatesLoop E items ok ch r' in
    c1 = c1' /\ g = g' /\ rel r1 r1'.
  Proof.
    induction items as [|b items IH]; intros ch r r' R; cbn [parseCertificatesLoop]; [destruct ok; auto|].
    destruct (e_cert_andr E b) as [x|]; [|auto]. unfold certAppend. destruct ch as [|c0 ch]; (apply IH; unfold rel; cbn [certs]; f_equal; [try (f_equal; exact R); exact R]).
  Qed.
  Lemma pc_rel cs pk r r' r1 m r1' m' : rel r r' -> parseCertificates E cs pk r = (r1, m) -> parseCertificates E cs pk r' = (r1', m') -> m = m' /\ rel r1 r1'.
  Proof.
    unfold parseCertificates. destruct (lpItems cs) as [items ok]. intro R. pose proof (pcl_rel items ok [] r r' R) as Q.
    destruct (parseCertificatesLoop E items ok [] r) as [[c2 r2] g2], (parseCertificatesLoop E items ok [] r') as [[c2' r2'] g2']. destruct Q as (<- & <- & R2).
    intros H H'. destruct (negb g2); [fin H H'|]. destruct c2; [fin H H'|]. destruct (bytes_eqb _ _); fin H H'.
  Qed.
  Lemma pdl_rel items ok best : forall cd al r r', rel r r' -> let '(a, b, r1, g) := parseDigestsLoop items ok best cd al r in let '(a', b', r1', g') := parseDigestsLoop items ok best cd al r' in
    a = a' /\ b = b' /\ g = g' /\ rel r1 r1'.
  Proof.
    induction items as [|b items IH]; intros cd al r r' R; cbn [parseDigestsLoop]; [destruct ok; auto|].
    destruct (zlen b <? 8); [auto|]. destruct (read_i32 b) as [[a s]|]; [|auto]. destruct (a =? best); [|now apply IH]. destruct (getLengthPrefixedSlice s) as [[x j]|]; [now apply IH | auto].
  Qed.
  Lemma pd_rel sl c cds r r' d r1 g d' r1' g' : rel r r' -> NoDup (map fst cds) -> parseDigests sl c cds r = Ret (d, r1, g) -> parseDigests sl c cds r' = Ret (d', r1', g') -> d = d' /\ g = g' /\ rel r1 r1' /\ NoDup (map fst d).
  Proof.
    unfold parseDigests. destruct (lpItems sl) as [items ok]. intros R N. pose proof (pdl_rel items ok (bestAlgo c) None [] r r' R) as Q.
    destruct (parseDigestsLoop items ok (bestAlgo c) None [] r) as [[[a b] r2] g2], (parseDigestsLoop items ok (bestAlgo c) None [] r') as [[[a' b'] r2'] g2'].
    destruct Q as (<- & <- & <- & R2). intros H H'. destruct (negb g2); [fin H H'|]. destruct (negb (zlist_eqb _ _)); [fin H H'|].
    apply obind_ret in H as (t & T & H). apply obind_ret in H' as (t' & T' & H'). rewrite T in T'. inversion T'; subst t'.
    destruct (zget t cds) as [p|]; [destruct (bytes_eqb _ _)|]; inversion H; inversion H'; subst; repeat (split; [now auto using rel_err|]); now apply mset_nodup_keys.
  Qed.
  Lemma va2_rel items ok maxSdk ex : forall r r', rel r r' -> rel (v2Attributes items ok maxSdk ex r) (v2Attributes items ok maxSdk ex r').
  Proof.
    induction items as [|b items IH]; intros r r' R; cbn [v2Attributes]; [destruct ok; auto|].
    destruct (read_u32 b) as [[id s]|]; [|auto]. destruct (id =? _); [|now apply IH]. destruct (negb _); [now apply IH|]. destruct (read_i32 s) as [[x j]|]; [|auto].
    destruct (schemeIdToBlockId x); [|now apply IH]. destruct (zget _ _); [now apply IH | auto].
  Qed.
  Lemma vs2_rel maxSdk ex b cds r r' d r1 d' r1' : rel r r' -> NoDup (map fst cds) -> v2VerifySigner E maxSdk ex b cds r = Ret (d, r1) -> v2VerifySigner E maxSdk ex b cds r' = Ret (d', r1') -> d = d' /\ rel r1 r1' /\ NoDup (map fst d).
  Proof.
    intros R N H H'. unfold v2VerifySigner in H, H'.
    destruct (getLengthPrefixedSlice b) as [[sd b1]|]; [|fin H H']. destruct (getLengthPrefixedSlice b1) as [[ss b2]|]; [|fin H H'].
    apply obind_ret in H as ([[c r2] g] & P & H). apply obind_ret in H' as ([[c' r2'] g'] & P' & H'). destruct (ps_rel _ _ _ _ _ _ _ _ _ R P P') as (<- & <- & R2).
    destruct (negb g); [fin H H'|]. destruct (getLengthPrefixedSlice b2) as [[pk ?]|]; [|fin H H'].
    apply obind_ret in H as ([r3 g3] & K & H). apply obind_ret in H' as ([r3' g3'] & K' & H'). destruct (ppk_rel _ _ _ _ _ _ _ _ _ R2 K K') as (<- & R3).
    destruct (negb g3); [fin H H'|]. destruct (getLengthPrefixedSlice sd) as [[ds sd1]|]; [|fin H H']. destruct (getLengthPrefixedSlice sd1) as [[cs sd2]|]; [|fin H H'].
    destruct (parseCertificates E cs pk r3) as [r4 m] eqn:C, (parseCertificates E cs pk r3') as [r4' m'] eqn:C'. destruct (pc_rel _ _ _ _ _ _ _ _ R3 C C') as (<- & R4).
    destruct m; [|fin H H']. apply obind_ret in H as ([[d5 r5] g5] & D & H). apply obind_ret in H' as ([[d5' r5'] g5'] & D' & H'). destruct (pd_rel _ _ _ _ _ _ _ _ _ _ _ R4 N D D') as (<- & <- & R5 & N5).
    destruct (negb g5); [fin H H'|]. destruct (getLengthPrefixedSlice sd2) as [[at' ?]|]; [|fin H H']. destruct (lpItems at') as [items ok].
    inversion H; inversion H'; subst. split; [reflexivity|]. split; [now apply va2_rel | assumption].
  Qed.
  Lemma v2s_rel maxSdk ex items ok : forall cds r r' d r1 g d' r1' g', rel r r' -> NoDup (map fst cds) -> v2Signers E maxSdk ex items ok cds r = Ret (d, r1, g) -> v2Signers E maxSdk ex items ok cds r' = Ret (d', r1', g') -> d = d' /\ g = g' /\ rel r1 r1' /\ NoDup (map fst d).
  Proof.
    induction items as [|b items IH]; intros cds r r' d r1 g d' r1' g' R N H H'; cbn [v2Signers] in H, H'.
    - destruct ok; fin H H'.
    - apply obind_ret in H as ([d2 r2] & V & H). apply obind_ret in H' as ([d2' r2'] & V' & H'). destruct (vs2_rel _ _ _ _ _ _ _ _ _ _ R N V V') as (<- & R2 & N2). eapply IH; [| |exact H|exact H']; assumption.
  Qed.
  Lemma v2p_rel maxSdk ex b cds r r' d r1 d' r1' : rel r r' -> NoDup (map fst cds) -> v2ParseSigners E maxSdk ex b cds r = Ret (d, r1) -> v2ParseSigners E maxSdk ex b cds r' = Ret (d', r1') -> d = d' /\ rel r1 r1' /\ NoDup (map fst d).
  Proof.
    intros R N H H'. unfold v2ParseSigners in H, H'. destruct (getLengthPrefixedSlice b) as [[ss ?]|]; [|fin H H']. destruct (lpItems ss) as [items ok].
    apply obind_ret in H as ([[d2 r2] g] & V & H). apply obind_ret in H' as ([[d2' r2'] g'] & V' & H'). destruct (v2s_rel _ _ _ _ _ _ _ _ _ _ _ _ _ R N V V') as (<- & <- & R2 & N2).
    destruct (negb g); [fin H H'|]. rewrite <- R2 in H'. destruct (_ <? _); fin H H'.
  Qed.

  Lemma va3_rel cfg mc items ok : forall lin f r r' l1 f1 r1 g1 l1' f1' r1' g1', rel r r' ->
    v3Attributes E cfg mc items ok lin f r = Ret (l1, f1, r1, g1) -> v3Attributes E cfg mc items ok lin f r' = Ret (l1', f1', r1', g1') -> l1 = l1' /\ f1 = f1' /\ g1 = g1' /\ rel r1 r1'.
  Proof.
    induction items as [|b items IH]; intros lin f r r' l1 f1 r1 g1 l1' f1' r1' g1' R H H'; cbn [v3Attributes] in H, H'.
    - destruct ok; fin H H'.
    - destruct (read_u32 b) as [[id s]|]; [|fin H H']. destruct (id =? _).
      + apply obind_ret in H as (ns & L & H). apply obind_ret in H' as (ns' & L' & H'). rewrite L in L'. inversion L'; subst ns'.
        destruct ns as [[|n ns]|]; [eapply IH; [|exact H|exact H']; exact R| |fin H H'].
        destruct (subLineageLen (n :: ns) mc); [|eapply IH; [|exact H|exact H']; exact R]. eapply IH; [|exact H|exact H']. destruct (_ =? _); exact R.
      + destruct (id =? _).
        * destruct (SupportsSigV31 _); [|eapply IH; [|exact H|exact H']; exact R]. destruct (read_i32 s) as [[x j]|]; [|fin H H'].
          eapply IH; [|exact H|exact H']. destruct (negb _); [destruct (negb _)|]; exact R.
        * destruct (id =? _); (eapply IH; [|exact H|exact H']); [destruct (actingAsV31 cfg); exact R | exact R].
  Qed.
  Lemma vs3_rel cfg b cds r r' i d r1 i' d' r1' : rel r r' -> NoDup (map fst cds) -> v3VerifySigner E cfg b cds r = Ret (i, d, r1) -> v3VerifySigner E cfg b cds r' = Ret (i', d', r1') -> i = i' /\ d = d' /\ rel r1 r1' /\ NoDup (map fst d).
  Proof.
    intros R N H H'. unfold v3VerifySigner in H, H'.
    destruct (getLengthPrefixedSlice b) as [[sd b1]|]; [|fin H H']. destruct (read_i32 b1) as [[mn b2]|]; [|fin H H']. destruct (read_i32 b2) as [[mx b3]|]; [|fin H H'].
    cbv zeta in H, H'.
    set (r0 := if (mn <? 1) || (mx <? mn) then addError r "invalid min/max sdk versions" else r) in *. set (r0' := if (mn <? 1) || (mx <? mn) then addError r' "invalid min/max sdk versions" else r') in *.
    assert (R0 : rel r0 r0') by (unfold r0, r0'; destruct (_ || _); exact R). clearbody r0 r0'.
    destruct (getLengthPrefixedSlice b3) as [[ss b4]|]; [|fin H H'].
    apply obind_ret in H as ([[c r2] g] & P & H). apply obind_ret in H' as ([[c' r2'] g'] & P' & H'). destruct (ps_rel _ _ _ _ _ _ _ _ _ R0 P P') as (<- & <- & R2).
    destruct (negb g); [fin H H'|]. destruct (getLengthPrefixedSlice b4) as [[pk ?]|]; [|fin H H'].
    apply obind_ret in H as ([r3 g3] & K & H). apply obind_ret in H' as ([r3' g3'] & K' & H'). destruct (ppk_rel _ _ _ _ _ _ _ _ _ R2 K K') as (<- & R3).
    destruct (negb g3); [fin H H'|]. destruct (getLengthPrefixedSlice sd) as [[ds sd1]|]; [|fin H H']. destruct (getLengthPrefixedSlice sd1) as [[cs sd2]|]; [|fin H H'].
    destruct (read_i32 sd2) as [[smn sd3]|]; [|fin H H']. destruct (read_i32 sd3) as [[smx sd4]|]; [|fin H H'].
    match type of H with context [parseCertificates E cs pk ?x] => remember x as q eqn:Eq end. match type of H' with context [parseCertificates E cs pk ?x] => remember x as q' eqn:Eq' end.
    assert (Rq : rel q q') by (subst q q'; destruct (negb (mx =? mx)), (negb (mn =? smn)); exact R3). clear Eq Eq'.
    destruct (parseCertificates E cs pk q) as [r4 m] eqn:C, (parseCertificates E cs pk q') as [r4' m'] eqn:C'. destruct (pc_rel _ _ _ _ _ _ _ _ Rq C C') as (<- & R4).
    destruct m as [mc|]; [|fin H H']. apply obind_ret in H as ([[d5 r5] g5] & D & H). apply obind_ret in H' as ([[d5' r5'] g5'] & D' & H'). destruct (pd_rel _ _ _ _ _ _ _ _ _ _ _ R4 N D D') as (<- & <- & R5 & N5).
    destruct (negb g5); [fin H H'|]. destruct (getLengthPrefixedSlice sd4) as [[at' ?]|]; [|fin H H']. destruct (lpItems at') as [items ok].
    apply obind_ret in H as ([[[l6 f6] r6] g6] & A & H). apply obind_ret in H' as ([[[l6' f6'] r6'] g6'] & A' & H'). destruct (va3_rel _ _ _ _ _ _ _ _ _ _ _ _ _ _ _ _ R5 A A') as (<- & <- & <- & R6).
    destruct (negb g6); [fin H H'|]. destruct (_ && _); fin H H'.
  Qed.
  Lemma v3s_rel cfg items ok : forall sg cds r r' s d r1 s' d' r1', rel r r' -> NoDup (map fst cds) -> v3Signers E cfg items ok sg cds r = Ret (s, d, r1) -> v3Signers E cfg items ok sg cds r' = Ret (s', d', r1') -> s = s' /\ d = d' /\ rel r1 r1' /\ NoDup (map fst d).
  Proof.
    induction items as [|b items IH]; intros sg cds r r' s d r1 s' d' r1' R N H H'; cbn [v3Signers] in H, H'.
    - inversion H; inversion H'; subst. destruct ok; auto.
    - apply obind_ret in H as ([[i2 d2] r2] & V & H). apply obind_ret in H' as ([[i2' d2'] r2'] & V' & H'). destruct (vs3_rel _ _ _ _ _ _ _ _ _ _ _ R N V V') as (<- & <- & R2 & N2). eapply IH; [| |exact H|exact H']; assumption.
  Qed.
  Lemma v3p_rel cfg b cds r r' s d r1 s' d' r1' : rel r r' -> NoDup (map fst cds) -> v3ParseSigners E cfg b cds r = Ret (s, d, r1) -> v3ParseSigners E cfg b cds r' = Ret (s', d', r1') -> s = s' /\ d = d' /\ rel r1 r1' /\ NoDup (map fst d).
  Proof.
    intros R N H H'. unfold v3ParseSigners in H, H'. destruct (getLengthPrefixedSlice b) as [[ss ?]|]; [|fin H H']. destruct (lpItems ss) as [items ok]. eapply v3s_rel; [| |exact H|exact H']; assumption.
  Qed.
  Lemma extract_rel id maxSdk b r r' st d r1 st' d' r1' : rel (v_core r) (v_core r') -> v_extraBlocks r = v_extraBlocks r' ->
    extractCertsScheme E id maxSdk b r = Ret (st, d, r1) -> extractCertsScheme E id maxSdk b r' = Ret (st', d', r1') -> d = d' /\ rel (v_core r1) (v_core r1') /\ NoDup (map fst d).
  Proof.
    intros R X H H'. unfold extractCertsScheme in H, H'. destruct (id =? schemeIdV31); [|destruct (id =? schemeIdV3)].
    - apply obind_ret in H as ([[[s2 d2] c2] x2] & P & H). apply obind_ret in H' as ([[[s2' d2'] c2'] x2'] & P' & H'). inversion H; inversion H'; subst. cbn [v_core]. clear H H'.
      unfold v31ParseSigners in P, P'. rewrite <- X in P'. apply obind_ret in P as ([[s3 d3] c3] & V & P). apply obind_ret in P' as ([[s3' d3'] c3'] & V' & P').
      destruct (v3p_rel _ _ _ _ _ _ _ _ _ _ _ R nd0 V V') as (<- & <- & R3 & N3). cbv zeta in P, P'. destruct (zget blockIdSchemeV3 (v_extraBlocks r)) as [b3|].
      + apply obind_ret in P as ([[s4 d4] c4] & V4 & P). apply obind_ret in P' as ([[s4' d4'] c4'] & V4' & P'). rewrite V4 in V4'. inversion V4'; subst s4' d4' c4'.
        inversion P; inversion P'; subst. split; [reflexivity|]. split; [assumption|]. destruct (v3p_rel _ _ _ _ _ _ _ _ _ _ _ (eq_refl (certs core0) : rel core0 core0) nd0 V4 V4) as (_ & _ & _ & N4). exact N4.
      + inversion P; inversion P'; subst. split; [reflexivity|]. split; [assumption|]. assert (G : forall m : list (Z * bytes), NoDup (map fst m) -> NoDup (map fst (fold_left (fun m kv => zset (fst kv) (snd kv) m) d3 m))).
        { clear. induction d3 as [|[k v] t IH]; intros m Nm; cbn [fold_left]; [assumption|]. apply IH. now apply mset_nodup_keys. }
        apply G. constructor.
    - apply obind_ret in H as ([[s2 d2] c2] & P & H). apply obind_ret in H' as ([[s2' d2'] c2'] & P' & H'). inversion H; inversion H'; subst.
      destruct (v3p_rel _ _ _ _ _ _ _ _ _ _ _ R nd0 P P') as (_ & Q & R3 & N3). auto.
    - apply obind_ret in H as ([d2 c2] & P & H). apply obind_ret in H' as ([d2' c2'] & P' & H'). inversion H; inversion H'; subst. rewrite <- X in P'.
      destruct (v2p_rel _ _ _ _ _ _ _ _ _ _ R nd0 P P') as (Q & R3 & N3). auto.
  Qed.
  Lemma verify_rel S S' k file s id b minSdk maxSdk r r' d r1 d' r1' : rel (v_core r) (v_core r') -> v_extraBlocks r = v_extraBlocks r' ->
    verifyScheme E S k file s id b minSdk maxSdk r = Ret (d, r1) -> verifyScheme E S' k file s id b minSdk maxSdk r' = Ret (d', r1') -> d = d' /\ NoDup (map fst d).
  Proof.
    intros R X H H'. unfold verifyScheme in H, H'. apply obind_ret in H as ([[st cds0] r2] & Ex & H). apply obind_ret in H' as ([[st' cds0'] r2'] & Ex' & H').
    destruct (extract_rel _ _ _ _ _ _ _ _ _ _ _ R X Ex Ex') as (<- & R2 & N). unfold rel in R2. rewrite <- R2 in H'.
    destruct (certs (v_core r2)); [inversion H; inversion H'; subst; split; [reflexivity | constructor]|].
    destruct cds0 as [|p cds0]; [inversion H; inversion H'; subst; split; [reflexivity | constructor]|].
    assert (G : forall Sx c good dd rr st0 (rx : vresult), (if negb good then Ret (p :: cds0, withCore rx c) else res3 <- finalizeScheme Sx st0 minSdk maxSdk (withCore rx c) ;; Ret (p :: cds0, res3)) = Ret (dd, rr) -> dd = p :: cds0).
    { intros Sx c good dd rr st0 rx Q. destruct (negb good); [inversion Q; reflexivity|]. apply obind_ret in Q as (? & _ & Q). now inversion Q. }
    apply obind_ret in H as ([c good] & _ & H). apply obind_ret in H' as ([c' good'] & _ & H'). apply G in H, H'. subst. auto.
  Qed.
  Lemma pick_rel S S' k file s bl minSdk maxSdk r r' d r1 d' r1' : rel (v_core r) (v_core r') -> v_extraBlocks r = v_extraBlocks r' ->
    pickAndVerify E S k file s bl minSdk maxSdk r = Ret (d, r1) -> pickAndVerify E S' k file s bl minSdk maxSdk r' = Ret (d', r1') -> d = d' /\ NoDup (map fst d) /\ v_schemeId r1 = v_schemeId r1'.
  Proof.
    intros R X H H'. unfold pickAndVerify in H, H'. destruct (negb _); [inversion H; inversion H'; subst; split; [reflexivity|split; [constructor|reflexivity]]|].
    destruct (pickScheme bl) as [id [b|]]; [|inversion H; inversion H'; subst; split; [reflexivity|split; [constructor|reflexivity]]].
    pose proof (verifyScheme_frame _ _ _ _ _ _ _ _ _ _ _ _ H) as (Fi & _). pose proof (verifyScheme_frame _ _ _ _ _ _ _ _ _ _ _ _ H') as (Fi' & _).
    apply (verify_rel S S' k file s id b minSdk maxSdk (setScheme r id) (setScheme r' id) d r1 d' r1') in H as [Q N]; [|exact R|exact X|exact H']. split; [assumption|]. split; [assumption|]. cbn in Fi, Fi'. congruence.
  Qed.
End Rel.

Section WholeSched.
  Variable E : env.
  Hypothesis HE : hash_sizes_ok E.

  (** first pass: errors under both schedules or under none *)
  Lemma first_errors S S' file es sections minSdk maxSdk before pairs cd rec st res cds res1 cds' res1' : sched_ok S -> sched_ok S' ->
    apk file before pairs cd rec -> protected before cd rec sections -> entries_inv maxSdk es st -> quiet core0 (v_core res) -> v_extraBlocks res = v_extraBlocks (en_res st) ->
    pickAndVerify E S 0 file (sblock_of before pairs cd rec) (en_blocks st) minSdk maxSdk res = Ret (cds, res1) ->
    pickAndVerify E S' 0 file (sblock_of before pairs cd rec) (en_blocks st) minSdk maxSdk res = Ret (cds', res1') ->
    errors (v_core res1) = [] -> errors (v_core res1') = [].
  Proof.
    intros HS HS' A P [Ib Ie [Nb Ne] Ic Ir] Rc Fx Pv Pv' Er.
    destruct (Z_lt_le_dec maxSdk 24) as [M|M].
    { rewrite run_old in Pv' by assumption. inversion Pv'; subst. pose proof (fresh_core _ Rc) as (_ & _ & X). exact X. }
    destruct (in_cases maxSdk es) as ([I31|I31] & [I3|I3] & [I2|I2]).
    1-4: apply (first_31 E S file before pairs cd rec sections es minSdk maxSdk HE HS A P (en_blocks st) Ib _ Ie res Rc Fx) in Pv as (_ & Sd & _); [|assumption];
         apply (first_31 E S' file before pairs cd rec sections es minSdk maxSdk HE HS' A P (en_blocks st) Ib _ Ie res Rc Fx) in Pv' as (_ & _ & Cm); [|assumption];
         destruct (Sd Er) as (is31 & is3 & V & _); eapply Cm; exact V.
    1-2: apply (first_3 E S file before pairs cd rec sections es minSdk maxSdk HE HS A P (en_blocks st) Ib _ Ie res Rc Fx) in Pv as (_ & Sd & _); [|assumption|assumption];
         apply (first_3 E S' file before pairs cd rec sections es minSdk maxSdk HE HS' A P (en_blocks st) Ib _ Ie res Rc Fx) in Pv' as (_ & _ & Cm); [|assumption|assumption];
         destruct (Sd Er) as (is & V & _); eapply Cm; exact V.
    - apply (first_2 E S file before pairs cd rec sections es minSdk maxSdk HE HS A P (en_blocks st) Ib _ Ie res Rc Fx) in Pv as (_ & Sd & _); [|assumption|assumption|assumption].
      apply (first_2 E S' file before pairs cd rec sections es minSdk maxSdk HE HS' A P (en_blocks st) Ib _ Ie res Rc Fx) in Pv' as (_ & _ & Cm); [|assumption|assumption|assumption].
      destruct (Sd Er) as (is & V & _). eapply Cm; exact V.
    - apply (first_1 E S file before pairs cd rec es minSdk maxSdk (en_blocks st) Ib _ Ie res Rc Fx) in Pv as (_ & X); try assumption. congruence.
  Qed.

  Lemma fallback_rel S S' file s bl minSdk maxSdk cds res cds' res' d r d' r' :
    (errors (v_core res) = [] <-> errors (v_core res') = []) -> rel (v_core res) (v_core res') -> v_extraBlocks res = v_extraBlocks res' -> v_schemeId res = v_schemeId res' ->
    cds = cds' -> NoDup (map fst cds) ->
    fallback E S file s bl minSdk maxSdk cds res = Ret (d, r) -> fallback E S' file s bl minSdk maxSdk cds' res' = Ret (d', r') -> d = d' /\ NoDup (map fst d) /\ v_schemeId r = v_schemeId r'.
  Proof.
    intros Er R X Sc <- N H H'. unfold fallback in H, H'. assert (Q : containsErrors (v_core res) = containsErrors (v_core res')).
    { unfold containsErrors. destruct (errors (v_core res)), (errors (v_core res')); try reflexivity; [discriminate (proj1 Er eq_refl) | discriminate (proj2 Er eq_refl)]. }
    rewrite <- Q, <- Sc, <- X in H'. destruct (_ && _) in H, H'; [|inversion H; inversion H'; subst; auto].
    eapply pick_rel; [| |exact H|exact H']; [exact R | reflexivity].
  Qed.

  Theorem stamp_sched S S' file minSdk maxSdk z res err res' err' : sched_ok S -> sched_ok S' ->
    returns E S file minSdk maxSdk z res err -> returns E S' file minSdk maxSdk z res' err' ->
    (forall es sections b, apk_with file es sections -> last_entry es id_stamp b -> untied_stamp b) ->
    v_sourceStamp res = v_sourceStamp res'.
  Proof.
    intros HS HS' (vr & H & Rs & _) (vr' & H' & Rs' & _) U. revert H H'.
    unfold verifySigningBlock. destruct (newSigningBlock file) as [magic|]; [|intros H H'; inversion H; subst; discriminate].
    intros H H'. apply obind_ret in H as (fr & Fi & H). rewrite Fi in H'. cbn [obind] in H'.
    destruct fr as [st s|st s].
    { apply obind_ret in H as (r0 & Fr & H). rewrite Fr in H'. cbn [obind] in H'. inversion H; inversion H'; subst. cbn in Rs, Rs'. congruence. }
    apply findSignatureBlocks_ok in Fi as (before & pairs & cd & rec & es & A & -> & En & Inv & _).
    destruct (protected_exists _ _ _ _ _ A) as (sections & P).
    apply obind_ret in H as (r0 & Fr & H). rewrite Fr in H'. cbn [obind] in H'. apply applyFrosting_frame in Fr as (Fc & Fx & _).
    apply obind_ret in H as ([cds res1] & Pv & H). apply obind_ret in H as ([cds2 res2] & Fb & H). apply obind_ret in H as (stamp & St & H).
    apply obind_ret in H' as ([cds' res1'] & Pv' & H'). apply obind_ret in H' as ([cds2' res2'] & Fb' & H'). apply obind_ret in H' as (stamp' & St' & H').
    inversion H; inversion H'; subst. clear H H'. cbn [vr_res] in Rs, Rs'. apply Some_inj in Rs, Rs'. subst res res'. cbn [v_sourceStamp].
    assert (Rc : quiet core0 (v_core r0)) by (rewrite Fc; apply Inv).
    pose proof (pick_certs _ _ _ _ _ _ _ _ _ _ _ _ _ _ Pv Pv') as [Cs Sc].
    destruct (pick_rel E S S' _ _ _ _ _ _ r0 r0 _ _ _ _ eq_refl eq_refl Pv Pv') as (<- & Nd & _).
    assert (Er : errors (v_core res1) = [] <-> errors (v_core res1') = []) by (split; [eapply first_errors; [exact HS|exact HS'|..] | eapply first_errors; [exact HS'|exact HS|..]]; eassumption).
    pose proof (pick_frame _ _ _ _ _ _ _ _ _ _ _ Pv) as Fx1. pose proof (pick_frame _ _ _ _ _ _ _ _ _ _ _ Pv') as Fx1'.
    destruct (fallback_rel S S' _ _ _ _ _ _ _ _ _ _ _ _ _ Er Cs ltac:(congruence) Sc eq_refl Nd Fb Fb') as (<- & Nd2 & Sc2).
    rewrite <- Sc2 in St'. eapply (stamp_eq E S S' HS HS'); [exact Nd2| |exact St|exact St'].
    intros b Zb. eapply U; [exists before, pairs, cd, rec; split; [exact A|split; [exact En|exact P]]|]. destruct Inv as [Ib _ _ _ _]. apply Ib in Zb. apply Zb.
  Qed.
End WholeSched.
