(** Consequences of soundness and completeness used in Props/ *)
From Coq Require Import String.
From Coq Require Import Lia Permutation.
From Verif.Model Require Import Bytes ApiLevel Env Utils SigBlock Result Signer SchemeV2 SchemeV3 DataSource Digest Frosting SourceStamp Verify.
From Verif.Spec Require Import Encoding Algorithms Nondet Signer SignerV3 Ranges ApkLayout Digests Entries Verified Calls.
From Verif.Proofs Require Import BytesFacts UtilsFacts SigBlockFacts SignerFacts SchemeV2Facts CollectFacts V2BlockFacts LineageFacts SchemeV3Facts V3BlockFacts RangeFacts CoveringFacts IntegrityFacts EntriesFacts VerifyFacts ApkFacts TotalFacts.

Lemma lp_inj a r b r' : fits a -> fits b -> lp a ++ r = lp b ++ r' -> a = b /\ r = r'.
Proof. intros Fa Fb H. pose proof (getLP_enc a r Fa) as X. rewrite H, (getLP_enc b r' Fb) in X. now inversion X. Qed.
Lemma lp_inj_end a b r' : fits a -> fits b -> lp a = lp b ++ r' -> a = b /\ r' = [].
Proof. intros Fa Fb H. rewrite <- (app_nil_r (lp a)) in H. apply lp_inj in H as [? ?]; auto. Qed.

Lemma apk_with_unique file e s e' s' : apk_with file e s -> apk_with file e' s' -> e = e' /\ s = s'.
Proof.
  intros (b & p & c & r & A & En & P) (b' & p' & c' & r' & A' & En' & P').
  destruct (apk_unique _ _ _ _ _ _ _ _ _ A A') as (<- & <- & <- & <-). split; [eapply entries_unique; eassumption|].
  destruct P as (x & (a & o & t & R & La & Lo & ->) & ->), P' as (x' & (a' & o' & t' & R' & La' & Lo' & ->) & ->).
  rewrite R in R'. apply app_take_eq in R' as [-> R']; [|congruence]. apply app_take_eq in R' as [-> ->]; [reflexivity | congruence].
Qed.

Section Props.
  Variables (E : env) (S : sched).
  Hypothesis HE : hash_sizes_ok E.
  Hypothesis HS : sched_ok S.

  Lemma verifies_verdict file minSdk maxSdk z res : verifies E S file minSdk maxSdk z res ->
    exists es sections, apk_with file es sections /\ verdict E minSdk maxSdk es sections (scheme res) (chains res) (reported_lineage res).
  Proof.
    intros (vr & H & R & Er). destruct (verifySigningBlock_sound E S HE HS _ _ _ _ _ H Er) as (es & sec & res' & A & R' & V).
    rewrite R in R'. inversion R'; subst res'. eauto.
  Qed.
  Lemma verifies_known file minSdk maxSdk z res es sections : verifies E S file minSdk maxSdk z res -> apk_with file es sections ->
    verdict E minSdk maxSdk es sections (scheme res) (chains res) (reported_lineage res).
  Proof. intros V A. apply verifies_verdict in V as (e & s & A' & V). destruct (apk_with_unique _ _ _ _ _ A A') as [-> ->]. exact V. Qed.

  Lemma scheme_2 minSdk maxSdk es sections cs lin : verdict E minSdk maxSdk es sections 2 cs lin ->
    exists is c0, v2_verified E maxSdk es sections is /\ cs = c0 ++ chains2 is /\ ~ v31_in maxSdk es /\
      (c0 = [] /\ ~ v3_in maxSdk es /\ lin = None \/ minSdk < 28 /\ v3_in maxSdk es /\ ~ exists is lin, v3_verified E minSdk maxSdk es sections is lin).
  Proof.
    intro V. inversion V; subst; try discriminate; try lia.
    - exists is, []. auto 10.
    - exists is, c0. auto 10.
  Qed.
  Lemma scheme_3 minSdk maxSdk es sections cs lin : verdict E minSdk maxSdk es sections 3 cs lin ->
    ~ v31_in maxSdk es /\ exists is, v3_verified E minSdk maxSdk es sections is lin /\ cs = chains3 is.
  Proof. intro V. inversion V; subst; try discriminate; try lia. split; [assumption|]. exists is. split; [assumption | reflexivity]. Qed.
  Lemma scheme_31 minSdk maxSdk es sections cs lin : verdict E minSdk maxSdk es sections 31 cs lin ->
    exists is31 is3, v31_verified E minSdk maxSdk es sections is31 lin is3 /\ cs = chains3 is31.
  Proof. intro V. inversion V; subst; try discriminate; try lia. exists is31, is3. split; [assumption | reflexivity]. Qed.
End Props.

(** C14 *)
Lemma v2_block_attribute E maxSdk present block is signers junk signer sd rest digs cs attrs junk' al a :
  v2_block E maxSdk present block is ->
  block = lp (lps signers) ++ junk -> fits (lps signers) -> Forall fits signers -> In signer signers ->
  signer = lp sd ++ rest -> fits sd -> sd = lp digs ++ lp cs ++ lp attrs ++ junk' -> fits digs -> fits cs -> fits attrs ->
  attribute_list attrs al -> In a al -> v2_attribute_ok maxSdk present a.
Proof.
  intros (ss & j & Q & F1 & F2 & F & _) -> G1 G2 I Q1 G3 Q2 G4 G5 G6 [Qa Fa] Ia.
  apply lp_inj in Q as [Q _]; [|assumption|assumption]. apply lps_inj in Q; [|assumption|assumption]. subst ss.
  assert (exists i, v2_signer E maxSdk present signer (si_chain i) (si_algo i) (si_digest i)) as (i & V).
  { clear - F I. induction F; [destruct I|]. destruct I as [->|I]; eauto. }
  destruct V as (sd' & sigs & pk & jk & digs' & cs' & attrs' & jk' & al' & A1 & A2 & A3 & A4 & A5 & A6 & A7 & A8 & _ & [Qb Fb] & Fo).
  rewrite Q1 in A1. apply lp_inj in A1 as [<- _]; [|assumption|assumption]. rewrite Q2 in A5.
  apply lp_inj in A5 as [<- A5]; [|assumption|assumption]. apply lp_inj in A5 as [<- A5]; [|assumption|assumption]. apply lp_inj in A5 as [<- _]; [|assumption|assumption].
  rewrite Qa in Qb. apply lps_inj in Qb.
  - rewrite Forall_forall in Fo. apply Fo. clear - Qb Ia Fa Fb.
    assert (al = al') as <-; [|assumption]. clear Ia. revert al' Qb Fb. induction al as [|[x v] al IH]; intros [|[x' v'] al'] Qb Fb; try discriminate; [reflexivity|].
    cbn [map] in Qb. inversion Fa as [|? ? [U1 _] Fa']; subst. inversion Fb as [|? ? [U2 _] Fb']; subst. cbn [fst] in *.
    assert (enc_rec (x, v) = enc_rec (x', v') /\ map enc_rec al = map enc_rec al') as [Qc Qd] by (split; congruence). unfold enc_rec, le32 in Qc. cbn [fst snd] in Qc.
    apply app_take_eq in Qc as [Qx ->]; [|rewrite !le_enc_zlen; reflexivity]. apply le_enc_inj_small in Qx; [|unfold is_uint32 in *; lia|unfold is_uint32 in *; lia].
    subst x'. f_equal. auto.
  - clear - Fa. apply Forall_forall. intros x Hx. apply in_map_iff in Hx as (a & <- & Ha). rewrite Forall_forall in Fa. now apply Fa.
  - clear - Fb. apply Forall_forall. intros x Hx. apply in_map_iff in Hx as (a & <- & Ha). rewrite Forall_forall in Fb. now apply Fb.
Qed.

Section More.
  Variables (E : env) (S : sched).
  Hypothesis HE : hash_sizes_ok E.
  Hypothesis HS : sched_ok S.

  (** C15 *)
  Lemma v2_block_count maxSdk present block is signers junk : v2_block E maxSdk present block is ->
    block = lp (lps signers) ++ junk -> fits (lps signers) -> Forall fits signers -> zlen signers <= 10.
  Proof.
    intros (ss & j & Q & F1 & F2 & F & _ & Le) -> G1 G2. apply lp_inj in Q as [Q _]; [|assumption|assumption]. apply lps_inj in Q; [|assumption|assumption]. subst ss.
    apply Forall2_length in F. unfold zlen in *. lia.
  Qed.

  (** C18 *)
  Lemma signer_lineage maxSdk rot block is i : v3_block E maxSdk rot block is -> In i is -> i3_lineage i <> [] ->
    exists value main others l n, lineage_of E value (i3_lineage i) /\ si_chain (i3_signer i) = main :: others /\
      i3_lineage i = l ++ [n] /\ c_raw (ln_cert n) = c_raw main.
  Proof.
    intros (signers & junk & _ & _ & _ & F & _) I Ne.
    assert (exists s, v3_signer E maxSdk rot s i) as (s & V) by (clear - F I; induction F; [destruct I|]; destruct I as [->|I]; eauto).
    destruct V as (sd & sigs & pk & jk & digs & cs & attrs & jk' & al & main & others & A1 & A2 & A3 & A4 & A5 & A6 & A7 & A8 & A9 & A10 & A11 & A12 & A13 & A14 & A15 & A16 & A17 & A18 & A19).
    destruct A19 as [[Q _]|(_ & bf & v & af & Q & L & _)]; [contradiction|].
    rewrite Forall_forall in A18. destruct (A18 (id_proof_of_rotation, v)) as [Pr _]; [rewrite Q; apply in_or_app; right; now left|].
    destruct (Pr eq_refl) as [Z|(ns & L' & X)].
    - cbn in Z. subst v. destruct L as (items & Z & _). apply (f_equal zlen) in Z. unfold le32 in Z. rewrite zlen_app, le_enc_zlen in Z. pose proof (zlen_nonneg (lps items)).
      unfold zlen at 1 in Z. cbn [length] in Z. lia.
    - cbn [snd] in L'. rewrite (lineage_of_det _ _ _ _ L' L) in X. destruct X as [X|(l & n & X & Y)]; [contradiction|]. exists v, main, others, l, n. auto.
  Qed.
  Lemma covering_lineage lo hi is l : v3_covering lo hi is (Some l) -> exists i, In i is /\ i3_lineage i = l /\ l <> [].
  Proof.
    intros (js & a & b & _ & _ & _ & _ & _ & I & _). unfold lineages in I. apply in_map_iff in I as (i & <- & I). apply filter_In in I as [I H]. exists i. split; [assumption|]. split; [reflexivity|].
    intro Q. unfold has_lineage in H. now rewrite Q in H.
  Qed.

  (** single v3 signer *)
  Lemma covering_one i lo hi : i3_min i <= i3_max i -> i3_min i <= lo -> hi <= i3_max i ->
    v3_covering lo hi [i] (match i3_lineage i with [] => None | l => Some l end).
  Proof.
    intros R L H. exists [i], (i3_min i), (i3_max i). split; [reflexivity|]. split; [cbn; constructor; assumption|]. split; [assumption|]. split; [assumption|].
    unfold lineages, has_lineage. cbn [filter]. destruct (i3_lineage i) as [|n ns] eqn:Q; cbn [map]; [split; constructor|].
    rewrite Q. split; [repeat constructor|]. split; [now left|]. intros l [<-|[]]. exists (n :: ns), []. rewrite app_nil_r. split; [reflexivity|].
    generalize (n :: ns). intro x. induction x; constructor; [apply same_node_refl | assumption].
  Qed.

  (** the lineage that is reported *)
  Theorem complete_3_lineage file es sections minSdk maxSdk z res err is lin : apk_with file es sections ->
    v3_verified E minSdk maxSdk es sections is lin -> ~ v31_in maxSdk es -> returns E S file minSdk maxSdk z res err ->
    err = None /\ scheme res = 3 /\ chains res = chains3 is /\
    match reported_lineage res with None => lineages is = [] | Some l => extends_all (lineages is) l end.
  Proof.
    intros A V N (vr & H & R & Er). destruct (complete_3 E S HE HS _ _ _ _ _ _ _ _ _ A V N H) as (X & res' & R' & Id & C).
    rewrite R in R'. inversion R'; subst res'. clear R'. split; [congruence|]. split; [assumption|]. split; [assumption|].
    assert (Vv : verifies E S file minSdk maxSdk z res) by (exists vr; auto).
    pose proof (verifies_known E S HE HS _ _ _ _ _ _ _ Vv A) as Vd. unfold scheme in Vd. rewrite Id in Vd. apply scheme_3 in Vd as (_ & is' & V' & _).
    destruct V as (_ & _ & b & L & B & _), V' as (_ & _ & b' & L' & B' & _ & (js & x & y & Pm & _ & _ & _ & _ & Ln)).
    assert (b' = b) by (eapply last_entry_fun; eassumption). subst b'. destruct (v3_block_det E maxSdk 0 b is' is) as [K _]; [unfold is_int32; lia | assumption | assumption|].
    assert (Ll : lineages is' = lineages is) by (rewrite <- !lins_kept; now rewrite K). rewrite <- Ll. exact Ln.
  Qed.

  (** C22: errors of v3 are kept as warnings *)
  Lemma finalize_min srt_ cfg sigs minSdk reqMax r : minSdk < 28 -> v3FinalizeWith srt_ cfg sigs minSdk reqMax r = v3FinalizeWith srt_ cfg sigs 28 reqMax r.
  Proof.
    intro M. unfold v3FinalizeWith, V9_0_Pie. destruct (Z.ltb_spec minSdk 28); [|lia]. destruct (Z.ltb_spec 28 28); [lia | reflexivity].
  Qed.
  Lemma verify_min k file s b minSdk maxSdk r : minSdk < 28 -> verifyScheme E S k file s schemeIdV3 b minSdk maxSdk r = verifyScheme E S k file s schemeIdV3 b 28 maxSdk r.
  Proof.
    intro M. unfold verifyScheme. unfold extractCertsScheme. change (schemeIdV3 =? schemeIdV31) with false. change (schemeIdV3 =? schemeIdV3) with true. cbv iota.
    destruct (v3ParseSigners E (mkV3Cfg false maxSdk 0) b [] (v_core r)) as [[[sigs cds] c]|]; [|reflexivity]. cbn [obind].
    destruct (certs (v_core (withCore r c))); [reflexivity|]. destruct cds; [reflexivity|].
    match goal with |- obind ?x _ = _ => destruct x as [[c' good]|]; [|reflexivity] end. cbn [obind]. destruct good; [|reflexivity]. cbn [negb finalizeScheme].
    now rewrite (finalize_min _ _ _ minSdk).
  Qed.
  Theorem fallback_whole file es sections minSdk maxSdk z res res28 err : apk_with file es sections ->
    verifies E S file minSdk maxSdk z res -> scheme res = 2 -> v3_in maxSdk es ->
    returns E S file 28 maxSdk z res28 err ->
    err <> None /\ scheme res28 = 3 /\ exists is w, v2_verified E maxSdk es sections is /\ chains res = chains res28 ++ chains2 is /\
      reported_lineage res = reported_lineage res28 /\ result_warnings res = (result_warnings res28 ++ map WSchemeV3 (result_errors res28)) ++ w.
  Proof.
    intros Ap Vv Id V3 (vr' & H' & R' & Er').
    pose proof (verifies_known E S HE HS _ _ _ _ _ _ _ Vv Ap) as Vd. rewrite Id in Vd. apply scheme_2 in Vd as (is0 & c0 & _ & _ & N31 & [(_ & N & _)|(Mi & _ & Nv)]); [contradiction|].
    destruct Vv as (vr & H & R & Er). revert H H'. unfold verifySigningBlock. destruct (newSigningBlock file) as [magic|]; [|intro H; inversion H; subst; discriminate].
    intros H H'. apply obind_ret in H as (fr & Fi & H). rewrite Fi in H'. cbn [obind] in H'.
    destruct fr as [st s|st s]; [apply obind_ret in H as (? & _ & H); inversion H; subst; discriminate|].
    apply findSignatureBlocks_ok in Fi as (before & pairs & cd & rec & es' & A & -> & En & [Ib Ie [Nb Ne] Ic Ir] & _).
    destruct (protected_exists _ _ _ _ _ A) as (sections' & P).
    assert (Ap' : apk_with file es' sections') by (exists before, pairs, cd, rec; auto). destruct (apk_with_unique _ _ _ _ _ Ap Ap') as [<- <-]. clear Ap'.
    apply obind_ret in H as (res0 & Fr & H). rewrite Fr in H'. cbn [obind] in H'. apply applyFrosting_frame in Fr as (Fc & Fx & _).
    apply obind_ret in H as ([cds res1] & Pv & H). apply obind_ret in H as ([cds2 res2] & Fb & H). apply obind_ret in H as (stamp & _ & H).
    apply obind_ret in H' as ([cds' res1'] & Pv' & H'). apply obind_ret in H' as ([cds2' res2'] & Fb' & H'). apply obind_ret in H' as (stamp' & _ & H').
    inversion H; inversion H'; subst. clear H H'. cbn [vr_res vr_err v_core] in *. inversion R; inversion R'; subst. clear R R'. cbn [v_core] in *.
    unfold scheme, result_errors, result_warnings, chains, reported_lineage in *. cbn [v_schemeId v_core] in *. apply getLastError_none in Er.
    assert (Rc : quiet core0 (v_core res0)) by (now rewrite Fc).
    assert (M28 : 28 <= maxSdk) by apply V3.
    destruct (pick_3 es maxSdk (en_blocks st) Ib N31 V3) as (b3 & Pk & L3 & Z3).
    assert (Same : pickAndVerify E S 0 file (sblock_of before pairs cd rec) (en_blocks st) minSdk maxSdk res0 = pickAndVerify E S 0 file (sblock_of before pairs cd rec) (en_blocks st) 28 maxSdk res0).
    { rewrite !run_unfold by lia. rewrite Pk. now apply verify_min. }
    rewrite Same, Pv' in Pv. inversion Pv; subst res1' cds'. clear Pv. rename Pv' into Pv. rewrite <- Same in Pv.
    destruct (whole E S file before pairs cd rec sections es minSdk maxSdk HE HS A P (en_blocks st) Ib _ Ie res0 Rc Fx Nb _ _ _ _ Pv Fb Er)
      as [[-> ->]|(_ & _ & _ & _ & Er1 & is & w & Hv & Hc & _ & Hl & Hw)].
    { exfalso. apply (first_3 E S file before pairs cd rec sections es minSdk maxSdk HE HS A P (en_blocks st) Ib _ Ie res0 Rc Fx) in Pv as (X & _); [|assumption|assumption]. lia. }
    assert (res2' = res1) as ->.
    { apply (fallback_cond E S file before pairs cd rec es 28 maxSdk (en_blocks st) Ib) in Fb' as [[_ ->]|(_ & _ & X & _)]; [reflexivity | lia]. }
    split; [rewrite getLastError_none; assumption|]. split.
    { apply (first_3 E S file before pairs cd rec sections es minSdk maxSdk HE HS A P (en_blocks st) Ib _ Ie res0 Rc Fx) in Pv as (X & _); assumption. }
    exists is, w. split; [exact Hv|]. split; [exact Hc|]. split; [rewrite Hl; reflexivity|exact Hw].
  Qed.
  Theorem errors_kept file es sections minSdk maxSdk z res res28 err : apk_with file es sections ->
    verifies E S file minSdk maxSdk z res -> scheme res = 2 -> v3_in maxSdk es ->
    returns E S file 28 maxSdk z res28 err ->
    err <> None /\ scheme res28 = 3 /\ forall e, In e (result_errors res28) -> In (WSchemeV3 e) (result_warnings res).
  Proof.
    intros A V I V3 R. destruct (fallback_whole _ _ _ _ _ _ _ _ _ A V I V3 R) as (H1 & H2 & is & w & _ & _ & _ & Hw). split; [exact H1|]. split; [exact H2|].
    intros e He. rewrite Hw. apply in_or_app. left. apply in_or_app. right. now apply in_map.
  Qed.
End More.

(** C21 *)
Lemma attribute_list_det attrs al al' : attribute_list attrs al -> attribute_list attrs al' -> al = al'.
Proof.
  intros [Qa Fa] [Qb Fb]. rewrite Qa in Qb. apply lps_inj in Qb.
  - clear Qa. revert al' Qb Fb. induction al as [|[x v] al IH]; intros [|[x' v'] al'] Qb Fb; try discriminate; [reflexivity|].
    cbn [map] in Qb. inversion Fa as [|? ? [U1 _] Fa']; subst. inversion Fb as [|? ? [U2 _] Fb']; subst. cbn [fst] in *.
    assert (enc_rec (x, v) = enc_rec (x', v') /\ map enc_rec al = map enc_rec al') as [Qc Qd] by (split; congruence). unfold enc_rec, le32 in Qc. cbn [fst snd] in Qc.
    apply app_take_eq in Qc as [Qx ->]; [|rewrite !le_enc_zlen; reflexivity]. apply le_enc_inj_small in Qx; [|unfold is_uint32 in *; lia|unfold is_uint32 in *; lia].
    subst x'. f_equal. auto.
  - clear - Fa. apply Forall_forall. intros x Hx. apply in_map_iff in Hx as (a & <- & Ha). rewrite Forall_forall in Fa. now apply Fa.
  - clear - Fb. apply Forall_forall. intros x Hx. apply in_map_iff in Hx as (a & <- & Ha). rewrite Forall_forall in Fb. now apply Fb.
Qed.
Lemma v3_block_attribute E maxSdk rot block is signers junk signer sd rest digs cs lo hi attrs junk' al a :
  v3_block E maxSdk rot block is ->
  block = lp (lps signers) ++ junk -> fits (lps signers) -> Forall fits signers -> In signer signers ->
  signer = lp sd ++ rest -> fits sd -> sd = lp digs ++ lp cs ++ le32 lo ++ le32 hi ++ lp attrs ++ junk' -> fits digs -> fits cs -> fits attrs ->
  attribute_list attrs al -> In a al -> exists main, v3_attribute_ok E maxSdk rot main a.
Proof.
  intros (ss & j & Q & F1 & F2 & F & _) -> G1 G2 I Q1 G3 Q2 G4 G5 G6 Al Ia.
  apply lp_inj in Q as [Q _]; [|assumption|assumption]. apply lps_inj in Q; [|assumption|assumption]. subst ss.
  assert (exists i, v3_signer E maxSdk rot signer i) as (i & V) by (clear - F I; induction F; [destruct I|]; destruct I as [->|I]; eauto).
  destruct V as (sd' & sigs & pk & jk & digs' & cs' & attrs' & jk' & al' & main & others & A1 & A2 & A3 & A4 & A5 & A6 & A7 & A8 & A9 & A10 & A11 & A12 & A13 & A14 & A15 & A16 & A17 & A18 & A19).
  rewrite Q1 in A1. apply lp_inj in A1 as [<- _]; [|assumption|assumption]. rewrite Q2 in A7.
  apply lp_inj in A7 as [<- A7]; [|assumption|assumption]. apply lp_inj in A7 as [<- A7]; [|assumption|assumption].
  unfold le32 in A7. apply app_take_eq in A7 as [_ A7]; [|rewrite !le_enc_zlen; reflexivity]. apply app_take_eq in A7 as [_ A7]; [|rewrite !le_enc_zlen; reflexivity].
  apply lp_inj in A7 as [<- _]; [|assumption|assumption]. rewrite (attribute_list_det _ _ _ Al A17) in Ia.
  exists main. rewrite Forall_forall in A18. auto.
Qed.
