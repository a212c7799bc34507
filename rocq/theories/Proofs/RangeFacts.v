(** finalizeResult of schemev3.go *)
From Coq Require Import String.
From Coq Require Import Lia Permutation Sorted.
From Verif.Model Require Import Bytes ApiLevel Env Utils SigBlock Result Signer SchemeV3.
From Verif.Spec Require Import Encoding Nondet Ranges SignerV3.
From Verif.Proofs Require Import BytesFacts UtilsFacts SignerFacts LineageFacts.

Lemma Forall2_length {A B} (R : A -> B -> Prop) l l' : Forall2 R l l' -> length l = length l'.
Proof. induction 1; cbn; congruence. Qed.

(** * Lineages *)
Definition lprefix (l l' : lineage) : Prop := lineage_prefix (l_nodes l) (l_nodes l').
Definition lextends (ls : list lineage) (l : lineage) : Prop := In l ls /\ forall l', In l' ls -> lprefix l' l.
Lemma lextends_all ls l : lextends ls l -> extends_all (map l_nodes ls) (l_nodes l).
Proof. intros [I H]. split; [now apply in_map|]. intros x Hx. apply in_map_iff in Hx as (y & <- & Hy). now apply H. Qed.
Lemma extends_all_l ls n : extends_all (map l_nodes ls) n -> exists l, lextends ls l /\ l_nodes l = n.
Proof. intros [I H]. apply in_map_iff in I as (l & <- & Hl). exists l. split; [|reflexivity]. split; [assumption|]. intros x Hx. apply H. now apply in_map. Qed.
Lemma lnode_equal_iff a b : lnode_equal a b = true <-> same_node a b.
Proof.
  unfold lnode_equal, same_node, cert_equal. rewrite !andb_true_iff, !Z.eqb_eq, !bytes_eqb_eq. tauto.
Qed.
Lemma lnodes_equal_iff l : forall o, lnodes_equal l o = true <-> Forall2 same_node l o.
Proof.
  induction l as [|x l IH]; intros [|y o]; cbn.
  - split; [constructor | reflexivity].
  - split; [discriminate | inversion 1].
  - split; [discriminate | inversion 1].
  - rewrite andb_true_iff, lnode_equal_iff, IH. split; [intros []; now constructor | inversion 1; auto].
Qed.
Lemma prefix_iff l l' : zlen (l_nodes l) <= zlen (l_nodes l') ->
  (lnodes_equal (l_nodes l) (takeZ (zlen (l_nodes l)) (l_nodes l')) = true <-> lprefix l l').
Proof.
  intro Le. rewrite lnodes_equal_iff. split.
  - intro F. exists (takeZ (zlen (l_nodes l)) (l_nodes l')), (dropZ (zlen (l_nodes l)) (l_nodes l')). split; [now rewrite take_drop | assumption].
  - intros (p & rest & Q & F). rewrite Q. rewrite takeZ_app; [assumption|].
    apply Forall2_length in F. unfold zlen. now rewrite F.
Qed.
Lemma prefix_len l l' : lprefix l l' -> zlen (l_nodes l) <= zlen (l_nodes l').
Proof. intros (p & rest & -> & F). apply Forall2_length in F. unfold zlen. rewrite app_length. lia. Qed.

Lemma same_node_refl n : same_node n n.
Proof. repeat split. Qed.
Lemma prefix_refl l : lprefix l l.
Proof. exists (l_nodes l), []. rewrite app_nil_r. split; [reflexivity|]. induction (l_nodes l); constructor; auto using same_node_refl. Qed.

(** largestIndex finds the first longest lineage *)
Lemma largestIndex_spec ls : forall i best m,
  let k := largestIndex ls i best m in
  (k = best /\ Forall (fun l => zlen (l_nodes l) <= m) ls) \/
  (exists before l after, ls = before ++ l :: after /\ k = i + zlen before /\ m < zlen (l_nodes l) /\
     Forall (fun x => zlen (l_nodes x) <= zlen (l_nodes l)) ls).
Proof.
  induction ls as [|l ls IH]; intros i best m; cbn [largestIndex]; cbn zeta.
  - left. split; [reflexivity | constructor].
  - destruct (Z.ltb_spec m (zlen (l_nodes l))) as [Lt|Ge].
    + right. destruct (IH (i + 1) i (zlen (l_nodes l))) as [[-> F]|(b & x & a & -> & -> & L & F)]; cbn zeta in *.
      * exists [], l, ls. rewrite zlen_nil. repeat split; [lia | assumption | constructor; [lia | assumption]].
      * exists (l :: b), x, a. rewrite zlen_cons. repeat split; [lia | lia | constructor; [lia | assumption]].
    + destruct (IH (i + 1) best m) as [[-> F]|(b & x & a & -> & -> & L & F)]; cbn zeta in *.
      * left. split; [reflexivity | constructor; assumption].
      * right. exists (l :: b), x, a. rewrite zlen_cons. repeat split; [lia | lia | constructor; [lia | assumption]].
Qed.

Lemma checkSubsets_spec ls : forall i largest l, Forall (fun x => zlen (l_nodes x) <= zlen (l_nodes l)) ls ->
  (forall before x after, ls = before ++ x :: after -> i + zlen before = largest -> x = l) ->
  exists b, checkSubsets ls i largest (l_nodes l) = Ret b /\ (b = true <-> forall x, In x ls -> lprefix x l).
Proof.
  induction ls as [|x ls IH]; intros i largest l F Hl; cbn [checkSubsets].
  - exists true. split; [reflexivity|]. split; [intros _ ? [] | reflexivity].
  - inversion F as [|? ? Fx Fs]; subst. destruct (IH (i + 1) largest l Fs) as (b & Eb & Hb).
    { intros before y after -> Q. apply (Hl (x :: before) y after); [reflexivity|]. rewrite zlen_cons. lia. }
    destruct (Z.eqb_spec i largest) as [->|Ni].
    + exists b. split; [assumption|]. rewrite Hb. assert (x = l) as -> by (apply (Hl [] x ls); [reflexivity | rewrite zlen_nil; lia]).
      split; [intros H y [<-|Y]; [apply prefix_refl | auto] | intros H y Y; apply H; now right].
    + destruct (Z.ltb_spec (zlen (l_nodes l)) (zlen (l_nodes x))); [lia|].
      destruct (lnodes_equal _ _) eqn:Q.
      * apply prefix_iff in Q; [|assumption]. exists b. split; [assumption|]. rewrite Hb.
        split; [intros H' y [<-|Y]; auto | intros H' y Y; apply H'; now right].
      * exists false. split; [reflexivity|]. split; [discriminate|]. intro H'. exfalso.
        assert (X : lprefix x l) by (apply H'; now left). apply prefix_iff in X; [congruence | assumption].
Qed.

(** a longest lineage that extends all the others exists iff the first longest one does *)
Theorem consolidate_spec ls :
  exists c, consolidateLineages ls = Ret c /\
  match c with
  | inl None => ls = []
  | inl (Some l) => lextends ls l
  | inr _ => ls <> [] /\ forall l, ~ lextends ls l
  end.
Proof.
  destruct ls as [|l0 ls]; [exists (inl None); split; reflexivity|]. cbn [consolidateLineages].
  set (L := l0 :: ls).
  assert (H : exists l, nthZ L (largestIndex L 0 0 0) = Some l /\ In l L /\ Forall (fun x => zlen (l_nodes x) <= zlen (l_nodes l)) L /\
     (forall before x after, L = before ++ x :: after -> 0 + zlen before = largestIndex L 0 0 0 -> x = l)).
  { destruct (largestIndex_spec L 0 0 0) as [[K F]|(b & x & a & Q & K & Lt & F)]; cbn zeta in *; rewrite K.
    - exists l0. split; [reflexivity|]. split; [now left|]. split.
      + eapply Forall_impl; [|exact F]. cbn. intros y Hy. pose proof (zlen_nonneg (l_nodes l0)). lia.
      + intros [|y before] x after Q Z; [inversion Q; reflexivity|]. rewrite zlen_cons in Z. pose proof (zlen_nonneg before). lia.
    - exists x. split.
      { unfold nthZ. pose proof (zlen_nonneg b). destruct (Z.ltb_spec (0 + zlen b) 0); [lia|]. rewrite Q. unfold zlen.
        replace (Z.to_nat (0 + Z.of_nat (length b))) with (length b) by lia. rewrite nth_error_app2 by lia. now rewrite Nat.sub_diag. }
      split; [rewrite Q; apply in_or_app; right; now left|]. split; [assumption|].
      intros before y after Q2 Z. rewrite Q in Q2. assert (Lb : length before = length b) by (unfold zlen in Z; lia).
      clear - Q2 Lb. revert before Lb Q2. induction b as [|z b IH]; intros [|w before] Lb Q2; try discriminate Lb.
      + inversion Q2. reflexivity.
      + cbn [app] in Q2. injection Q2 as _ Q2. apply (IH before); [now inversion Lb | assumption]. }
  destruct H as (l & -> & Il & F & Uq).
  destruct (checkSubsets_spec L 0 (largestIndex L 0 0 0) l F Uq) as (b & -> & Hb). cbn [obind]. destruct b.
  - exists (inl (Some l)). split; [reflexivity|]. split; [assumption|]. now apply Hb.
  - exists (inr tt). split; [reflexivity|]. split; [discriminate|]. intros l' [I' X'].
    (* l' is as long as l, so they are the same up to node equality, so l works too *)
    assert (false = true); [|discriminate]. apply Hb. intros x Hx.
    pose proof (X' l Il) as (p & rest & Q & Fp). pose proof (prefix_len _ _ (X' l Il)) as Le1.
    rewrite Forall_forall in F. pose proof (F l' I') as Le2.
    assert (rest = []).
    { apply Forall2_length in Fp. unfold zlen in Le1, Le2. rewrite Q, app_length in Le2. destruct rest; [reflexivity|]. cbn in Le2. lia. }
    subst rest. rewrite app_nil_r in Q. destruct (X' x Hx) as (p' & rest' & Q' & Fp').
    exists (firstn (length p') (l_nodes l)), (skipn (length p') (l_nodes l)). split; [now rewrite firstn_skipn|].
    assert (Fr : Forall2 same_node p' (firstn (length p') (l_nodes l))).
    { rewrite Q' in Q. clear - Q Fp. revert p' rest' Q. induction Fp as [|a b0 la lb S Fp IH]; intros [|x p'] rest' Q; cbn.
      - constructor. - discriminate. - constructor.
      - injection Q as -> Q. constructor; [|eapply IH; exact Q]. destruct S as (? & ? & ? & ? & ?). repeat split; congruence. }
    clear - Fp' Fr. revert Fr. generalize (firstn (length p') (l_nodes l)). induction Fp' as [|a b la lb S Fp IH]; intros q Fr; inversion Fr; subst; constructor; [|auto].
    destruct S as (? & ? & ? & ? & ?). match goal with X : same_node b _ |- _ => destruct X as (? & ? & ? & ? & ?) end. repeat split; congruence.
Qed.

(** * SDK ranges *)
Definition range_of (s : v3signer) : Z * Z := (vs_min s, vs_max s).
Fixpoint lins (l : list v3signer) : list lineage :=
  match l with [] => [] | s :: t => match vs_lineage s with Some x => x :: lins t | None => lins t end end.
Fixpoint follow (m : Z) (l : list v3signer) : option Z :=
  match l with [] => Some m | s :: t => if vs_min s =? m + 1 then follow (vs_max s) t else None end.
Fixpoint sizes_ok (z : Z) (l : list lineage) : Prop :=
  match l with [] => True | x :: t => z <= zlen (l_nodes x) /\ sizes_ok (zlen (l_nodes x)) t end.

Definition range_ok (s : v3signer) : Prop := 1 <= vs_min s <= vs_max s /\ vs_max s <= max_int32.

Lemma rangeLoop_spec l : Forall range_ok l -> forall f m z ls r, f <> 0 -> 1 <= m <= max_int32 ->
  exists f' m' ls' r', v3RangeLoop l f m z ls r = (f', m', ls', r') /\
    ((r' = r /\ f' = f /\ follow m l = Some m' /\ sizes_ok z (lins l) /\ ls' = ls ++ lins l) \/
     ((exists e, r' = addError r e) /\ ~ (follow m l <> None /\ sizes_ok z (lins l)))).
Proof.
  induction 1 as [|s l Hs Hl IH]; intros f m z ls r Nf Hm; cbn [v3RangeLoop].
  - do 4 eexists. split; [reflexivity|]. left. cbn. rewrite app_nil_r. auto.
  - destruct (Z.eqb_spec f 0); [contradiction|]. cbn [negb andb].
    assert (W : (vs_min s =? wrap32 (m + 1)) = (vs_min s =? m + 1)).
    { destruct (Z.eq_dec m max_int32) as [->|Nm].
      - destruct Hs as [Hs1 Hs2]. change (wrap32 (max_int32 + 1)) with (-2147483648). unfold max_int32 in *.
        transitivity false; [|symmetry]; apply Z.eqb_neq; lia.
      - now rewrite wrap32_id by (unfold min_int32, max_int32 in *; lia). }
    rewrite W. cbn [follow lins]. destruct (Z.eqb_spec (vs_min s) (m + 1)) as [Eq|Ne]; cbn [negb].
    + destruct (vs_lineage s) as [li|].
      * cbn [sizes_ok]. destruct (Z.ltb_spec (zlen (l_nodes li)) z) as [Lt|Ge].
        { do 4 eexists. split; [reflexivity|]. right. split; [eauto|]. intros [_ [X _]]. lia. }
        destruct Hs as [Hs1 Hs2]. destruct (IH f (vs_max s) (zlen (l_nodes li)) (ls ++ [li]) r) as (f' & m' & ls' & r' & -> & H); [assumption | lia|].
        do 4 eexists. split; [reflexivity|]. destruct H as [(-> & -> & Fo & So & ->)|[Er N]].
        -- left. rewrite <- app_assoc. repeat split; assumption.
        -- right. split; [assumption|]. intros [A [B C]]. apply N. auto.
      * destruct Hs as [Hs1 Hs2]. destruct (IH f (vs_max s) z ls r) as (f' & m' & ls' & r' & -> & H); [assumption | lia|].
        do 4 eexists. split; [reflexivity|]. exact H.
    + do 4 eexists. split; [reflexivity|]. right. split; [eauto|]. intros [X _]. congruence.
Qed.

Lemma rangeLoop_first l : forall f m z ls r f' m' ls' r', f <> 0 -> v3RangeLoop l f m z ls r = (f', m', ls', r') -> f' = f.
Proof.
  induction l as [|t l IH]; intros f m z ls r f' m' ls' r' N E1; cbn [v3RangeLoop] in E1; [inversion E1; reflexivity|].
  destruct (Z.eqb_spec f 0); [contradiction|]. destruct (negb false && _); [inversion E1; reflexivity|].
  destruct (vs_lineage t); [destruct (_ <? _); [inversion E1; reflexivity|]|]; eapply IH; eassumption.
Qed.

Lemma follow_tiles l : Forall range_ok l -> forall s hi, range_ok s ->
  (follow (vs_max s) l = Some hi <-> tiles (vs_min s) (map range_of (s :: l)) hi).
Proof.
  induction 1 as [|t l Ht Hl IH]; intros s hi Hs; cbn [map follow].
  - split; [intro H; inversion H; subst; apply tiles_one; destruct Hs; lia|]. intro T. inversion T as [|? ? ? ? ? T']; subst; [reflexivity | inversion T'].
  - destruct (Z.eqb_spec (vs_min t) (vs_max s + 1)) as [Eq|Ne].
    + rewrite (IH t hi Ht). split.
      * intro T. apply tiles_cons; [destruct Hs; lia|]. now rewrite <- Eq.
      * intro T. inversion T as [|? ? ? ? ? T']; subst. now rewrite Eq.
    + split; [discriminate|]. intro T. inversion T as [|? ? ? ? ? T']; subst. exfalso. apply Ne. inversion T'; subst; reflexivity.
Qed.

(** tilings are sorted *)
Lemma tiles_bounds lo rs hi : tiles lo rs hi -> Forall (fun p => lo <= fst p) rs.
Proof.
  induction 1 as [a b H|a b rs c H T IH]; constructor; cbn; try lia; [constructor|].
  eapply Forall_impl; [|exact IH]. cbn. intros. lia.
Qed.
Lemma tiles_sorted lo rs hi : tiles lo rs hi -> StronglySorted (fun p q => fst p < fst q) rs.
Proof.
  induction 1 as [a b H|a b rs c H T IH]; [repeat constructor|]. constructor; [assumption|].
  eapply Forall_impl; [|eapply tiles_bounds; exact T]. cbn. intros. lia.
Qed.
Lemma sorted_unique (l : list (Z * Z)) : forall l', StronglySorted (fun p q => fst p < fst q) l -> StronglySorted (fun p q => fst p <= fst q) l' ->
  Permutation l l' -> l = l'.
Proof.
  induction l as [|x l IH]; intros l' S S' P; [apply Permutation_nil in P; now subst|].
  destruct l' as [|y l']; [apply Permutation_sym, Permutation_nil in P; discriminate|].
  inversion S as [|? ? Sl Fl]; inversion S' as [|? ? Sl' Fl']; subst.
  assert (x = y).
  { assert (Hy : In y (x :: l)) by (eapply Permutation_in; [symmetry; exact P | now left]).
    assert (Hx : In x (y :: l')) by (eapply Permutation_in; [exact P | now left]).
    destruct Hy as [|Hy]; [assumption|]. destruct Hx as [|Hx]; [auto|].
    rewrite Forall_forall in Fl, Fl'. apply Fl in Hy. apply Fl' in Hx. lia. }
  subst y. f_equal. apply IH; try assumption. now apply Permutation_cons_inv in P.
Qed.

Lemma v3Less_swo l : strict_weak v3Less l.
Proof.
  unfold strict_weak, v3Less. split; [|split].
  - intros x _. apply Z.ltb_irrefl.
  - intros x y z _ _ _. rewrite !Z.ltb_lt. lia.
  - intros x y z _ _ _. rewrite !Z.ltb_ge. lia.
Qed.

(** [ordered S sigs]: the signers in the order the code visits them *)
Definition ordered (S : sched) (sigs : list v3signer) : list v3signer := srt S _ v3Less sigs.

Lemma ordered_perm S sigs : sched_ok S -> Permutation (ordered S sigs) sigs.
Proof. intro H. apply srt_perm, H. Qed.
Lemma ordered_sorted S sigs : sched_ok S -> StronglySorted (fun p q => fst p <= fst q) (map range_of (ordered S sigs)).
Proof.
  intro H. pose proof (srt_sorted S H _ v3Less sigs (v3Less_swo sigs)) as P. unfold ordered. induction P as [|x l P IH F]; cbn; constructor; [assumption|].
  rewrite Forall_map. eapply Forall_impl; [|exact F]. unfold v3Less. cbn. intros y. rewrite Z.ltb_ge. auto.
Qed.

Lemma covers_ordered S sigs lo hi : sched_ok S ->
  (covers (map range_of sigs) lo hi <-> exists a b, tiles a (map range_of (ordered S sigs)) b /\ a <= lo /\ hi <= b).
Proof.
  intro H. split.
  - intros (rs & a & b & P & T & A & B). exists a, b. split; [|auto].
    assert (rs = map range_of (ordered S sigs)) as <-; [|assumption].
    apply sorted_unique; [eapply tiles_sorted; exact T | now apply ordered_sorted|].
    rewrite P. apply Permutation_map. symmetry. now apply ordered_perm.
  - intros (a & b & T & A & B). exists (map range_of (ordered S sigs)), a, b. split; [|auto]. apply Permutation_map. now apply ordered_perm.
Qed.

Lemma tiles_start lo s l hi : tiles lo (map range_of (s :: l)) hi -> lo = vs_min s.
Proof. intro T. inversion T; subst; reflexivity. Qed.

(** effective bounds checked by finalizeResult *)
Definition lowBound (cfg : v3cfg) (reqMin reqMax : Z) : Z := if actingAsV31 cfg then reqMax else Z.max reqMin 28.
Definition highBound (cfg : v3cfg) (reqMax : Z) : Z := if rotationMin cfg =? 0 then reqMax else rotationMin cfg - 1.

Theorem finalize_spec S cfg sigs reqMin reqMax r : sched_ok S -> sigs <> [] -> Forall range_ok sigs -> 0 <= rotationMin cfg <= max_int32 ->
  exists r', v3FinalizeWith (ordered S) cfg sigs reqMin reqMax r = Ret r' /\
    ((errors r' = errors r /\
      r' = mkCore (certs r) (signingLineage r') (warnings r) (errors r) /\
      covers (map range_of sigs) (lowBound cfg reqMin reqMax) (highBound cfg reqMax) /\
      sizes_ok 0 (lins (ordered S sigs)) /\
      match signingLineage r with
      | Some _ => signingLineage r' = signingLineage r
      | None => match signingLineage r' with
                | None => lins (ordered S sigs) = []
                | Some l => lextends (lins (ordered S sigs)) l
                end
      end) \/
     ((exists e, errors r' = errors r ++ e /\ e <> []) /\ certs r' = certs r /\ warnings r' = warnings r /\
      (signingLineage r = None -> signingLineage r' <> None ->
       ~ (covers (map range_of sigs) (lowBound cfg reqMin reqMax) (highBound cfg reqMax) /\ sizes_ok 0 (lins (ordered S sigs)))) /\
      ~ (covers (map range_of sigs) (lowBound cfg reqMin reqMax) (highBound cfg reqMax) /\
         sizes_ok 0 (lins (ordered S sigs)) /\
         (signingLineage r = None -> lins (ordered S sigs) = [] \/ exists l, lextends (lins (ordered S sigs)) l)))).
Proof.
  intros HS Ne Ro Rot. pose proof (ordered_perm S sigs HS) as P.
  assert (Ro' : Forall range_ok (ordered S sigs)).
  { rewrite Forall_forall in *. intros x Hx. apply Ro. eapply Permutation_in; eassumption. }
  assert (Ne' : ordered S sigs <> []).
  { intro X. rewrite X in P. apply Permutation_nil in P. contradiction. }
  setoid_rewrite (covers_ordered S sigs _ _ HS).
  unfold v3FinalizeWith. fold (ordered S sigs). destruct (ordered S sigs) as [|s l] eqn:O; [contradiction|]. inversion Ro' as [|? ? Rs Rl]; subst.
  assert (Lo : (if actingAsV31 cfg then reqMax else if reqMin <? V9_0_Pie then V9_0_Pie else reqMin) = lowBound cfg reqMin reqMax).
  { unfold lowBound, V9_0_Pie. destruct (actingAsV31 cfg); [reflexivity|]. destruct (Z.ltb_spec reqMin 28); lia. }
  assert (Hi : (if negb (rotationMin cfg =? 0) then wrap32 (rotationMin cfg - 1) else reqMax) = highBound cfg reqMax).
  { unfold highBound. destruct (Z.eqb_spec (rotationMin cfg) 0); cbn [negb]; [reflexivity|]. apply wrap32_id. unfold min_int32, max_int32 in *. lia. }
  rewrite Lo, Hi. clear Lo Hi. set (lo := lowBound cfg reqMin reqMax). set (hi := highBound cfg reqMax).
  cbn [v3RangeLoop Z.eqb negb andb].
  assert (Loop : exists m' ls' r1, (match vs_lineage s with
        | None => v3RangeLoop l (vs_min s) (vs_max s) 0 [] r
        | Some li => if zlen (l_nodes li) <? 0 then (vs_min s, vs_max s, [], addError r "inconsistent signer lineage sizes")
            else v3RangeLoop l (vs_min s) (vs_max s) (zlen (l_nodes li)) ([] ++ [li]) r
        end) = (vs_min s, m', ls', r1) /\
     ((r1 = r /\ follow (vs_max s) l = Some m' /\ sizes_ok 0 (lins (s :: l)) /\ ls' = lins (s :: l)) \/
      ((exists e, r1 = addError r e) /\ ~ (follow (vs_max s) l <> None /\ sizes_ok 0 (lins (s :: l)))))).
  { destruct Rs as [Rs1 Rs2]. cbn [lins]. destruct (vs_lineage s) as [li|].
    - pose proof (zlen_nonneg (l_nodes li)). destruct (Z.ltb_spec (zlen (l_nodes li)) 0); [lia|].
      destruct (rangeLoop_spec l Rl (vs_min s) (vs_max s) (zlen (l_nodes li)) ([] ++ [li]) r) as (f' & m' & ls' & r1 & E1 & H1); [lia | lia|].
      assert (f' = vs_min s) by (eapply rangeLoop_first; [|exact E1]; lia).
      subst f'. exists m', ls', r1. split; [assumption|]. cbn [sizes_ok app]. destruct H1 as [(-> & _ & Fo & So & ->)|[Er N]].
      + left. repeat split; assumption.
      + right. split; [assumption|]. intros [A [B C]]. apply N. auto.
    - destruct (rangeLoop_spec l Rl (vs_min s) (vs_max s) 0 [] r) as (f' & m' & ls' & r1 & E1 & H1); [lia | lia|].
      assert (f' = vs_min s) by (eapply rangeLoop_first; [|exact E1]; lia).
      subst f'. exists m', ls', r1. split; [assumption|]. destruct H1 as [(-> & _ & Fo & So & ->)|[Er N]]; [left | right]; auto. }
  destruct Loop as (m' & ls' & r1 & EL & HL). rewrite EL. clear EL.
  set (r2 := if (lo <? vs_min s) || (m' <? hi) then addError r1 "missing sdk versions" else r1).
  assert (T : forall a b, tiles a (map range_of (s :: l)) b <-> a = vs_min s /\ follow (vs_max s) l = Some b).
  { intros a b. split.
    - intro X. pose proof (tiles_start _ _ _ _ X). subst a. split; [reflexivity|]. now apply follow_tiles.
    - intros [-> X]. now apply follow_tiles. }
  assert (R2 : (r2 = r /\ ls' = lins (s :: l) /\ sizes_ok 0 (lins (s :: l)) /\ (exists a b, tiles a (map range_of (s :: l)) b /\ a <= lo /\ hi <= b)) \/
     ((exists e, errors r2 = errors r ++ e /\ e <> []) /\ certs r2 = certs r /\ warnings r2 = warnings r /\ signingLineage r2 = signingLineage r /\
       ~ ((exists a b, tiles a (map range_of (s :: l)) b /\ a <= lo /\ hi <= b) /\ sizes_ok 0 (lins (s :: l))))).
  { unfold r2. destruct HL as [(-> & Fo & So & ->)|[[e ->] N]].
    - destruct (Z.ltb_spec lo (vs_min s)) as [A|A]; cbn [orb].
      + right. split; [eexists; split; [reflexivity | discriminate]|]. repeat split. intros [(a & b & X & Y & Z) _]. apply T in X as [-> X]. lia.
      + destruct (Z.ltb_spec m' hi) as [B|B].
        * right. split; [eexists; split; [reflexivity | discriminate]|]. repeat split. intros [(a & b & X & Y & Z) _]. apply T in X as [-> X].
          assert (b = m') by congruence. lia.
        * left. repeat split; auto. exists (vs_min s), m'. split; [apply T; auto|]. lia.
    - right. assert (N' : ~ ((exists a b, tiles a (map range_of (s :: l)) b /\ a <= lo /\ hi <= b) /\ sizes_ok 0 (lins (s :: l)))).
      { intros [(a & b & X & _) So]. apply T in X as [_ X]. apply N. split; [congruence | assumption]. }
      destruct (_ || _); cbn.
      + split; [eexists; split; [rewrite <- app_assoc; reflexivity | discriminate]|]. auto.
      + split; [eexists; split; [reflexivity | discriminate]|]. auto. }
  clearbody r2. clear HL.
  destruct (signingLineage r2) as [sl|] eqn:SL.
  - exists r2. split; [reflexivity|]. destruct R2 as [(-> & -> & So & Co)|(Er & Ec & Ew & Es & N)].
    + left. rewrite SL. repeat split; try assumption. rewrite <- SL; destruct r; reflexivity.
    + right. split; [assumption|]. split; [assumption|]. split; [assumption|]. split; [intros X; congruence|]. intros (A & B & _). auto.
  - destruct (consolidate_spec ls') as (c & -> & Hc). cbn [obind]. destruct c as [ol|[]].
    + eexists. split; [reflexivity|]. destruct R2 as [(-> & -> & So & Co)|(Er & Ec & Ew & Es & N)].
      * left. rewrite SL. cbn. repeat split; try assumption.
      * right. cbn. split; [assumption|]. split; [assumption|]. split; [assumption|]. split; [intros _ _ [A B]; auto|]. intros (A & B & _). auto.
    + eexists. split; [reflexivity|]. right. destruct R2 as [(-> & -> & So & Co)|((e & Er & Nn) & Ec & Ew & Es & N)].
      * cbn. split; [eexists; split; [reflexivity | discriminate]|]. split; [reflexivity|]. split; [reflexivity|]. split; [congruence|]. intros (_ & _ & X). destruct (X SL) as [Y|[y Y]]; [tauto|]. now apply Hc in Y.
      * cbn. split; [rewrite Er; eexists; split; [rewrite <- app_assoc; reflexivity | destruct e; [contradiction | discriminate]]|]. split; [assumption|]. split; [assumption|].
        split; [congruence|]. intros (A & B & _). auto.
Qed.
