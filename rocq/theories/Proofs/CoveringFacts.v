(** From finalizeResult to [v3_covering] *)
From Coq Require Import Lia Permutation Sorted.
From Verif.Model Require Import Bytes ApiLevel Env Utils SigBlock Result Signer SchemeV3.
From Verif.Spec Require Import Encoding Algorithms Nondet Signer SignerV3 Ranges ApkLayout Digests Entries Verified.
From Verif.Proofs Require Import BytesFacts UtilsFacts SignerFacts SchemeV2Facts CollectFacts LineageFacts SchemeV3Facts V3BlockFacts RangeFacts.

Lemma lins_kept js : map l_nodes (lins (map kept js)) = lineages js.
Proof.
  induction js as [|j js IH]; [reflexivity|]. cbn [map lins kept vs_lineage]. unfold lineages, has_lineage in *. cbn [filter].
  destruct (i3_lineage j) as [|n ns] eqn:Q; cbn [mkLin]; [exact IH|]. cbn [map l_nodes]. now rewrite IH, Q.
Qed.
Lemma lins_kept_in js l : In l (lins (map kept js)) -> l_nodes l <> [] /\ l = {| l_minSdk := lineageCalculateMinSdkVersion (l_nodes l); l_nodes := l_nodes l |}.
Proof.
  induction js as [|j js IH]; [intros []|]. cbn [map lins kept vs_lineage]. destruct (i3_lineage j) as [|n ns] eqn:Q; cbn [mkLin]; [exact IH|].
  intros [<-|H]; [cbn; split; [discriminate | reflexivity] | auto].
Qed.
Lemma range_kept js : map range_of (map kept js) = map range3 js.
Proof. rewrite map_map. reflexivity. Qed.
Lemma sizes_sorted ls : forall z, (forall l, In l ls -> z <= zlen (l_nodes l)) ->
  (sizes_ok z ls <-> StronglySorted (fun l l' => zlen l <= zlen l') (map l_nodes ls)).
Proof.
  induction ls as [|l ls IH]; intros z H; cbn [sizes_ok map].
  - split; [constructor | exact (fun _ => I)].
  - split.
    + intros [A B].
      assert (G : forall ls z, sizes_ok z ls -> forall l, In l ls -> z <= zlen (l_nodes l)).
      { clear. induction ls as [|x ls IH]; intros z B y Y; [destruct Y|]. cbn [sizes_ok] in B. destruct B as [B1 B2].
        destruct Y as [<-|Y]; [assumption|]. specialize (IH _ B2 y Y). lia. }
      pose proof (G _ _ B) as G'. apply IH in B; [|exact G']. constructor; [exact B|]. rewrite Forall_map. apply Forall_forall. exact G'.
    + intro X. inversion X as [|? ? S F]; subst. split; [apply H; now left|]. apply IH; [|assumption].
      rewrite Forall_map in F. rewrite Forall_forall in F. exact F.
Qed.

Lemma map_perm_unique {A B} (f : A -> B) (l l' : list A) : NoDup (map f l) -> Permutation l l' -> map f l = map f l' -> l = l'.
Proof.
  revert l'. induction l as [|x l IH]; intros [|y l'] N P Q; try discriminate; [reflexivity|].
  cbn in N, Q. inversion N as [|? ? Nx Nl]; subst. injection Q as Q1 Q2.
  assert (x = y).
  { assert (H : In x (y :: l')) by (eapply Permutation_in; [exact P | now left]). destruct H as [|H]; [auto|].
    exfalso. apply Nx. rewrite Q2. now apply in_map. }
  subst y. f_equal. apply IH; [assumption | now apply Permutation_cons_inv in P | assumption].
Qed.

Lemma sorted_nodup (rs : list (Z * Z)) : StronglySorted (fun p q => fst p < fst q) rs -> NoDup rs.
Proof.
  induction 1 as [|p rs S IH F]; constructor; [|assumption]. intro X. rewrite Forall_forall in F. apply F in X. lia.
Qed.

Lemma kept_ordered S is : sched_ok S -> exists js, Permutation js is /\ ordered S (map kept is) = map kept js.
Proof.
  intro HS. destruct (Permutation_map_inv kept is (ordered_perm S (map kept is) HS)) as (js & Q & P). exists js. split; [now symmetry | assumption].
Qed.

Lemma filter_perm {A} (f : A -> bool) l l' : Permutation l l' -> Permutation (filter f l) (filter f l').
Proof.
  induction 1; cbn; auto.
  - destruct (f x); auto.
  - destruct (f x), (f y); auto. constructor.
  - etransitivity; eassumption.
Qed.
Lemma lineages_perm js is : Permutation js is -> Permutation (lineages js) (lineages is).
Proof. intro P. apply Permutation_map. now apply filter_perm. Qed.
Lemma extends_all_perm ls ls' l : Permutation ls ls' -> extends_all ls l -> extends_all ls' l.
Proof.
  intros P [I H]. split; [eapply Permutation_in; eassumption|]. intros x Hx. apply H. eapply Permutation_in; [symmetry; exact P | assumption].
Qed.

Definition lin_nodes (l : option lineage) : option (list lnode) := option_map l_nodes l.
Definition lineage_reported (S : sched) (is : list v3_info) (l : option lineage) : Prop :=
  match l with
  | None => lins (ordered S (map kept is)) = []
  | Some l => lextends (lins (ordered S (map kept is))) l
  end.

Lemma covering_of S is lo hi l : sched_ok S ->
  covers (map range_of (map kept is)) lo hi -> sizes_ok 0 (lins (ordered S (map kept is))) -> lineage_reported S is l ->
  v3_covering lo hi is (lin_nodes l).
Proof.
  intros HS Co So Lr. destruct (kept_ordered S is HS) as (js & P & Q).
  apply (covers_ordered S) in Co as (a & b & T & A & B); [|assumption]. unfold lineage_reported in Lr. rewrite Q in *.
  exists js, a, b. rewrite range_kept in T. repeat split; try assumption.
  - rewrite <- lins_kept. apply sizes_sorted in So; [assumption|]. intros. apply zlen_nonneg.
  - destruct l as [l|]; cbn [lin_nodes option_map].
    + eapply extends_all_perm; [apply lineages_perm; exact P|]. rewrite <- lins_kept. now apply lextends_all.
    + apply Permutation_nil. rewrite <- (lineages_perm _ _ P), <- lins_kept, Lr. constructor.
Qed.

Lemma covering_to S is lo hi ln : sched_ok S -> v3_covering lo hi is ln ->
  covers (map range_of (map kept is)) lo hi /\ sizes_ok 0 (lins (ordered S (map kept is))) /\
  match ln with
  | None => lins (ordered S (map kept is)) = []
  | Some n => exists l, lextends (lins (ordered S (map kept is))) l /\ l_nodes l = n
  end.
Proof.
  intros HS (js' & a & b & P' & T & A & B & So & Lr).
  assert (Co : covers (map range_of (map kept is)) lo hi).
  { exists (map range3 js'), a, b. rewrite range_kept. repeat split; try assumption. now apply Permutation_map. }
  split; [assumption|]. destruct (kept_ordered S is HS) as (js & P & Q). rewrite Q.
  assert (js = js') as ->.
  { apply (map_perm_unique range3).
    - apply (covers_ordered S) in Co as (a' & b' & T' & _); [|assumption]. rewrite Q, range_kept in T'. eapply sorted_nodup, tiles_sorted; exact T'.
    - now rewrite P, P'.
    - apply (covers_ordered S) in Co as (a' & b' & T' & _); [|assumption]. rewrite Q, range_kept in T'.
      apply sorted_unique; [eapply tiles_sorted; exact T'| |apply Permutation_map; now rewrite P, P'].
      pose proof (tiles_sorted _ _ _ T) as X. clear - X. induction X as [|p l X IH F]; constructor; [assumption|]. eapply Forall_impl; [|exact F]. cbn. lia. }
  split.
  - apply sizes_sorted; [intros; apply zlen_nonneg|]. now rewrite lins_kept.
  - destruct ln as [n|].
    + apply extends_all_l. rewrite lins_kept. eapply extends_all_perm; [|exact Lr]. symmetry. now apply lineages_perm.
    + assert (X : map l_nodes (lins (map kept js')) = []).
      { rewrite lins_kept. apply Permutation_nil. rewrite (lineages_perm _ _ P), Lr. constructor. }
      destruct (lins (map kept js')); [reflexivity | discriminate].
Qed.

Lemma v3_block_ranges E maxSdk rot block is : v3_block E maxSdk rot block is -> Forall range_ok (map kept is).
Proof.
  intros (signers & junk & _ & _ & _ & F & _). rewrite Forall_map. induction F as [|s i ss is V F IH]; constructor; [|assumption].
  destruct V as (? & ? & ? & ? & ? & ? & ? & ? & ? & ? & ? & H). decompose [and] H. unfold range_ok, kept, max_int32, is_int32 in *. cbn. lia.
Qed.

(** rotation level *)
Lemma v31Rotation_spec E maxSdk rot block is : v3_block E maxSdk rot block is -> is <> [] ->
  rotation_level is (v31RotationMin (map kept is)) /\ 0 <= v31RotationMin (map kept is) <= max_int32.
Proof.
  intros B Ne. apply v3_block_ranges in B. rewrite Forall_map in B. unfold v31RotationMin.
  assert (H : forall l z, Forall (fun i => range_ok (kept i)) l -> 1 <= z <= max_int32 ->
     let m := fold_left (fun m s => if vs_min s <? m then vs_min s else m) (map kept l) z in
     1 <= m <= max_int32 /\ m <= z /\ (forall i, In i l -> m <= i3_min i) /\ (m = z \/ exists i, In i l /\ i3_min i = m)).
  { clear. induction l as [|i l IH]; intros z F Hz; cbn [map fold_left]; cbn zeta.
    - split; [assumption|]. split; [lia|]. split; [intros ? [] | now left].
    - inversion F as [|? ? Fi Fl]; subst. set (z' := if vs_min (kept i) <? z then vs_min (kept i) else z).
      destruct Fi as [Fi1 Fi2]. assert (Hz' : 1 <= z' <= max_int32 /\ z' <= z /\ z' <= vs_min (kept i) /\ (z' = z \/ z' = vs_min (kept i))).
      { unfold z'. destruct (Z.ltb_spec (vs_min (kept i)) z); lia. }
      destruct Hz' as (H1 & H2 & H3 & H4). destruct (IH z' Fl H1) as (A & B & C & D). cbn zeta in *. cbn [kept vs_min] in H3, H4.
      split; [assumption|]. split; [lia|]. split.
      + intros j [<-|J]; [lia | auto].
      + destruct D as [D|(j & J & D)]; [|right; exists j; split; [now right | assumption]].
        destruct H4 as [H4|H4]; [left; lia | right; exists i; split; [now left | lia]]. }
  destruct (H is max_int32 B ltac:(unfold max_int32; lia)) as (A & _ & C & D). cbn zeta in *.
  set (m := fold_left _ _ _) in *. split.
  - exists m. split; [|reflexivity]. split; [|assumption]. destruct D as [D|D]; [|assumption].
    destruct is as [|i is]; [contradiction|]. exists i. split; [now left|]. inversion B as [|? ? [Bi1 Bi2] _]; subst. cbn [kept vs_min vs_max] in Bi1, Bi2.
    specialize (C i (or_introl eq_refl)). lia.
  - destruct (m =? max_int32); unfold max_int32 in *; lia.
Qed.
Lemma rotation_level_fun is a b : rotation_level is a -> rotation_level is b -> a = b.
Proof.
  intros (m & [(i & Hi & <-) L] & ->) (m' & [(i' & Hi' & <-) L'] & ->).
  replace (i3_min i') with (i3_min i); [reflexivity|]. apply L in Hi'. apply L' in Hi. lia.
Qed.
