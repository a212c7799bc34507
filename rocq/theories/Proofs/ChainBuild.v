(** The search for certificate chains: what it finds is valid, it ends, and when it finds something. *)
From Coq Require Import Lia ZifyBool.
From Verif.Model Require Import Bytes Env GoStrings Chain.
From Verif.Spec Require Import Chain.
From Verif.Proofs Require Import BytesFacts ChainFacts.

Lemma NoDup_snoc {A} (l : list A) x : NoDup l -> ~ In x l -> NoDup (l ++ [x]).
Proof.
  induction l as [|y l IH]; intros HN HI; cbn [app]; [constructor; [exact HI|constructor]|]. inversion HN; subst. constructor.
  - intros C. apply in_app_iff in C. destruct C as [C|[C|[]]]; [contradiction|]. apply HI. left. congruence.
  - apply IH; [assumption|]. intros C. apply HI. right. exact C.
Qed.

Section Search.
  Variables (V : venv) (o : voptions).
  Hypothesis HRoots : pool_ok (vo_roots o).
  Hypothesis HInter : pool_ok (vo_inter o).
  Notation roots := (cp_certs (vo_roots o)).
  Notation inters := (cp_certs (vo_inter o)).

  Definition link_ok (i : nat) (child parent : vcert) : Prop :=
    signed_by V child parent /\ vc_raw_issuer child = vc_raw_subject parent /\
    in_period (vo_time o) parent /\ name_allowed V (vo_dns o) parent /\ path_len_ok parent (Z.of_nat i).
  Definition links_ok (path : list vcert) : Prop :=
    forall i child parent, nth_error path i = Some child -> nth_error path (S i) = Some parent -> link_ok i child parent.

  Lemma links_snoc cur c p : links_ok (cur ++ [c]) -> link_ok (List.length cur) c p -> links_ok ((cur ++ [c]) ++ [p]).
  Proof.
    intros HL HK i child parent H1 H2. apply nth_app_last in H2. destruct H2 as [H2|(H2 & ->)].
    - apply nth_app_last in H1. destruct H1 as [H1|(H1 & _)]; [exact (HL i child parent H1 H2)|].
      assert (HB : (S i < List.length (cur ++ [c]))%nat) by (apply nth_error_Some; congruence). lia.
    - rewrite app_length in H2. cbn [List.length] in H2. assert (i = List.length cur) as -> by lia.
      rewrite <- app_assoc in H1. rewrite nth_error_app2, Nat.sub_diag in H1 by lia. cbn in H1. injection H1 as <-. exact HK.
  Qed.

  (** A path from the leaf through intermediates. *)
  Definition partial_path (leaf : vcert) (cur : list vcert) : Prop :=
    exists mids, cur = leaf :: mids /\ Forall (fun m => In m inters /\ vc_bc_valid m = true /\ vc_is_ca m = true) mids /\
      NoDup (map vc_raw cur) /\ links_ok cur.

  Lemma partial_complete leaf cur c root : partial_path leaf (cur ++ [c]) -> In root roots -> ~ In (vc_raw root) (map vc_raw (cur ++ [c])) ->
    link_ok (List.length cur) c root -> valid_chain V o roots inters leaf ((cur ++ [c]) ++ [root]).
  Proof.
    intros (mids & E & HF & HN & HL) HI HD HK. exists mids, root. split; [rewrite E; reflexivity|]. split; [exact HI|].
    split; [eapply Forall_impl; [|exact HF]; cbn; tauto|]. split.
    - rewrite map_app. cbn [map]. apply NoDup_snoc; assumption.
    - split; [exact (links_snoc cur c root HL HK)|]. eapply Forall_impl; [|exact HF]; cbn; tauto.
  Qed.

  Lemma partial_snoc leaf cur c p : partial_path leaf (cur ++ [c]) -> In p inters -> vc_bc_valid p = true -> vc_is_ca p = true ->
    ~ In (vc_raw p) (map vc_raw (cur ++ [c])) -> link_ok (List.length cur) c p -> partial_path leaf ((cur ++ [c]) ++ [p]).
  Proof.
    intros (mids & E & HF & HN & HL) HI HB HC HD HK. exists (mids ++ [p]). split; [rewrite E; reflexivity|].
    split; [apply Forall_app; split; [exact HF|constructor; [repeat split; assumption|constructor]]|].
    split; [rewrite map_app; cbn [map]; apply NoDup_snoc; assumption|exact (links_snoc cur c p HL HK)].
  Qed.

  Lemma equal_in cur p : existsb (fun c => vcEqual c p) cur = true <-> In (vc_raw p) (map vc_raw cur).
  Proof.
    rewrite existsb_exists, in_map_iff. unfold vcEqual. split; intros (x & H1 & H2).
    - apply bytes_eqb_eq in H2. exists x. split; assumption.
    - exists x. split; [exact H2|]. apply bytes_eqb_eq. exact H1.
  Qed.

  Definition type_ok (t : ctype) (p : vcert) : Prop := t = IntermediateCertificate -> vc_bc_valid p = true /\ vc_is_ca p = true.
  Definition edge_ok (t : ctype) (child p : vcert) : Prop :=
    vc_raw_issuer child = vc_raw_subject p /\ in_period (vo_time o) p /\ name_allowed V (vo_dns o) p /\ type_ok t p.

  Lemma isValid_iff p t cur child :
    isValid V o p t (cur ++ [child]) = None <-> edge_ok t child p /\ path_len_ok p (Z.of_nat (List.length cur)).
  Proof.
    unfold isValid, edge_ok, in_period, type_ok, path_len_ok. rewrite rev_app_distr. cbn [rev app].
    rewrite zlen_app. change (zlen [child]) with 1. rewrite Z.add_simpl_r. unfold zlen at 2.
    destruct (bytes_eqb (vc_raw_issuer child) (vc_raw_subject p)) eqn:E1; cbn [negb].
    2: { apply bytes_eqb_neq in E1. split; [discriminate|]. intros ((H & _) & _). contradiction. }
    apply bytes_eqb_eq in E1.
    destruct ((vo_time o <? vc_not_before p) || (vc_not_after p <? vo_time o)) eqn:E2; [split; [discriminate|lia]|].
    destruct ((0 <? zlen (vc_permitted p)) && negb (existsb (matchNameConstraint V (vo_dns o)) (vc_permitted p))) eqn:E3.
    { split; [discriminate|]. intros ((_ & _ & H & _) & _). apply allowed_conv in H. destruct H. congruence. }
    destruct (existsb (matchNameConstraint V (vo_dns o)) (vc_excluded p)) eqn:E4.
    { split; [discriminate|]. intros ((_ & _ & H & _) & _). apply allowed_conv in H. destruct H. congruence. }
    pose proof (isallowed_iff V (vo_dns o) p E3 E4) as HA.
    destruct (match t with IntermediateCertificate => negb (vc_bc_valid p) || negb (vc_is_ca p) | _ => false end) eqn:E5.
    { split; [discriminate|]. intros ((_ & _ & _ & H) & _). destruct t; try discriminate. destruct (H eq_refl) as (HB1 & HB2). rewrite HB1, HB2 in E5. discriminate. }
    assert (HT : t = IntermediateCertificate -> vc_bc_valid p = true /\ vc_is_ca p = true).
    { intros ->. destruct (vc_bc_valid p), (vc_is_ca p); try discriminate. split; reflexivity. }
    destruct (vc_bc_valid p && (0 <=? vc_max_path_len p) && (vc_max_path_len p <? Z.of_nat (List.length cur))) eqn:E6.
    - split; [discriminate|]. intros (_ & H). destruct (vc_bc_valid p); [|discriminate]. specialize (H eq_refl). lia.
    - split; [|reflexivity]. intros _. split; [split; [exact E1|split; [lia|split; [exact HA|exact HT]]]|].
      intros HB HM. rewrite HB in E6. lia.
  Qed.
  Lemma isValid_leaf p : isValid V o p LeafCertificate [] = None <-> in_period (vo_time o) p /\ name_allowed V (vo_dns o) p.
  Proof.
    unfold isValid, in_period. cbn [rev]. change (zlen []) with 0.
    destruct ((vo_time o <? vc_not_before p) || (vc_not_after p <? vo_time o)) eqn:E2; [split; [discriminate|lia]|].
    destruct ((0 <? zlen (vc_permitted p)) && negb (existsb (matchNameConstraint V (vo_dns o)) (vc_permitted p))) eqn:E3.
    { split; [discriminate|]. intros (_ & H). apply allowed_conv in H. destruct H. congruence. }
    destruct (existsb (matchNameConstraint V (vo_dns o)) (vc_excluded p)) eqn:E4.
    { split; [discriminate|]. intros (_ & H). apply allowed_conv in H. destruct H. congruence. }
    pose proof (isallowed_iff V (vo_dns o) p E3 E4) as HA.
    destruct (vc_bc_valid p && (0 <=? vc_max_path_len p) && (vc_max_path_len p <? 0 - 1)) eqn:E6.
    - exfalso. destruct (vc_bc_valid p); [|discriminate]. lia.
    - split; [|reflexivity]. intros _. split; [lia|exact HA].
  Qed.

  (** *** The roots *)
  Lemma rootsLoop_in rs : forall cur chains err ch,
    In ch (fst (rootsLoop V o rs cur chains err)) <->
    In ch chains \/ exists n root, In n rs /\ nth_error roots n = Some root /\ ~ In (vc_raw root) (map vc_raw cur) /\
                      isValid V o root RootCertificate cur = None /\ ch = cur ++ [root].
  Proof.
    induction rs as [|n rs IH]; intros cur chains err ch; cbn [rootsLoop].
    { cbn [fst]. split; [tauto|]. intros [H|(n & root & [] & _)]. exact H. }
    assert (HSkip : forall P : nat -> Prop, ~ P n -> ((In ch chains \/ exists m, In m rs /\ P m) <-> (In ch chains \/ exists m, In m (n :: rs) /\ P m))).
    { intros P HP. split; (intros [H|(m & HI & H)]; [left; exact H|right]).
      - exists m. split; [right; exact HI|exact H].
      - destruct HI as [<-|HI]; [contradiction|]. exists m. split; assumption. }
    set (P := fun m => exists root, nth_error roots m = Some root /\ ~ In (vc_raw root) (map vc_raw cur) /\
                      isValid V o root RootCertificate cur = None /\ ch = cur ++ [root]).
    assert (HP : forall l, (exists m root, In m l /\ nth_error roots m = Some root /\ ~ In (vc_raw root) (map vc_raw cur) /\
                      isValid V o root RootCertificate cur = None /\ ch = cur ++ [root]) <-> exists m, In m l /\ P m).
    { intros l. unfold P. split; [intros (m & root & H1 & H2); exists m; split; [exact H1|exists root; exact H2]|intros (m & H1 & root & H2); exists m, root; split; assumption]. }
    rewrite HP. destruct (nth_error roots n) as [root|] eqn:EN.
    2: { rewrite IH, HP. apply HSkip. intros (root & H & _). congruence. }
    destruct (existsb (fun c => vcEqual c root) cur) eqn:EX.
    { rewrite IH, HP. apply HSkip. intros (root' & H & HN & _). apply equal_in in EX. congruence. }
    assert (EX' : ~ In (vc_raw root) (map vc_raw cur)) by (rewrite <- equal_in; congruence).
    destruct (isValid V o root RootCertificate cur) as [e|] eqn:EV.
    { rewrite IH, HP. apply HSkip. intros (root' & H & _ & HV & _). congruence. }
    rewrite IH, HP, in_app_iff. cbn [In]. split.
    - intros [[H|[H|[]]]|(m & HI & H)]; [left; exact H| |right; exists m; split; [right; exact HI|exact H]].
      right. exists n. split; [left; reflexivity|]. exists root. repeat split; try assumption. symmetry. exact H.
    - intros [H|(m & [<-|HI] & H)]; [left; left; exact H| |right; exists m; split; assumption].
      left. right. left. destruct H as (root' & H1 & _ & _ & H2). congruence.
  Qed.
  Lemma isValid_nofuel p t cur : isValid V o p t cur <> Some CvFuel.
  Proof. unfold isValid. repeat match goal with |- (if ?b then _ else _) <> _ => destruct b; [discriminate|] end. discriminate. Qed.
  Lemma rootsLoop_err rs : forall cur chains err, err <> Some CvFuel -> snd (rootsLoop V o rs cur chains err) <> Some CvFuel.
  Proof.
    induction rs as [|n rs IH]; intros cur chains err HE; cbn [rootsLoop]; [exact HE|].
    destruct (nth_error roots n) as [root|]; [|apply IH, HE]. destruct (existsb (fun c => vcEqual c root) cur); [apply IH, HE|].
    pose proof (isValid_nofuel root RootCertificate cur). destruct (isValid V o root RootCertificate cur); apply IH; congruence.
  Qed.

  (** *** What is found is valid *)
  Definition cache_good (leaf : vcert) (m : ccache) : Prop :=
    forall n chs, In (n, chs) m -> Forall (valid_chain V o roots inters leaf) chs.
  Lemma cacheGet_in n m chs : cacheGet n m = Some chs -> In (n, chs) m.
  Proof.
    induction m as [|[k v] m IH]; [discriminate|]. cbn [cacheGet]. destruct (Nat.eqb n k) eqn:E; [|intros H; right; apply IH, H].
    intros [= ->]. apply Nat.eqb_eq in E. subst k. left. reflexivity.
  Qed.

  Lemma intersLoop_sound leaf cur c build ns :
    partial_path leaf (cur ++ [c]) ->
    (forall n, In n ns -> exists p, nth_error inters n = Some p /\ signed_by V c p) ->
    (forall cache p, partial_path leaf ((cur ++ [c]) ++ [p]) -> cache_good leaf cache ->
       let '(chs, _, cache') := build cache p ((cur ++ [c]) ++ [p]) in Forall (valid_chain V o roots inters leaf) chs /\ cache_good leaf cache') ->
    forall chains err cache, Forall (valid_chain V o roots inters leaf) chains -> cache_good leaf cache ->
    let '(chs, _, cache') := intersLoop V o build ns (cur ++ [c]) chains err cache in
    Forall (valid_chain V o roots inters leaf) chs /\ cache_good leaf cache'.
  Proof.
    intros HP HNS HB. induction ns as [|n ns IH]; intros chains err cache HC HG; cbn [intersLoop]; [split; assumption|].
    specialize (IH (fun m Hm => HNS m (or_intror Hm))). destruct (HNS n (or_introl eq_refl)) as (p & EN & HS). rewrite EN.
    destruct (existsb (fun x => vcEqual x p) (cur ++ [c])) eqn:EX; [apply IH; assumption|].
    assert (EX' : ~ In (vc_raw p) (map vc_raw (cur ++ [c]))) by (rewrite <- equal_in; congruence).
    destruct (isValid V o p IntermediateCertificate (cur ++ [c])) as [e|] eqn:EV; [apply IH; assumption|].
    apply isValid_iff in EV. destruct EV as ((H1 & H2 & H3 & H4) & H5). destruct (H4 eq_refl) as (HB1 & HB2).
    destruct (cacheGet n cache) as [chs|] eqn:EG.
    - apply IH; [|exact HG]. apply Forall_app. split; [exact HC|]. apply cacheGet_in in EG. exact (HG n chs EG).
    - assert (HPP : partial_path leaf ((cur ++ [c]) ++ [p])).
      { apply partial_snoc; try assumption; [eapply nth_error_In; exact EN|]. repeat split; assumption || apply HS || apply H2 || apply H3. }
      specialize (HB cache p HPP HG). destruct (build cache p ((cur ++ [c]) ++ [p])) as [[chs err'] cache']. destruct HB as (HB & HG').
      apply IH; [apply Forall_app; split; assumption|]. intros m chs' [[= <- <-]|HI]; [exact HB|exact (HG' m chs' HI)].
  Qed.

  Lemma inter_parents c n : In n (findVerifiedParents V (vo_inter o) c) -> exists p, nth_error inters n = Some p /\ signed_by V c p.
  Proof. intros H. apply parents_iff in H; [|exact HInter]. destruct H as (p & H1 & _ & H2). exists p. split; assumption. Qed.

  Lemma rootsLoop_sound leaf cur c : partial_path leaf (cur ++ [c]) ->
    Forall (valid_chain V o roots inters leaf) (fst (rootsLoop V o (findVerifiedParents V (vo_roots o) c) (cur ++ [c]) [] None)).
  Proof.
    intros HP. apply Forall_forall. intros ch H. apply rootsLoop_in in H. destruct H as [[]|(n & root & HI & EN & HD & HV & ->)].
    apply parents_iff in HI; [|exact HRoots]. destruct HI as (p & EP & _ & HS). rewrite EN in EP. injection EP as <-.
    apply isValid_iff in HV. destruct HV as ((H1 & H2 & H3 & _) & H5).
    apply partial_complete; try assumption; [eapply nth_error_In; exact EN|]. repeat split; assumption || apply HS || apply H2 || apply H3.
  Qed.

  Lemma buildChains_sound leaf fuel : forall cache cur c, partial_path leaf (cur ++ [c]) -> cache_good leaf cache ->
    let '(chs, _, cache') := buildChains V o fuel cache c (cur ++ [c]) in
    Forall (valid_chain V o roots inters leaf) chs /\ cache_good leaf cache'.
  Proof.
    induction fuel as [|fuel IH]; intros cache cur c HP HG; [split; [constructor|exact HG]|]. cbn [buildChains].
    pose proof (rootsLoop_sound leaf cur c HP) as HR.
    destruct (rootsLoop V o (findVerifiedParents V (vo_roots o) c) (cur ++ [c]) [] None) as [chains1 err1]. cbn [fst] in HR.
    pose proof (intersLoop_sound leaf cur c (buildChains V o fuel) (findVerifiedParents V (vo_inter o) c) HP (inter_parents c)) as HL.
    specialize (HL (fun cache p Hp Hg => IH cache (cur ++ [c]) p Hp Hg) chains1 err1 cache HR HG).
    destruct (intersLoop V o (buildChains V o fuel) (findVerifiedParents V (vo_inter o) c) (cur ++ [c]) chains1 err1 cache) as [[chains2 err2] cache2].
    exact HL.
  Qed.

  (** *** The search ends *)
  Definition avail (cur : list vcert) : nat := List.length (filter (fun i => negb (existsb (fun c => vcEqual c i) cur)) inters).
  Lemma filter_le {A} (f g : A -> bool) l : (forall x, In x l -> g x = true -> f x = true) -> (List.length (filter g l) <= List.length (filter f l))%nat.
  Proof.
    induction l as [|x l IH]; intros H; [apply le_n|]. cbn [filter]. specialize (IH (fun y Hy => H y (or_intror Hy))).
    destruct (g x) eqn:EG; [rewrite (H x (or_introl eq_refl) EG)|destruct (f x)]; cbn [List.length]; lia.
  Qed.
  Lemma filter_lt {A} (f g : A -> bool) l z : (forall x, In x l -> g x = true -> f x = true) -> In z l -> f z = true -> g z = false ->
    (List.length (filter g l) < List.length (filter f l))%nat.
  Proof.
    induction l as [|x l IH]; intros H HI HF HG; [destruct HI|]. cbn [filter]. destruct HI as [->|HI].
    - rewrite HF, HG. cbn [List.length]. pose proof (filter_le f g l (fun y Hy => H y (or_intror Hy))). lia.
    - specialize (IH (fun y Hy => H y (or_intror Hy)) HI HF HG). destruct (g x) eqn:EG; [rewrite (H x (or_introl eq_refl) EG)|destruct (f x)]; cbn [List.length]; lia.
  Qed.
  Lemma avail_lt cur n p : nth_error inters n = Some p -> existsb (fun c => vcEqual c p) cur = false -> (avail (cur ++ [p]) < avail cur)%nat.
  Proof.
    intros EN EX. unfold avail. apply filter_lt with (z := p).
    - intros x _ H. rewrite existsb_app in H. apply negb_true_iff, orb_false_iff in H. destruct H as (H & _). rewrite H. reflexivity.
    - eapply nth_error_In. exact EN.
    - rewrite EX. reflexivity.
    - rewrite existsb_app. cbn [existsb]. unfold vcEqual at 2. rewrite bytes_eqb_refl, orb_true_r. reflexivity.
  Qed.

  Lemma intersLoop_ext b1 b2 cur ns : (forall cache p, (avail (cur ++ [p]) < avail cur)%nat -> b1 cache p (cur ++ [p]) = b2 cache p (cur ++ [p])) ->
    forall chains err cache, intersLoop V o b1 ns cur chains err cache = intersLoop V o b2 ns cur chains err cache.
  Proof.
    intros HB. induction ns as [|n ns IH]; intros chains err cache; cbn [intersLoop]; [reflexivity|].
    destruct (nth_error inters n) as [p|] eqn:EN; [|apply IH]. destruct (existsb (fun c => vcEqual c p) cur) eqn:EX; [apply IH|].
    destruct (isValid V o p IntermediateCertificate cur); [apply IH|]. destruct (cacheGet n cache); [apply IH|].
    rewrite (HB cache p (avail_lt cur n p EN EX)). destruct (b2 cache p (cur ++ [p])) as [[? ?] ?]. apply IH.
  Qed.
  Lemma buildChains_fuel : forall f1 f2 cache c cur, (avail cur < f1)%nat -> (avail cur < f2)%nat -> buildChains V o f1 cache c cur = buildChains V o f2 cache c cur.
  Proof.
    induction f1 as [|f1 IH]; intros f2 cache c cur H1 H2; [lia|]. destruct f2 as [|f2]; [lia|]. cbn [buildChains].
    destruct (rootsLoop V o (findVerifiedParents V (vo_roots o) c) cur [] None) as [chains1 err1].
    rewrite (intersLoop_ext (buildChains V o f1) (buildChains V o f2)); [reflexivity|]. intros cache' p Hp. apply IH; lia.
  Qed.
  Lemma intersLoop_nofuel b cur ns : (forall cache p, (avail (cur ++ [p]) < avail cur)%nat -> snd (fst (b cache p (cur ++ [p]))) <> Some CvFuel) ->
    forall chains err cache, err <> Some CvFuel -> snd (fst (intersLoop V o b ns cur chains err cache)) <> Some CvFuel.
  Proof.
    intros HB. induction ns as [|n ns IH]; intros chains err cache HE; cbn [intersLoop]; [exact HE|].
    destruct (nth_error inters n) as [p|] eqn:EN; [|apply IH, HE]. destruct (existsb (fun c => vcEqual c p) cur) eqn:EX; [apply IH, HE|].
    pose proof (isValid_nofuel p IntermediateCertificate cur). destruct (isValid V o p IntermediateCertificate cur); [apply IH; congruence|].
    destruct (cacheGet n cache); [apply IH; discriminate|].
    specialize (HB cache p (avail_lt cur n p EN EX)). destruct (b cache p (cur ++ [p])) as [[? ?] ?]. apply IH, HB.
  Qed.
  Lemma buildChains_nofuel : forall f cache c cur, (avail cur < f)%nat -> snd (fst (buildChains V o f cache c cur)) <> Some CvFuel.
  Proof.
    induction f as [|f IH]; intros cache c cur H; [lia|]. cbn [buildChains].
    pose proof (rootsLoop_err (findVerifiedParents V (vo_roots o) c) cur [] None ltac:(discriminate)) as HR.
    destruct (rootsLoop V o (findVerifiedParents V (vo_roots o) c) cur [] None) as [chains1 err1]. cbn [snd] in HR.
    pose proof (intersLoop_nofuel (buildChains V o f) cur (findVerifiedParents V (vo_inter o) c) ltac:(intros cache' p Hp; apply IH; lia) chains1 err1 cache HR) as HL.
    destruct (intersLoop V o (buildChains V o f) (findVerifiedParents V (vo_inter o) c) cur chains1 err1 cache) as [[chains2 err2] cache2].
    cbn [fst snd] in *. destruct chains2; [|discriminate]. destruct err2; [exact HL|discriminate].
  Qed.
  Lemma filter_len_le {A} (f : A -> bool) l : (List.length (filter f l) <= List.length l)%nat.
  Proof. induction l as [|x l IH]; [apply le_n|]. cbn [filter]. destruct (f x); cbn [List.length]; lia. Qed.
  Lemma avail_le cur : (avail cur <= List.length inters)%nat.
  Proof. apply filter_len_le. Qed.
  Lemma buildChains_some : forall f cache c cur, fst (fst (buildChains V o f cache c cur)) = [] <-> snd (fst (buildChains V o f cache c cur)) <> None.
  Proof.
    intros [|f] cache c cur; cbn [buildChains]; [cbn; split; [discriminate|reflexivity]|].
    destruct (rootsLoop V o (findVerifiedParents V (vo_roots o) c) cur [] None) as [chains1 err1].
    destruct (intersLoop V o (buildChains V o f) (findVerifiedParents V (vo_inter o) c) cur chains1 err1 cache) as [[chains2 err2] cache2].
    cbn [fst snd]. destruct chains2; [destruct err2; split; discriminate || reflexivity|split; [discriminate|congruence]].
  Qed.
End Search.
