(** When the search for certificate chains finds one. *)
From Coq Require Import Lia ZifyBool.
From Verif.Model Require Import Bytes Env GoStrings Chain.
From Verif.Spec Require Import Chain.
From Verif.Proofs Require Import BytesFacts ChainFacts ChainBuild.

Section Find.
  Variables (V : venv) (o : voptions) (leaf : vcert).
  Hypothesis HRoots : pool_ok (vo_roots o).
  Hypothesis HInter : pool_ok (vo_inter o).
  Notation roots := (cp_certs (vo_roots o)).
  Notation inters := (cp_certs (vo_inter o)).
  Hypothesis HDet : forall x y, In x (leaf :: roots ++ inters) -> In y (leaf :: roots ++ inters) -> vc_raw x = vc_raw y -> x = y.
  Hypothesis HIds : forall child p, In child (leaf :: inters) -> In p (roots ++ inters) -> signed_by V child p ->
    vc_authority_key_id child <> [] -> vc_subject_key_id p = vc_authority_key_id child.
  Hypothesis HLen : forall p, In p (roots ++ inters) -> path_len_ok p (zlen inters).

  Definition dead (D : vcert -> Prop) (c : vcert) : Prop :=
    (forall r, In r roots -> signed_by V c r -> edge_ok V o RootCertificate c r -> False) /\
    (forall p, In p inters -> signed_by V c p -> edge_ok V o IntermediateCertificate c p -> D p).
  Definition explored (m : ccache) (x : vcert) : Prop := exists n chs, In (n, chs) m /\ nth_error inters n = Some x.
  Definition seen (m : ccache) (cur : list vcert) (p : vcert) : Prop := explored m p \/ In p cur.

  Lemma explored_mono m m' x : incl m m' -> explored m x -> explored m' x.
  Proof. intros HI (n & chs & H1 & H2). exists n, chs. split; [apply HI, H1|exact H2]. Qed.
  Lemma dead_mono (D D' : vcert -> Prop) c : (forall p, D p -> D' p) -> dead D c -> dead D' c.
  Proof. intros HM (H1 & H2). split; [exact H1|]. intros p HP HS HE. apply HM, H2; assumption. Qed.

  Lemma path_in cur : partial_path V o leaf cur -> forall x, In x cur -> In x (leaf :: inters).
  Proof.
    intros (mids & -> & HF & _) x [->|H]; [left; reflexivity|]. right. rewrite Forall_forall in HF. apply HF, H.
  Qed.
  Lemma path_short cur c : partial_path V o leaf (cur ++ [c]) -> (List.length cur <= List.length inters)%nat.
  Proof.
    intros (mids & E & HF & HN & _). assert (HL : List.length cur = List.length mids).
    { apply (f_equal (@List.length vcert)) in E. rewrite app_length in E. cbn [List.length] in E. lia. }
    rewrite E in HN. cbn [map] in HN. inversion HN; subst. rewrite HL, <- (map_length vc_raw mids), <- (map_length vc_raw inters).
    apply NoDup_incl_length; [assumption|]. intros r Hr. apply in_map_iff in Hr. destruct Hr as (x & <- & Hx). apply in_map.
    rewrite Forall_forall in HF. apply HF, Hx.
  Qed.
  Lemma raw_in cur p : partial_path V o leaf cur -> In p (roots ++ inters) -> In (vc_raw p) (map vc_raw cur) -> In p cur.
  Proof.
    intros HP HI H. apply in_map_iff in H. destruct H as (x & E & Hx). assert (x = p) as <-; [|exact Hx].
    apply HDet; [|right; exact HI|exact E]. destruct (path_in cur HP x Hx) as [->|H]; [left; reflexivity|right; apply in_app_iff; right; exact H].
  Qed.
  Lemma valid_here p t cur c : partial_path V o leaf (cur ++ [c]) -> In p (roots ++ inters) -> edge_ok V o t c p -> isValid V o p t (cur ++ [c]) = None.
  Proof.
    intros HP HI HE. apply isValid_iff. split; [exact HE|]. intros HB HM. specialize (HLen p HI HB HM). pose proof (path_short cur c HP). unfold zlen in HLen. lia.
  Qed.
  Lemma candidate pool c p t : In c (leaf :: inters) -> (forall x, In x pool -> In x (roots ++ inters)) -> In p pool -> signed_by V c p -> edge_ok V o t c p -> issuer_candidate pool c p.
  Proof.
    intros HC HS HP HG (HN & _). split; [exact HP|]. destruct (vc_authority_key_id c) as [|b k] eqn:EK.
    - right. split; [left; reflexivity|symmetry; exact HN].
    - left. split; [discriminate|]. rewrite <- EK. apply HIds; [exact HC|apply HS, HP|exact HG|rewrite EK; discriminate].
  Qed.

  Lemma roots_none cur c : partial_path V o leaf (cur ++ [c]) -> (forall x, In x (cur ++ [c]) -> ~ In x roots) ->
    fst (rootsLoop V o (findVerifiedParents V (vo_roots o) c) (cur ++ [c]) [] None) = [] ->
    forall r, In r roots -> signed_by V c r -> edge_ok V o RootCertificate c r -> False.
  Proof.
    intros HP HNR H r HI HS HE. pose proof HI as HI0. apply In_nth_error in HI. destruct HI as (n & Hn).
    assert (HIA : In r (roots ++ inters)) by (apply in_app_iff; left; exact HI0).
    assert (HX : In ((cur ++ [c]) ++ [r]) (fst (rootsLoop V o (findVerifiedParents V (vo_roots o) c) (cur ++ [c]) [] None))).
    { apply rootsLoop_in. right. exists n, r. split.
      - apply parents_iff; [exact HRoots|]. exists r. split; [exact Hn|]. split; [|exact HS].
        eapply candidate; [|intros x Hx; apply in_app_iff; left; exact Hx|exact HI0|exact HS|exact HE].
        apply (path_in _ HP). apply in_app_iff. right. left. reflexivity.
      - split; [exact Hn|]. split; [intros C; apply (raw_in _ r HP HIA) in C; exact (HNR r C HI0)|]. split; [apply valid_here; assumption|reflexivity]. }
    rewrite H in HX. destruct HX.
  Qed.

  Lemma inters_fail cur c build ns :
    partial_path V o leaf (cur ++ [c]) -> (forall x, In x (cur ++ [c]) -> ~ In x roots) ->
    (forall r, In r roots -> signed_by V c r -> edge_ok V o RootCertificate c r -> False) ->
    (forall n, In n ns -> exists p, nth_error inters n = Some p /\ signed_by V c p) ->
    (forall cache p, (avail o ((cur ++ [c]) ++ [p]) < avail o (cur ++ [c]))%nat -> partial_path V o leaf ((cur ++ [c]) ++ [p]) -> (forall x, In x ((cur ++ [c]) ++ [p]) -> ~ In x roots) ->
       let '(chs, _, cache') := build cache p ((cur ++ [c]) ++ [p]) in
       chs = [] -> incl cache cache' /\ dead (seen cache' ((cur ++ [c]) ++ [p])) p /\
                   (forall x, explored cache' x -> explored cache x \/ dead (seen cache' ((cur ++ [c]) ++ [p])) x)) ->
    forall chains err cache,
    let '(chs, _, cache') := intersLoop V o build ns (cur ++ [c]) chains err cache in
    chs = [] -> chains = [] /\ incl cache cache' /\
      (forall n p, In n ns -> nth_error inters n = Some p -> edge_ok V o IntermediateCertificate c p -> seen cache' (cur ++ [c]) p) /\
      (forall x, explored cache' x -> explored cache x \/ dead (seen cache' (cur ++ [c])) x).
  Proof.
    intros HP HNR HNE HNS HB. induction ns as [|n ns IH]; intros chains err cache; cbn [intersLoop].
    { intros ->. split; [reflexivity|]. split; [apply incl_refl|]. split; [intros n p []|]. intros x Hx. left. exact Hx. }
    specialize (IH (fun m Hm => HNS m (or_intror Hm))). destruct (HNS n (or_introl eq_refl)) as (p & EN & HS). rewrite EN.
    assert (HI : In p inters) by (eapply nth_error_In; exact EN).
    assert (HIA : In p (roots ++ inters)) by (apply in_app_iff; right; exact HI).
    destruct (existsb (fun x => vcEqual x p) (cur ++ [c])) eqn:EX.
    { specialize (IH chains err cache). destruct (intersLoop V o build ns (cur ++ [c]) chains err cache) as [[chs err'] cache'].
      intros H. specialize (IH H). destruct IH as (H1 & H2 & H3 & H4). repeat split; try assumption. intros m q [<-|Hm] Hq HE; [|exact (H3 m q Hm Hq HE)].
      rewrite EN in Hq. injection Hq as <-. right. apply equal_in in EX. exact (raw_in _ p HP HIA EX). }
    assert (EX' : ~ In (vc_raw p) (map vc_raw (cur ++ [c]))) by (rewrite <- equal_in; congruence).
    destruct (isValid V o p IntermediateCertificate (cur ++ [c])) as [e|] eqn:EV.
    { specialize (IH chains (Some e) cache). destruct (intersLoop V o build ns (cur ++ [c]) chains (Some e) cache) as [[chs err'] cache'].
      intros H. specialize (IH H). destruct IH as (H1 & H2 & H3 & H4). repeat split; try assumption. intros m q [<-|Hm] Hq HE; [|exact (H3 m q Hm Hq HE)].
      rewrite EN in Hq. injection Hq as <-. rewrite (valid_here p IntermediateCertificate cur c HP HIA HE) in EV. discriminate. }
    apply isValid_iff in EV. destruct EV as (HE & HPL).
    destruct (cacheGet n cache) as [chs0|] eqn:EG.
    - specialize (IH (chains ++ chs0) None cache). destruct (intersLoop V o build ns (cur ++ [c]) (chains ++ chs0) None cache) as [[chs err'] cache'].
      intros H. specialize (IH H). destruct IH as (H1 & H2 & H3 & H4). apply app_eq_nil in H1. destruct H1 as (H1 & _). repeat split; try assumption.
      intros m q [<-|Hm] Hq HE'; [|exact (H3 m q Hm Hq HE')]. rewrite EN in Hq. injection Hq as <-. left. exists n, chs0. split; [|exact EN].
      apply H2. apply cacheGet_in. exact EG.
    - assert (HPP : partial_path V o leaf ((cur ++ [c]) ++ [p])).
      { destruct HE as (E1 & E2 & E3 & E4). destruct (E4 eq_refl) as (E5 & E6). apply partial_snoc; try assumption. repeat split; assumption || apply HS || apply E2 || apply E3. }
      assert (HNR' : forall x, In x ((cur ++ [c]) ++ [p]) -> ~ In x roots).
      { intros x Hx. apply in_app_iff in Hx. destruct Hx as [Hx|[<-|[]]]; [exact (HNR x Hx)|]. intros C. apply (HNE p C HS).
        destruct HE as (E1 & E2 & E3 & _). split; [exact E1|]. split; [exact E2|]. split; [exact E3|]. intros C'. discriminate. }
      specialize (HB cache p (avail_lt o (cur ++ [c]) n p EN EX) HPP HNR'). destruct (build cache p ((cur ++ [c]) ++ [p])) as [[chs0 err0] cache0].
      specialize (IH (chains ++ chs0) err0 ((n, chs0) :: cache0)).
      destruct (intersLoop V o build ns (cur ++ [c]) (chains ++ chs0) err0 ((n, chs0) :: cache0)) as [[chs err'] cache'].
      intros H. specialize (IH H). destruct IH as (H1 & H2 & H3 & H4). apply app_eq_nil in H1. destruct H1 as (H1 & H1').
      specialize (HB H1'). destruct HB as (B1 & B2 & B3).
      assert (HSub : forall q, seen cache0 ((cur ++ [c]) ++ [p]) q -> seen cache' (cur ++ [c]) q).
      { intros q [Hq|Hq].
        - left. eapply explored_mono; [|exact Hq]. intros e He. apply H2. right. exact He.
        - apply in_app_iff in Hq. destruct Hq as [Hq|[<-|[]]]; [right; exact Hq|]. left. exists n, chs0. split; [apply H2; left; reflexivity|exact EN]. }
      split; [exact H1|]. split; [intros e He; apply H2; right; apply B1, He|]. split.
      + intros m q [<-|Hm] Hq HE'; [|exact (H3 m q Hm Hq HE')]. rewrite EN in Hq. injection Hq as <-. left. exists n, chs0. split; [apply H2; left; reflexivity|exact EN].
      + intros x Hx. apply H4 in Hx. destruct Hx as [(m & chs1 & [[= <- <-]|Hm] & Hx)|Hx]; [| |right; exact Hx].
        * rewrite EN in Hx. injection Hx as <-. right. eapply dead_mono; [exact HSub|exact B2].
        * destruct (B3 x) as [HB3|HB3]; [exists m, chs1; split; assumption|left; exact HB3|right; eapply dead_mono; [exact HSub|exact HB3]].
  Qed.

  Lemma build_fail f : forall cache cur c, (avail o (cur ++ [c]) < f)%nat -> partial_path V o leaf (cur ++ [c]) -> (forall x, In x (cur ++ [c]) -> ~ In x roots) ->
    let '(chs, _, cache') := buildChains V o f cache c (cur ++ [c]) in
    chs = [] -> incl cache cache' /\ dead (seen cache' (cur ++ [c])) c /\
                (forall x, explored cache' x -> explored cache x \/ dead (seen cache' (cur ++ [c])) x).
  Proof.
    induction f as [|f IH]; intros cache cur c HA HP HNR; [lia|]. cbn [buildChains].
    pose proof (roots_none cur c HP HNR) as HR.
    destruct (rootsLoop V o (findVerifiedParents V (vo_roots o) c) (cur ++ [c]) [] None) as [chains1 err1]. cbn [fst] in HR.
    destruct chains1 as [|ch0 chains1].
    2: { assert (HK : let '(chs, _, _) := intersLoop V o (buildChains V o f) (findVerifiedParents V (vo_inter o) c) (cur ++ [c]) (ch0 :: chains1) err1 cache in chs <> []).
         { clear. generalize (findVerifiedParents V (vo_inter o) c) as ns. intros ns.
           assert (HG : forall chains err cache, chains <> [] -> let '(chs, _, _) := intersLoop V o (buildChains V o f) ns (cur ++ [c]) chains err cache in chs <> []).
           { induction ns as [|n ns IH]; intros chains err cache0 HC; cbn [intersLoop]; [exact HC|].
             destruct (nth_error inters n); [|apply IH, HC]. destruct (existsb _ (cur ++ [c])); [apply IH, HC|].
             destruct (isValid V o v IntermediateCertificate (cur ++ [c])); [apply IH, HC|].
             destruct (cacheGet n cache0); [apply IH; intros C; apply app_eq_nil in C; destruct C; contradiction|].
             destruct (buildChains V o f cache0 v ((cur ++ [c]) ++ [v])) as [[? ?] ?]. apply IH; intros C; apply app_eq_nil in C; destruct C; contradiction. }
           apply HG. discriminate. }
         destruct (intersLoop V o (buildChains V o f) (findVerifiedParents V (vo_inter o) c) (cur ++ [c]) (ch0 :: chains1) err1 cache) as [[chs err2] cache2].
         intros H. contradiction. }
    specialize (HR eq_refl).
    pose proof (inters_fail cur c (buildChains V o f) (findVerifiedParents V (vo_inter o) c) HP HNR HR (inter_parents V o HInter c)) as HL.
    assert (HB : forall cache p, (avail o ((cur ++ [c]) ++ [p]) < avail o (cur ++ [c]))%nat -> partial_path V o leaf ((cur ++ [c]) ++ [p]) -> (forall x, In x ((cur ++ [c]) ++ [p]) -> ~ In x roots) ->
       let '(chs, _, cache') := buildChains V o f cache p ((cur ++ [c]) ++ [p]) in
       chs = [] -> incl cache cache' /\ dead (seen cache' ((cur ++ [c]) ++ [p])) p /\
                   (forall x, explored cache' x -> explored cache x \/ dead (seen cache' ((cur ++ [c]) ++ [p])) x)).
    { intros cache0 p HA' HP' HN'. apply IH; [lia|exact HP'|exact HN']. }
    specialize (HL HB [] err1 cache).
    destruct (intersLoop V o (buildChains V o f) (findVerifiedParents V (vo_inter o) c) (cur ++ [c]) [] err1 cache) as [[chs err2] cache2].
    intros H. specialize (HL H). destruct HL as (_ & H2 & H3 & H4). split; [exact H2|]. split; [|exact H4]. split; [exact HR|].
    intros p HI HS HE. pose proof HI as HI0. apply In_nth_error in HI. destruct HI as (n & Hn). apply (H3 n p); [|exact Hn|exact HE].
    apply parents_iff; [exact HInter|]. exists p. split; [exact Hn|]. split; [|exact HS].
    eapply candidate; [|intros x Hx; apply in_app_iff; right; exact Hx|exact HI0|exact HS|exact HE].
    apply (path_in _ HP). apply in_app_iff. right. left. reflexivity.
  Qed.

  Lemma dead_no_chain (D : vcert -> Prop) : (forall x, D x -> x = leaf \/ dead D x) -> dead D leaf -> forall path, valid_chain V o roots inters leaf path -> False.
  Proof.
    intros HD HL path (mids & root & -> & HR & HM & HN & HK & HC).
    assert (HG : forall pre m, leaf :: mids = pre ++ [m] \/ (exists post, leaf :: mids = pre ++ m :: post) -> dead D m).
    { induction pre as [|x0 pre IHp] using rev_ind; intros m H.
      - assert (m = leaf) as -> by (destruct H as [H|(post & H)]; cbn [app] in H; congruence). exact HL.
      - assert (exists post, leaf :: mids = (pre ++ [x0]) ++ m :: post) as (post & E) by (destruct H as [H|(post & H)]; [exists []; exact H|exists post; exact H]). clear H.
        assert (HX : dead D x0) by (apply IHp; right; exists (m :: post); rewrite E, <- app_assoc; reflexivity).
        assert (HMI : In m mids).
        { destruct (pre ++ [x0]) as [|y l] eqn:EY; [destruct pre; discriminate|]. cbn [app] in E. injection E as _ ->. apply in_app_iff. right. left. reflexivity. }
        assert (E1 : nth_error (leaf :: mids ++ [root]) (List.length pre) = Some x0).
        { change (leaf :: mids ++ [root]) with ((leaf :: mids) ++ [root]). rewrite E, <- !app_assoc. rewrite nth_error_app2, Nat.sub_diag by lia. reflexivity. }
        assert (E2 : nth_error (leaf :: mids ++ [root]) (Datatypes.S (List.length pre)) = Some m).
        { change (leaf :: mids ++ [root]) with ((leaf :: mids) ++ [root]). rewrite E, <- !app_assoc. rewrite nth_error_app2 by lia.
          replace (Datatypes.S (List.length pre) - List.length pre)%nat with 1%nat by lia. reflexivity. }
        destruct (HK _ _ _ E1 E2) as (K1 & K2 & K3 & K4 & _). rewrite Forall_forall in HM, HC.
        assert (HDm : D m).
        { apply HX; [exact (HM m HMI)|exact K1|]. split; [exact K2|]. split; [exact K3|]. split; [exact K4|]. intros _. exact (HC m HMI). }
        destruct (HD m HDm) as [->|HDD]; [|exact HDD]. exfalso. cbn [map] in HN. inversion HN as [|? ? HNI _]; subst. apply HNI.
        rewrite map_app. apply in_app_iff. left. apply in_map. exact HMI. }
    destruct (exists_last (l := leaf :: mids) ltac:(discriminate)) as (pre & m & E).
    pose proof (HG pre m (or_introl E)) as HX.
    assert (E1 : nth_error (leaf :: mids ++ [root]) (List.length pre) = Some m).
    { change (leaf :: mids ++ [root]) with ((leaf :: mids) ++ [root]). rewrite E, <- !app_assoc. rewrite nth_error_app2, Nat.sub_diag by lia. reflexivity. }
    assert (E2 : nth_error (leaf :: mids ++ [root]) (Datatypes.S (List.length pre)) = Some root).
    { change (leaf :: mids ++ [root]) with ((leaf :: mids) ++ [root]). rewrite E, <- !app_assoc. rewrite nth_error_app2 by lia.
      replace (Datatypes.S (List.length pre) - List.length pre)%nat with 1%nat by lia. reflexivity. }
    destruct (HK _ _ _ E1 E2) as (K1 & K2 & K3 & K4 & _). apply (proj1 HX root HR K1). split; [exact K2|]. split; [exact K3|]. split; [exact K4|]. intros C. discriminate.
  Qed.

  Lemma build_finds path f : (List.length inters < f)%nat -> ~ In leaf roots -> valid_chain V o roots inters leaf path ->
    fst (fst (buildChains V o f [] leaf [leaf])) <> [].
  Proof.
    intros HF HNL HV HC.
    assert (HP : partial_path V o leaf ([] ++ [leaf])).
    { exists []. split; [reflexivity|]. split; [constructor|]. split; [cbn; constructor; [intros []|constructor]|]. intros i child parent H1 H2. destruct i; discriminate || (destruct i; discriminate). }
    pose proof (build_fail f [] [] leaf) as H. cbn [app] in H. pose proof (avail_le o [leaf]).
    specialize (H ltac:(lia) HP ltac:(intros x [<-|[]]; exact HNL)).
    destruct (buildChains V o f [] leaf [leaf]) as [[chs err] cache']. cbn [fst] in HC. specialize (H HC). destruct H as (_ & H2 & H3).
    apply (dead_no_chain (seen cache' [leaf])) with (path := path); [|exact H2|exact HV].
    intros x [Hx|[<-|[]]]; [|left; reflexivity]. destruct (H3 x Hx) as [(n & chs0 & [] & _)|HD]. right. exact HD.
  Qed.
End Find.
