(** When the v1 verification loop succeeds, independently of map iteration orders *)
From Coq Require Import String.
From Coq Require Import Lia Permutation.
From Verif.Model Require Import Bytes Env ApiLevel GoStrings Manifest PkixName SchemeV1.
From Verif.Spec Require Import JarSigned Nondet.
From Verif.Proofs Require Import BytesFacts ManifestFacts V1DigestFacts V1SigFacts.

Section V1.
  Variable E : env.
  Variables (man : manifest) (hv : bool) (minSdk maxSdk : Z).

  Definition passes (r : outcome (option v1err)) : bool := match r with Ret None => true | _ => false end.
  Lemma passes_iff r : passes r = true <-> r = Ret None.
  Proof. destruct r as [[e|]|p]; cbn; split; congruence. Qed.

  Definition usesSigntool (sm : manifest) : bool := contains (mstr attrCreatedBy (m_main sm)) (s2b "signtool").
  Definition downgrades (sm : manifest) : bool :=
    match sget attrAndroidApkSigned (m_main sm) with
    | Some idList => negb hv && SupportsSigV2 maxSdk && namesScheme2 idList
    | None => false
    end.
  Definition mainCheck (sm : manifest) : outcome (option v1err) :=
    if (0 <? m_mainEnd sm) && negb (usesSigntool sm) then
      verifyManifestEntry E (m_main sm) attrDigestMainAttrSuffix minSdk maxSdk
        (fun hash h => cmpHash E (takeZ (m_mainEnd man) (m_rawData man)) hash h "Invalid manifest main attributes hash!")
    else Ret None.
  Definition wholeCheck (sm : manifest) : outcome (option v1err) :=
    verifyManifestEntry E (m_main sm) (if usesSigntool sm then attrDigestSuffix else attrDigestSigntoolSuffix) minSdk maxSdk
      (fun hash h => cmpHash E (m_rawData man) hash h "Invalid whole manifest hash!").
  Definition entryCheck (sm : manifest) (p : bytes * attrs) : outcome (option v1err) :=
    verifyManifestEntry E (snd p) attrDigestSuffix minSdk maxSdk (checkChunk E man (usesSigntool sm) (fst p)).

  Definition hasVersion (sm : manifest) : bool := mhas attrSignatureVersion (m_main sm).
  Definition mainBad (sm : manifest) : bool := match mainCheck sm with Ret (Some (V1Err _)) => true | _ => false end.
  (** The signature file makes verify return an error. *)
  Definition stops (sm : manifest) : bool := downgrades sm || (hasVersion sm && mainBad sm).
  (** The signature file is valid (if verify does not return an error). *)
  Definition validSf (sm : manifest) : bool :=
    hasVersion sm &&
    (passes (wholeCheck sm) ||
     (match m_entries sm with [] => false | _ => true end && forallb (fun p => passes (entryCheck sm p)) (m_entries sm))).

  Lemma cmpHash_ret data hash h m : exists r, cmpHash E data hash h m = Ret r.
  Proof. eexists. reflexivity. Qed.
  Lemma checkChunk_ret st name hash h : exists r, checkChunk E man st name hash h = Ret r.
  Proof. unfold checkChunk. destruct (sget name (m_chunks man)); [apply cmpHash_ret|eexists; reflexivity]. Qed.
  Lemma checkDigests_ret entry suffix verify algos : (forall hash h, exists r, verify hash h = Ret r) ->
    exists r, checkDigests E entry suffix algos verify = Ret r.
  Proof.
    intros Hv. induction algos as [|a t [r IH]]; [eexists; reflexivity|]. cbn [checkDigests].
    destruct (e_base64 E _) as [d|]; [|eexists; reflexivity]. destruct (digestHasher a) as [h|]; [|eexists; reflexivity].
    destruct (Hv d h) as [r' ->]. cbn [obind]. destruct r'; [eexists; reflexivity|]. exists r. exact IH.
  Qed.
  Lemma verifyManifestEntry_ret entry suffix verify : (forall hash h, exists r, verify hash h = Ret r) ->
    exists r, verifyManifestEntry E entry suffix minSdk maxSdk verify = Ret r.
  Proof.
    intros Hv. unfold verifyManifestEntry. destruct (getDigestsToVerify _ _ _ _ _); [eexists; reflexivity|].
    apply checkDigests_ret. exact Hv.
  Qed.
  Lemma mainCheck_ret sm : exists r, mainCheck sm = Ret r.
  Proof.
    unfold mainCheck. destruct (_ && _); [|eexists; reflexivity]. apply verifyManifestEntry_ret. intros. apply cmpHash_ret.
  Qed.
  Lemma wholeCheck_ret sm : exists r, wholeCheck sm = Ret r.
  Proof. apply verifyManifestEntry_ret. intros. apply cmpHash_ret. Qed.
  Lemma entryCheck_ret sm p : exists r, entryCheck sm p = Ret r.
  Proof. apply verifyManifestEntry_ret. intros. apply checkChunk_ret. Qed.

  Lemma entriesCheck_spec sm l : forall err, exists r,
    entriesCheck E man (usesSigntool sm) minSdk maxSdk l err = Ret r /\
    (r = None <-> (l = [] /\ err = None) \/ (l <> [] /\ forallb (fun p => passes (entryCheck sm p)) l = true)).
  Proof.
    induction l as [|[name a] t IH]; intros err.
    - exists err. split; [reflexivity|]. split; [auto|]. intros [[_ H]|[H _]]; [exact H|congruence].
    - cbn [entriesCheck]. change (verifyManifestEntry E a attrDigestSuffix minSdk maxSdk (checkChunk E man (usesSigntool sm) name))
        with (entryCheck sm (name, a)).
      destruct (entryCheck_ret sm (name, a)) as [r0 Hr0]. rewrite Hr0. cbn [obind forallb]. rewrite Hr0.
      destruct r0 as [e|].
      + exists (Some e). split; [reflexivity|]. split; [discriminate|]. intros [[H _]|[_ H]]; discriminate.
      + destruct (IH None) as (r & -> & Hr). exists r. split; [reflexivity|]. rewrite Hr. cbn [passes andb].
        split.
        * intros [[-> _]|[_ H]]; right; (split; [discriminate|]); [reflexivity|exact H].
        * intros [[H _]|[_ H]]; [discriminate|]. destruct t as [|x t]; [left; auto|right; split; [discriminate|exact H]].
  Qed.

  Lemma forallb_perm {A} (f : A -> bool) l l' : Permutation l l' -> forallb f l = forallb f l'.
  Proof.
    intros H. apply eq_true_iff_eq. rewrite !forallb_forall. split; intros G x Hx; apply G.
    - apply Permutation_in with (2 := Hx). apply Permutation_sym. exact H.
    - apply Permutation_in with (2 := Hx). exact H.
  Qed.

  Lemma verifySignatureFile_spec S k sig : sched_ok S -> exists s,
    verifySignatureFile E S man k sig hv minSdk maxSdk = Ret s /\
    (stops (sg_sm sig) = true <-> exists e, s = VReturn e) /\
    (s = VDone None <-> stops (sg_sm sig) = false /\ validSf (sg_sm sig) = true).
  Proof.
    intros HS. unfold verifySignatureFile. set (sm := sg_sm sig).
    change (match sget attrAndroidApkSigned (m_main sm) with
            | Some idList => negb hv && SupportsSigV2 maxSdk && namesScheme2 idList | None => false end) with (downgrades sm).
    unfold stops, validSf.
    destruct (downgrades sm) eqn:Ed.
    { exists (VReturn (V1Err "cannot be verified using v1 scheme, downgrade attack?")). split; [reflexivity|].
      cbn [orb]. split; [split; [eauto|reflexivity]|]. split; [discriminate|]. intros [H _]. discriminate. }
    fold (hasVersion sm). cbn [orb].
    destruct (hasVersion sm) eqn:Ev; cbn [negb andb].
    2:{ exists VSkip. split; [reflexivity|]. split; [split; [discriminate|intros [e H]; discriminate]|].
        split; [discriminate|]. intros [_ H]. discriminate. }
    fold (usesSigntool sm). fold (mainCheck sm).
    unfold mainBad. destruct (mainCheck_ret sm) as [rm Hrm]. rewrite Hrm. cbn [obind].
    assert (Hrest : (rm = None \/ rm = Some ErrNoKnownHashes) -> exists s,
      (err <- wholeCheck sm ;;
       err' <- (match err with
                | None => Ret None
                | Some _ => entriesCheck E man (usesSigntool sm) minSdk maxSdk (ord S _ 21 k (m_entries sm)) err
                end) ;;
       Ret (VDone err')) = Ret s /\
      (false = true <-> exists e, s = VReturn e) /\
      (s = VDone None <-> false = false /\
         passes (wholeCheck sm) || match m_entries sm with [] => false | _ => true end && forallb (fun p => passes (entryCheck sm p)) (m_entries sm) = true)).
    { intros _. destruct (wholeCheck_ret sm) as [rw Hrw]. rewrite Hrw. cbn [obind].
      destruct rw as [e|].
      - destruct (entriesCheck_spec sm (ord S _ 21 k (m_entries sm)) (Some e)) as (r & Hr & Hiff).
        rewrite Hr. cbn [obind]. exists (VDone r). split; [reflexivity|].
        split; [split; [discriminate|intros [e' H]; discriminate]|]. cbn [passes orb].
        pose proof (ord_perm S HS _ 21%nat k (m_entries sm)) as HP.
        rewrite (forallb_perm _ _ _ HP) in Hiff.
        split.
        + intros H. assert (r = None) as Hn by congruence. split; [reflexivity|]. apply Hiff in Hn as [[_ H']|[H1 H2]]; [discriminate|].
          rewrite H2. destruct (m_entries sm); [|reflexivity]. exfalso. apply H1. apply Permutation_nil. apply Permutation_sym. exact HP.
        + intros [_ H]. apply andb_true_iff in H as [H1 H2]. f_equal. apply Hiff. right. split; [|exact H2].
          intros Hnil. rewrite Hnil in HP. apply Permutation_nil in HP. rewrite HP in H1. discriminate.
      - exists (VDone None). split; [reflexivity|]. split; [split; [discriminate|intros [e' H]; discriminate]|]. cbn [passes orb].
        split; auto. }
    destruct rm as [[|m]|].
    - apply Hrest. auto.
    - exists (VReturn (V1Err m)). split; [reflexivity|]. split; [split; [eauto|reflexivity]|]. split; [discriminate|]. intros [H _]. discriminate.
    - apply Hrest. auto.
  Qed.

  (** ** The loop over signatures *)
  Section Loop.
    Variable S : sched.
    Hypothesis HS : sched_ok S.

    Definition verified (sig : v1sig) (ch : list cert) : Prop :=
      SchemeV1.verifySignature E S sig minSdk maxSdk = Ret (ch, None).
    Definition chainOf (sig : v1sig) : list cert :=
      match SchemeV1.verifySignature E S sig minSdk maxSdk with Ret (ch, _) => ch | Panic _ => [] end.
    Definition good (p : bytes * v1sig) : Prop :=
      (exists ch, verified (snd p) ch) /\ stops (sg_sm (snd p)) = false.
    Definition withChain (p : bytes * v1sig) : bytes * (v1sig * list cert) := (fst p, (snd p, chainOf (snd p))).
    Definition isValidSig (p : bytes * v1sig) : bool := validSf (sg_sm (snd p)).

    Lemma verified_nonempty sig ch : verified sig ch -> ch <> [].
    Proof. intros H. apply verifySignature_sound in H as [(c & t & info & -> & _) _]. discriminate. Qed.

    Lemma verifyLoop_spec l : forall k st st',
      NoDup (map fst (vp_valid st) ++ map fst l) ->
      (verifyLoop E S man hv minSdk maxSdk k l st = Ret (st', None) /\ vp_errors st' = 0%nat <->
       vp_errors st = 0%nat /\ Forall good l /\
       st' = mkLoop (vp_valid st ++ map withChain (filter isValidSig l)) 0 (vp_chain st ++ map (fun p => chainOf (snd p)) l)).
    Proof.
      induction l as [|[name sig] t IH]; intros k st st' Hnd.
      - cbn [verifyLoop map filter]. rewrite !app_nil_r. destruct st as [v e c]. cbn [vp_valid vp_errors vp_chain].
        split.
        + intros [H He]. assert (st' = mkLoop v e c) as -> by congruence. cbn [vp_errors] in He. subst e. auto.
        + intros (-> & _ & ->). auto.
      - cbn [verifyLoop]. destruct (SchemeV1.verifySignature E S sig minSdk maxSdk) as [[ch err]|p] eqn:Ev; cbn [obind].
        2:{ split; [intros [H _]; discriminate|]. intros (_ & HF & _). inversion HF as [|? ? [[ch Hch] _]]; subst.
            unfold verified in Hch. cbn [snd] in Hch. congruence. }
        destruct err as [e|].
        { split.
          - intros [H He]. exfalso.
            assert (Hnd' : NoDup (map fst (vp_valid st) ++ map fst t)) by (cbn [map] in Hnd; apply NoDup_remove_1 in Hnd; exact Hnd).
            pose proof (IH (Datatypes.S k) (mkLoop (vp_valid st) (Datatypes.S (vp_errors st)) match ch with [] => vp_chain st | _ :: _ => vp_chain st ++ [ch] end) st' Hnd') as HI.
            apply proj1 in HI. destruct (HI (conj H He)) as [HI' _]. discriminate.
          - intros (_ & HF & _). inversion HF as [|? ? [[ch' Hch] _]]; subst. unfold verified in Hch. cbn [snd] in Hch. congruence. }
        assert (Hne : ch <> []) by (apply (verified_nonempty sig); exact Ev).
        assert (Hco : chainOf sig = ch) by (unfold chainOf; rewrite Ev; reflexivity).
        replace (match ch with [] => vp_chain st | _ :: _ => vp_chain st ++ [ch] end) with (vp_chain st ++ [ch]) by (destruct ch; congruence).
        destruct (verifySignatureFile_spec S k sig HS) as (s & Hs & Hstop & Hval). rewrite Hs. cbn [obind].
        destruct (stops (sg_sm sig)) eqn:Est.
        { destruct (proj1 Hstop eq_refl) as [e ->]. split; [intros [H _]; discriminate|].
          intros (_ & HF & _). inversion HF as [|? ? [_ Hst]]; subst. cbn [snd] in Hst. congruence. }
        assert (Hg : good (name, sig)) by (split; [exists ch; exact Ev|exact Est]).
        assert (Hnr : forall e, s <> VReturn e) by (intros e ->; assert (Hc : false = true) by (apply Hstop; eauto); discriminate).
        cbn [map] in Hnd.
        destruct (validSf (sg_sm sig)) eqn:Evs.
        + assert (s = VDone None) as -> by (apply Hval; auto).
          assert (Hfresh : sset name (sig, ch) (vp_valid st) = vp_valid st ++ [(name, (sig, ch))]).
          { apply sset_fresh. apply sget_none_in. cbn [fst] in Hnd. apply (NoDup_app_cons_notin _ _ _ Hnd). }
          rewrite Hfresh. rewrite IH.
          * cbn [vp_valid vp_errors vp_chain filter map]. unfold isValidSig at 2. cbn [snd]. rewrite Evs. cbn [map].
            unfold withChain at 2. cbn [fst snd]. rewrite Hco. rewrite <- !app_assoc. cbn [app].
            split; intros (He & HF & Hst'); (split; [exact He|]); (split; [|exact Hst']); [constructor; assumption|inversion HF; assumption].
          * cbn [vp_valid]. rewrite map_app, <- app_assoc. cbn [map fst app]. exact Hnd.
        + assert (s <> VDone None) by (intros Hs'; apply Hval in Hs' as [_ Hs']; discriminate).
          assert (Hnext : verifyLoop E S man hv minSdk maxSdk (Datatypes.S k) t (mkLoop (vp_valid st) (vp_errors st) (vp_chain st ++ [ch])) =
                  match s with
                  | VReturn e => Ret (mkLoop (vp_valid st) (vp_errors st) (vp_chain st ++ [ch]), Some e)
                  | VDone None => verifyLoop E S man hv minSdk maxSdk (Datatypes.S k) t
                                       (mkLoop (sset name (sig, ch) (vp_valid st)) (vp_errors st) (vp_chain st ++ [ch]))
                  | _ => verifyLoop E S man hv minSdk maxSdk (Datatypes.S k) t (mkLoop (vp_valid st) (vp_errors st) (vp_chain st ++ [ch]))
                  end).
          { destruct s as [e| |[e|]]; [destruct (Hnr e eq_refl)|reflexivity|reflexivity|congruence]. }
          rewrite <- Hnext. rewrite IH.
          * cbn [vp_valid vp_errors vp_chain filter map]. unfold isValidSig at 2. cbn [snd]. rewrite Evs.
            rewrite Hco. rewrite <- !app_assoc. cbn [app].
            split; intros (He & HF & Hst'); (split; [exact He|]); (split; [|exact Hst']); [constructor; assumption|inversion HF; assumption].
          * cbn [vp_valid]. cbn [fst] in Hnd. apply NoDup_remove_1 in Hnd. exact Hnd.
    Qed.
  End Loop.
End V1.
