(** Honest JARs verify *)
From Coq Require Import String.
From Coq Require Import Lia Permutation.
From Verif.Model Require Import Bytes Env ApiLevel GoStrings Manifest PkixName SchemeV1.
From Verif.Spec Require Import JarSigned HonestJar Nondet.
From Verif.Proofs Require Import BytesFacts ManifestFacts GoStringsFacts V1DigestFacts V1SigFacts V1VerifyFacts V1MainFacts V1BindFacts V1FilesFacts V1ScanFacts V1SoundFacts.

Section Signer.
  Variable E : env.
  Variable S : sched.

  Lemma verifySigner_complete sig info maxSdk c :
    signer_signed E S (sg_p7 sig) info (m_rawData (sg_sm sig)) maxSdk c ->
    (forall d, In d (p7_certs (sg_p7 sig)) -> c_serial d = c_serial c -> same_name E S (c_issuer c) (c_issuer d) -> d = c) ->
    verifySigner E S sig info maxSdk = Ret (SVerified c).
  Proof.
    intros (Hin & Hser & (issuer & Hiss & Hname) & Hcrit & algo & data & Halg & Hsigns & Hok) Huniq.
    unfold verifySigner. rewrite Hiss.
    destruct (find _ (p7_certs (sg_p7 sig))) as [c'|] eqn:Ef.
    2:{ exfalso. pose proof (find_none _ _ Ef c Hin) as Hn. cbn beta in Hn. rewrite <- Hser, Z.eqb_refl in Hn. cbn [andb] in Hn.
        apply bytes_eqb_neq in Hn. apply Hn. exact Hname. }
    apply find_some in Ef as [Hin' Hp]. apply andb_true_iff in Hp as [Hs Hn]. apply Z.eqb_eq in Hs. apply bytes_eqb_eq in Hn.
    assert (c' = c) as ->.
    { apply Huniq; [exact Hin'|congruence|]. unfold same_name in *. congruence. }
    rewrite Hcrit. apply algo_lookup in Halg. rewrite Halg. apply algo_lookup in Halg.
    assert (Fin : (r <- checkSignature E c algo data (ps_enc_digest info) ;; Ret match r with Some e => SContinue e | None => SVerified c end)
               = Ret (SVerified c)).
    { apply (checkSignature_iff E c algo data (ps_enc_digest info) (v1_algorithm_range _ _ _ Halg)) in Hok. rewrite Hok. reflexivity. }
    destruct Hsigns as [Hat|data h Hat Hdig Hmd Hct Hmar].
    - rewrite Hat. exact Fin.
    - destruct (ps_auth_attrs info) as [|a0 at_] eqn:Eat; [congruence|].
      assert (Hctn : (if V7_0_Nougat <=? maxSdk then
                        match unmarshalSignedAttribute (e_asn1_oid E) oidAttributeContentType (a0 :: at_) with
                        | None => Some (SReturn [c] (V1Err "failed to parse signed content type"))
                        | Some typeVal => if oid_eqb typeVal (p7_content_type (sg_p7 sig)) then None
                                          else Some (SContinue (V1Err "PKCS7 content type does not match"))
                        end else None) = None).
      { unfold V7_0_Nougat. destruct (Z.leb_spec 24 maxSdk) as [Hm|Hm]; [|reflexivity].
        specialize (Hct Hm). apply unmarshal_iff in Hct. fold oidAttributeContentType in Hct. rewrite Hct, oid_eqb_refl. reflexivity. }
      rewrite Hctn. apply unmarshal_iff in Hmd. fold oidAttributeMessageDigest in Hmd. rewrite Hmd.
      apply getHashForOID_iff in Hdig. rewrite Hdig, bytes_eqb_refl. cbn [negb]. rewrite Hmar. exact Fin.
  Qed.

  Lemma verifySignature_complete sig info minSdk maxSdk c : p7_signers (sg_p7 sig) = [info] ->
    verifySigner E S sig info maxSdk = Ret (SVerified c) ->
    SchemeV1.verifySignature E S sig minSdk maxSdk = Ret (buildChain E S (p7_certs (sg_p7 sig)) c, None).
  Proof.
    intros Hs Hv. unfold SchemeV1.verifySignature. rewrite Hs.
    assert (Hl : (if minSdk <? V7_0_Nougat then [info] else [info]) = [info]) by (destruct (_ <? _); reflexivity). rewrite Hl.
    cbn [signersLoop]. rewrite Hv. reflexivity.
  Qed.
End Signer.

Section Binds.
  Variable E : env.
  Variables (man : manifest) (minSdk maxSdk : Z).
  Lemma main_ok_not_bad sm : main_attributes_ok E man minSdk maxSdk sm -> mainBad E man minSdk maxSdk sm = false.
  Proof.
    intros H. unfold mainBad, mainCheck. destruct (_ && _); [|reflexivity].
    destruct H as [H|H].
    - unfold verifyManifestEntry. destruct (getDigestsToVerify E (m_main sm) attrDigestMainAttrSuffix minSdk maxSdk) as [|a t] eqn:Eg; [reflexivity|].
      exfalso. apply (H a). apply getDigests_iff. change (s2b "-digest-manifest-main-attributes") with attrDigestMainAttrSuffix. rewrite Eg. left. reflexivity.
    - rewrite (proj2 (verifyManifestEntry_iff E _ _ _ _ (fun hash h => cmpHash_ok E _ _ hash h) minSdk maxSdk)); [reflexivity|exact H].
  Qed.
End Binds.

(** ** Files *)
Lemma block_suffix_dot ext : In ext block_suffixes <-> exists e, In e block_exts /\ ext = "."%byte :: e.
Proof.
  unfold block_suffixes, block_exts. split.
  - intros [<-|[<-|[<-|[]]]]; eexists; (split; [|reflexivity]); cbn; auto.
  - intros (e & [<-|[<-|[<-|[]]]] & ->); cbn; auto.
Qed.
Lemma block_name_facts f x ext : zf_name f = metaInf ++ x ++ ext -> In ext block_suffixes ->
  isBlockFile f = true /\ blockBase f = metaInf ++ x.
Proof.
  intros Hn He. apply block_suffix_dot in He as (e & He & ->). destruct (block_ext_clean e He) as [Hsl Hdt].
  split.
  - unfold isBlockFile. rewrite Hn. apply andb_true_iff. split; [apply andb_true_iff; split|].
    + apply hasPrefix_iff. eexists; reflexivity.
    + apply negb_true_iff, bytes_eqb_neq. intros C.
      assert (isBlockName manifestName = true); [|discriminate].
      rewrite <- C. apply isBlockName_iff. exists (metaInf ++ x), e. split; [exact He|]. rewrite <- app_assoc. reflexivity.
    + apply isBlockName_iff. exists (metaInf ++ x), e. split; [exact He|]. rewrite <- app_assoc. reflexivity.
  - unfold blockBase. rewrite (proj2 (cutLast_some (zf_name f) "."%byte (metaInf ++ x) e)); [reflexivity|].
    split; [rewrite Hn, <- app_assoc; reflexivity|exact Hdt].
Qed.
Lemma isBlockFile_iff f : isBlockFile f = true -> exists x ext, zf_name f = metaInf ++ x ++ ext /\ In ext block_suffixes.
Proof.
  intros H. destruct (isBlockFile_name f H) as (ext & Hext & Hn & _). destruct (block_ext_clean ext Hext) as [Hsl _].
  unfold isBlockFile in H. apply andb_true_iff in H as [H _]. apply andb_true_iff in H as [H _]. apply hasPrefix_iff in H as [y Hy].
  pose proof Hy as Hy'. rewrite Hn in Hy'. destruct (metaInf_base _ _ _ Hy' Hsl) as [x Hx].
  exists x, ("."%byte :: ext). split; [rewrite Hn, Hx, <- app_assoc; reflexivity|].
  apply block_suffix_dot. exists ext. auto.
Qed.
Lemma lastSegment_meta x : ~ In "/"%byte x -> lastSegment (metaInf ++ x) = x.
Proof.
  intros H. unfold lastSegment. rewrite (cutLast_app_right metaInf x "/"%byte H).
  change (cutLast metaInf "/"%byte) with (Some (s2b "META-INF", @nil byte)). reflexivity.
Qed.

Lemma cutLast_app_left_meta x : cutLast (metaInf ++ x) "/"%byte =
  match cutLast x "/"%byte with Some (d, t) => Some (metaInf ++ d, t) | None => Some (s2b "META-INF", x) end.
Proof.
  destruct (cutLast x "/"%byte) as [[d t]|] eqn:Ec.
  - apply cutLast_some in Ec as [-> Ht]. apply cutLast_some. split; [rewrite <- app_assoc; reflexivity|exact Ht].
  - apply cutLast_none in Ec. apply cutLast_some. split; [reflexivity|exact Ec].
Qed.
Lemma base_name_last x b : base_name x b <-> lastSegment (metaInf ++ x) = b.
Proof.
  unfold base_name, lastSegment. rewrite (cutLast_app_left_meta x). destruct (cutLast x "/"%byte) as [[d t]|] eqn:Ec.
  - apply cutLast_some in Ec as [-> Ht]. split.
    + intros [Hb [Hx|[dir Hx]]].
      * exfalso. apply Hb. rewrite <- Hx. apply in_or_app. right. left. reflexivity.
      * assert (Hc : cutLast (d ++ "/"%byte :: t) "/"%byte = Some (d, t)) by (apply cutLast_some; auto).
        rewrite Hx in Hc. rewrite (proj2 (cutLast_some (dir ++ "/"%byte :: b) "/"%byte dir b)) in Hc by auto. congruence.
    + intros <-. split; [exact Ht|]. right. exists d. reflexivity.
  - apply cutLast_none in Ec. split.
    + intros [Hb [->|[dir ->]]]; [reflexivity|]. exfalso. apply Ec. apply in_or_app. right. left. reflexivity.
    + intros <-. split; [exact Ec|]. left. reflexivity.
Qed.

Lemma scanFiles_total l : forall man blocks sfs m, NoDup (map zf_name l) ->
  (forall f, In f l -> zf_name f = manifestName -> parseManifest f true = Ret (Some m)) ->
  (man <> None -> forall f, In f l -> zf_name f <> manifestName) ->
  exists r, scanFiles l man blocks sfs = Ret (Some r).
Proof.
  induction l as [|f t IH]; intros man blocks sfs m Hnd Hm Hman; [eexists; reflexivity|]. cbn [scanFiles].
  cbn [map] in Hnd. inversion Hnd as [|? ? Hno Hnd']; subst.
  assert (Hm' : forall g, In g t -> zf_name g = manifestName -> parseManifest g true = Ret (Some m)) by (intros; apply Hm; [right|]; assumption).
  assert (Hman' : man <> None -> forall g, In g t -> zf_name g <> manifestName) by (intros Hx g Hg; apply Hman; [exact Hx|right; exact Hg]).
  destruct (hasPrefix (zf_name f) metaInf); cbn [negb]; [|exact (IH _ _ _ _ Hnd' Hm' Hman')].
  fold manifestName. destruct (bytes_eqb (zf_name f) manifestName) eqn:En.
  { apply bytes_eqb_eq in En. destruct man as [m0|].
    - exfalso. apply (Hman ltac:(discriminate) f (or_introl eq_refl)). exact En.
    - rewrite (Hm f (or_introl eq_refl) En). cbn [obind]. apply (IH _ _ _ m Hnd' Hm').
      intros _ g Hg Hgn. apply Hno. rewrite En, <- Hgn. apply in_map. exact Hg. }
  destruct (_ || _); [exact (IH _ _ _ _ Hnd' Hm' Hman')|].
  destruct (hasSuffix (zf_name f) (s2b ".SF")); exact (IH _ _ _ _ Hnd' Hm' Hman').
Qed.

Lemma NoDup_map_inj {A B} (f : A -> B) l x y : NoDup (map f l) -> In x l -> In y l -> f x = f y -> x = y.
Proof.
  induction l as [|a t IH]; intros Hnd Hx Hy He; [destruct Hx|]. cbn [map] in Hnd. inversion Hnd as [|? ? Hno Hnd']; subst.
  destruct Hx as [->|Hx], Hy as [->|Hy]; [reflexivity| | |apply IH; assumption].
  - exfalso. apply Hno. rewrite He. apply in_map. exact Hy.
  - exfalso. apply Hno. rewrite <- He. apply in_map. exact Hx.
Qed.

Section Files.
  Variable E : env.

  (** Blocks that all parse, with different keys, are all kept. *)
  Lemma blocksLoop_honest l : forall sfs sigs, Forall (fun f => isBlockFile f = true) l -> NoDup (map blockKey l) ->
    (forall f, In f l -> sget (blockKey f) sigs = None) ->
    (forall f, In f l -> zf_open_ok f = true /\ (exists p, parseBlockStreams E (zf_streams f) = Ret (Some p)) /\
       exists sf m, sget (blockBase f ++ s2b ".SF") sfs = Some sf /\ parseManifest sf false = Ret (Some m)) ->
    exists new, blocksLoop E l sfs sigs = Ret (Some (sigs ++ new)) /\
      Forall2 (fun f e => fst e = blockKey f /\ Ret (s0_cert (snd e)) = parseBlockStreams E (zf_streams f) /\
                 exists sf m, sget (blockBase f ++ s2b ".SF") sfs = Some sf /\ parseManifest sf false = Ret (Some m) /\ s0_manifest (snd e) = Some m) l new.
  Proof.
    induction l as [|f t IH]; intros sfs sigs HF Hnd Hfresh Hok; [exists []; rewrite app_nil_r; split; [reflexivity|constructor]|].
    inversion HF as [|? ? Hf Ht]; subst. cbn [map] in Hnd. inversion Hnd as [|? ? Hno Hnd']; subst.
    destruct (Hok f (or_introl eq_refl)) as (Ho & (p & Hp) & sf & m & Hsf & Hm).
    rewrite (blocksLoop_step E f t sfs sigs Hf), Hsf, Ho, Hp, Hm. cbn [negb obind]. rewrite sset_sset.
    rewrite (sset_fresh _ _ _ (Hfresh f (or_introl eq_refl))).
    set (e := (blockKey f, mkSig0 (zf_name f) (Some p) (Some m))).
    assert (Hne : forall g, In g t -> blockKey g <> blockKey f) by (intros g Hg C; apply Hno; rewrite <- C; apply in_map; exact Hg).
    assert (Hbase : forall g, In g t -> sget (blockBase g ++ s2b ".SF") (sdel (blockBase f ++ s2b ".SF") sfs) = sget (blockBase g ++ s2b ".SF") sfs).
    { intros g Hg. apply sdel_other. intros C. apply app_inv_tail in C. apply (Hne g Hg). unfold blockKey. rewrite C. reflexivity. }
    destruct (IH (sdel (blockBase f ++ s2b ".SF") sfs) (sigs ++ [e]) Ht Hnd') as (new & Hnew & HF2).
    - intros g Hg. apply (mget_none _ bytes_eqb_eq). rewrite map_app. intros C. apply in_app_or in C as [C|[C|[]]].
      + revert C. apply (mget_none _ bytes_eqb_eq). apply Hfresh. right. exact Hg.
      + cbn [fst e] in C. exact (Hne g Hg (eq_sym C)).
    - intros g Hg. rewrite (Hbase g Hg). apply Hok. right. exact Hg.
    - exists (e :: new). split; [rewrite Hnew, <- app_assoc; reflexivity|]. constructor.
      + cbn [fst snd e s0_cert s0_manifest]. split; [reflexivity|]. split; [congruence|]. exists sf, m. auto.
      + clear -HF2 Hbase. induction HF2 as [|g e' t new Hge HF2 IH]; constructor.
        * rewrite (Hbase g (or_introl eq_refl)) in Hge. exact Hge.
        * apply IH. intros g' Hg'. apply Hbase. right. exact Hg'.
  Qed.
  Lemma parse_single wc f data m : zf_open_ok f = true -> zf_streams f = [Some data] -> parseBytes wc data = Ret (inl m) ->
    parseManifest f wc = Ret (Some m).
  Proof. intros Ho Hs Hp. unfold parseManifest. rewrite Ho, Hs. cbn [parseStreams]. rewrite Hp. reflexivity. Qed.

  Section Honest.
    Variables (S : sched) (apk : zip) (man : manifest) (hv : bool) (minSdk maxSdk : Z) (signers : list jar_signer).
    Hypothesis HS : sched_ok S.
    Hypothesis H : honest_jar E S apk man hv minSdk maxSdk signers.

    Lemma honest_block g : In g signers -> isBlockFile (jg_block g) = true /\ blockBase (jg_block g) = metaInf ++ jg_name g /\
      blockKey (jg_block g) = jg_name g /\ In (jg_block g) (z_ordered apk).
    Proof.
      intros Hg. pose proof (hj_all _ _ _ _ _ _ _ _ H) as HF. rewrite Forall_forall in HF. destruct (HF g Hg) as [Hnm Hext (raw & (Hin & Hname & _ & _) & _) _ _ _ _ _ _ _ _].
      destruct (block_name_facts _ _ _ Hname Hext) as [Hb Hbase]. split; [exact Hb|]. split; [exact Hbase|]. split; [|exact Hin].
      unfold blockKey. rewrite Hbase. apply lastSegment_meta. exact Hnm.
    Qed.
    Definition honestBlocks : list zfile := filter isBlockFile (z_ordered apk).
    Lemma honestBlocks_iff f : In f honestBlocks <-> exists g, In g signers /\ f = jg_block g.
    Proof.
      unfold honestBlocks. rewrite filter_In. split.
      - intros [Hin Hb]. destruct (isBlockFile_iff f Hb) as (x & ext & Hn & He). exact (hj_blocks _ _ _ _ _ _ _ _ H f x ext Hin Hn He).
      - intros (g & Hg & ->). destruct (honest_block g Hg) as (Hb & _ & _ & Hin). auto.
    Qed.
    Lemma NoDup_filter_map {A B} (f : A -> B) (p : A -> bool) l : NoDup (map f l) -> NoDup (map f (filter p l)).
    Proof.
      induction l as [|a t IH]; intros Hnd; [constructor|]. cbn [map] in Hnd. inversion Hnd as [|? ? Hno Hnd']; subst. cbn [filter].
      destruct (p a); [|auto]. cbn [map]. constructor; [|auto]. intros C. apply Hno. apply in_map_iff in C as (y & Hy & Hin).
      apply filter_In in Hin as [Hin _]. rewrite <- Hy. apply in_map. exact Hin.
    Qed.
    Lemma NoDup_honestBlocks : NoDup honestBlocks.
    Proof. apply NoDup_filter. apply (NoDup_map_inv zf_name). apply (hj_zip _ _ _ _ _ _ _ _ H). Qed.
    Lemma NoDup_map_in {A B} (f : A -> B) l : NoDup l -> (forall x y, In x l -> In y l -> f x = f y -> x = y) -> NoDup (map f l).
    Proof.
      induction l as [|a t IH]; intros Hnd Hinj; [constructor|]. inversion Hnd as [|? ? Hno Hnd']; subst. cbn [map]. constructor.
      - intros C. apply in_map_iff in C as (y & Hy & Hin). apply Hno. rewrite <- (Hinj y a (or_intror Hin) (or_introl eq_refl) Hy). exact Hin.
      - apply IH; [exact Hnd'|]. intros x y Hx Hy. apply Hinj; right; assumption.
    Qed.
    Lemma honest_keys : NoDup (map blockKey honestBlocks).
    Proof.
      apply NoDup_map_in; [exact NoDup_honestBlocks|]. intros x y Hx Hy He.
      apply honestBlocks_iff in Hx as (g & Hg & ->). apply honestBlocks_iff in Hy as (g' & Hg' & ->).
      destruct (honest_block g Hg) as (_ & _ & Hk & _). destruct (honest_block g' Hg') as (_ & _ & Hk' & _).
      rewrite Hk, Hk' in He. f_equal. apply (NoDup_map_inj jg_name signers); [apply (hj_distinct _ _ _ _ _ _ _ _ H)|exact Hg|exact Hg'|exact He].
    Qed.

    Definition sigOf (q : bytes * v1sig) (g : jar_signer) : Prop := sg_p7 (snd q) = jg_p7 g /\ sg_sm (snd q) = jg_sm g.

    Lemma newSchemeV1_honest : exists sigs, newSchemeV1 E apk = Ret (Some (mkV1 sigs man)) /\
      (forall q, In q sigs -> exists g, In g signers /\ sigOf q g) /\
      (forall g, In g signers -> exists q, In q sigs /\ sigOf q g) /\
      zlen sigs = zlen signers.
    Proof.
      pose proof (hj_all _ _ _ _ _ _ _ _ H) as HF. rewrite Forall_forall in HF.
      destruct (hj_zip _ _ _ _ _ _ _ _ H) as [Hnd _].
      destruct (hj_manifest _ _ _ _ _ _ _ _ H) as (mf & mdata & (Hmin & Hmn & Hmo & Hms) & Hmp).
      change (s2b "META-INF/MANIFEST.MF") with manifestName in Hmn.
      assert (Hpm : parseManifest mf true = Ret (Some man)) by (apply (parse_single true mf mdata); assumption).
      destruct (scanFiles_total (z_ordered apk) None [] [] man Hnd) as [[[mo blocks] sfs] Es].
      { intros f Hf Hfn. rewrite (NoDup_map_inj zf_name _ f mf Hnd Hf Hmin ltac:(congruence)). exact Hpm. }
      { intros C. congruence. }
      destruct (scanFiles_spec _ _ _ _ _ _ _ Es) as (Hbl & _ & Hman). cbn [app] in Hbl. fold honestBlocks in Hbl.
      assert (Hmo' : mo = Some man).
      { destruct Hman as [[_ Hno]|(l1 & f & l2 & m & Hl & Hf & Hp & Hm & _)]; [exfalso; exact (Hno mf Hmin Hmn)|].
        assert (f = mf) as ->; [|congruence]. apply (NoDup_map_inj zf_name _ f mf Hnd); [rewrite Hl; apply in_or_app; right; left; reflexivity|exact Hmin|congruence]. }
      assert (Hsf : forall g, In g signers -> sget (blockBase (jg_block g) ++ s2b ".SF") sfs = Some (jg_sf g) /\ parseManifest (jg_sf g) false = Ret (Some (jg_sm g))).
      { intros g Hg. destruct (honest_block g Hg) as (Hb & Hbase & _ & _).
        destruct (HF g Hg) as [_ _ _ (data & (Hin & Hname & Ho & Hs) & Hp) _ _ _ _ _ _ _].
        split; [|apply (parse_single false _ data); assumption].
        assert (Hn : zf_name (jg_sf g) = blockBase (jg_block g) ++ s2b ".SF") by (rewrite Hname, Hbase, <- app_assoc; reflexivity).
        rewrite <- Hn. apply (scanFiles_sf _ _ _ _ _ _ _ _ Es Hin).
        - rewrite Hname. apply hasPrefix_iff. eexists; reflexivity.
        - rewrite Hn. apply hasSuffix_iff. eexists; reflexivity.
        - intros f Hf Hfn. exact (NoDup_map_inj zf_name _ f _ Hnd Hf Hin Hfn).
        - left. reflexivity. }
      assert (Hpk : forall g, In g signers -> zf_open_ok (jg_block g) = true /\ parseBlockStreams E (zf_streams (jg_block g)) = Ret (Some (jg_p7 g))).
      { intros g Hg. destruct (HF g Hg) as [_ _ (raw & (_ & _ & Ho & Hs) & Hp) _ _ _ _ _ _ _ _]. split; [exact Ho|]. rewrite Hs. cbn [parseBlockStreams]. rewrite Hp. reflexivity. }
      destruct (blocksLoop_honest blocks sfs []) as (new & Hnew & HF2).
      { rewrite Hbl. apply Forall_forall. intros f Hf. apply filter_In in Hf as [_ Hf]. exact Hf. }
      { rewrite Hbl. exact honest_keys. }
      { reflexivity. }
      { intros f Hf. rewrite Hbl in Hf. apply honestBlocks_iff in Hf as (g & Hg & ->). destruct (Hpk g Hg) as [Ho Hp]. destruct (Hsf g Hg) as [Hg1 Hg2].
        split; [exact Ho|]. split; [eauto|]. eauto. }
      cbn [app] in Hnew.
      assert (Hcomp : forall f e, In f blocks -> fst e = blockKey f /\ Ret (s0_cert (snd e)) = parseBlockStreams E (zf_streams f) /\
                 (exists sf m, sget (blockBase f ++ s2b ".SF") sfs = Some sf /\ parseManifest sf false = Ret (Some m) /\ s0_manifest (snd e) = Some m) ->
                 exists g, In g signers /\ f = jg_block g /\ s0_cert (snd e) = Some (jg_p7 g) /\ s0_manifest (snd e) = Some (jg_sm g)).
      { intros f e Hf (_ & Hc & sf & m & Hg1 & Hg2 & Hg3). rewrite Hbl in Hf. apply honestBlocks_iff in Hf as (g & Hg & ->).
        exists g. split; [exact Hg|]. split; [reflexivity|]. destruct (Hpk g Hg) as [_ Hp]. destruct (Hsf g Hg) as [Hs1 Hs2]. split; [congruence|].
        assert (sf = jg_sf g) as -> by congruence. congruence. }
      assert (Hlen : zlen (prepSigs new) = zlen blocks).
      { clear -HF2 Hcomp. induction HF2 as [|f e t new Hfe HF2 IH]; [reflexivity|].
        destruct (Hcomp f e (or_introl eq_refl) Hfe) as (g & _ & _ & Hc & Hm).
        change (prepSigs (e :: new)) with ((match s0_cert (snd e), s0_manifest (snd e) with Some c, Some m => [(fst e, mkSig (s0_blockName (snd e)) c m)] | _, _ => [] end) ++ prepSigs new).
        rewrite Hc, Hm. cbn [app]. rewrite !zlen_cons, IH; [reflexivity|]. intros f' e' Hf'. apply Hcomp. right. exact Hf'. }
      assert (Hblen : zlen blocks = zlen signers).
      { rewrite Hbl. transitivity (zlen (map jg_block signers)); [|apply zlen_map].
        unfold zlen. f_equal. apply Permutation_length. apply NoDup_Permutation.
        - exact NoDup_honestBlocks.
        - apply (NoDup_map_inv blockKey). rewrite map_map.
          assert (Hk : map (fun g => blockKey (jg_block g)) signers = map jg_name signers).
          { apply map_ext_in. intros g Hg. apply (honest_block g Hg). }
          rewrite Hk. apply (hj_distinct _ _ _ _ _ _ _ _ H).
        - intros f. rewrite honestBlocks_iff, in_map_iff. split; intros (g & H1 & H2); exists g; auto. }
      exists (prepSigs new). split; [|split; [|split]].
      - unfold newSchemeV1. rewrite Es. cbn [obind]. rewrite Hnew. cbn [obind]. rewrite Hmo'.
        destruct (prepSigs new) as [|s0 st] eqn:Ep; [|reflexivity]. exfalso.
        destruct (hj_signers _ _ _ _ _ _ _ _ H) as [Hne _]. apply Hne. rewrite Hblen in Hlen. destruct signers; [reflexivity|].
        rewrite zlen_cons in Hlen. change (zlen (@nil (bytes * v1sig))) with 0 in Hlen. pose proof (zlen_nonneg l). lia.
      - intros [k sig] Hq. apply prepSigs_in in Hq as (s & Hs & Hc & Hm).
        clear -HF2 Hcomp Hs Hc Hm. induction HF2 as [|f e t new Hfe HF2 IH]; [destruct Hs|].
        destruct Hs as [->|Hs]; [|apply IH; [intros f' e' Hf'; apply Hcomp; right; exact Hf'|exact Hs]].
        destruct (Hcomp f _ (or_introl eq_refl) Hfe) as (g & Hg & _ & Hc' & Hm'). cbn [snd] in *. exists g. split; [exact Hg|]. unfold sigOf. cbn [snd]. split; congruence.
      - intros g Hg. assert (Hin : In (jg_block g) blocks) by (rewrite Hbl; apply honestBlocks_iff; eauto).
        clear -HF2 Hcomp Hg Hin H. induction HF2 as [|f e t new Hfe HF2 IH]; [destruct Hin|].
        destruct Hin as [->|Hin].
        + destruct (Hcomp _ _ (or_introl eq_refl) Hfe) as (g' & Hg' & Hbb & Hc' & Hm').
          assert (g' = g) as ->.
          { apply (NoDup_map_inj jg_name signers); [apply (hj_distinct _ _ _ _ _ _ _ _ H)|exact Hg'|exact Hg|].
            destruct (honest_block g Hg) as (_ & _ & Hk & _). destruct (honest_block g' Hg') as (_ & _ & Hk' & _). congruence. }
          destruct e as [k s]. cbn [snd] in *. exists (k, mkSig (s0_blockName s) (jg_p7 g) (jg_sm g)). split; [exact (prepSigs_mem ((k, s) :: new) k s _ _ (or_introl eq_refl) Hc' Hm')|]. split; reflexivity.
        + destruct (IH (fun f' e' Hf' => Hcomp f' e' (or_intror Hf')) Hin) as (q & Hq & Hs). exists q. split; [|exact Hs].
          change (prepSigs (e :: new)) with ((match s0_cert (snd e), s0_manifest (snd e) with Some c, Some m => [(fst e, mkSig (s0_blockName (snd e)) c m)] | _, _ => [] end) ++ prepSigs new).
          apply in_or_app. right. exact Hq.
      - congruence.
    Qed.

    Lemma sget_nodup_map (l : list zfile) f : NoDup (map zf_name l) -> In f l -> sget (zf_name f) (map (fun f => (zf_name f, f)) l) = Some f.
    Proof.
      intros Hnd Hin. apply (in_mget _ bytes_eqb_eq).
      - rewrite map_map. cbn [fst]. exact Hnd.
      - apply (in_map (fun f => (zf_name f, f))). exact Hin.
    Qed.

    Lemma v1_honest : exists chains, verifySchemeV1 E S apk hv minSdk maxSdk = Ret (chains, None) /\
      zlen chains = zlen signers /\
      (forall ch, In ch chains -> exists g t, In g signers /\ c_raw (jg_cert g) :: t = map c_raw ch) /\
      (forall g, In g signers -> exists ch t, In ch chains /\ map c_raw ch = c_raw (jg_cert g) :: t).
    Proof.
      destruct newSchemeV1_honest as (sigs & Hnew & H1 & H2 & Hlen).
      pose proof (hj_all _ _ _ _ _ _ _ _ H) as HF. rewrite Forall_forall in HF.
      destruct (newSchemeV1_spec E apk _ Hnew) as (_ & Hndk & _ & Hpairs). cbn [v1_sigs] in Hndk, Hpairs.
      assert (Hver : forall q g, In g signers -> sigOf q g -> verified E minSdk maxSdk S (snd q) (buildChain E S (p7_certs (jg_p7 g)) (jg_cert g))).
      { intros q g Hg [Hq1 Hq2]. destruct (HF g Hg) as [_ _ _ _ Hone Hsig Huniq _ _ _ _]. unfold verified.
        rewrite (verifySignature_complete E S (snd q) (jg_info g) minSdk maxSdk (jg_cert g)); [rewrite Hq1; reflexivity|rewrite Hq1; exact Hone|].
        apply verifySigner_complete; rewrite Hq1; [rewrite Hq2; exact Hsig|exact Huniq]. }
      assert (Hchain : forall q g, In g signers -> sigOf q g -> exists t, chainOf E minSdk maxSdk S (snd q) = jg_cert g :: t).
      { intros q g Hg Hq. pose proof (Hver q g Hg Hq) as Hv. unfold verified in Hv. unfold chainOf. rewrite Hv.
        destruct (HF g Hg) as [_ _ _ _ _ (Hcin & _) _ _ _ _ _].
        destruct (buildChain_spec E S _ _ Hcin) as (t & Hb & _). exists t. exact Hb. }
      assert (Hvalid : forall q, In q sigs -> isValidSig E man minSdk maxSdk q = true /\ stops E man hv minSdk maxSdk (sg_sm (snd q)) = false).
      { intros q Hq. destruct (H1 q Hq) as (g & Hg & Hq1 & Hq2). destruct (HF g Hg) as [_ _ _ _ _ _ _ Hb Hm Hv2 _].
        destruct q as [k sig]. cbn [snd] in *. pose proof (pair_nodup E apk _ _ (Hpairs k sig Hq)) as Hnde. split.
        - unfold isValidSig. cbn [snd]. apply binds_valid; [exact Hnde|]. rewrite Hq2. exact Hb.
        - unfold stops. apply orb_false_iff. split.
          + apply not_true_iff_false. intros C. apply downgrades_iff in C as (C1 & C2 & C3). rewrite Hq2 in C3. destruct Hv2 as [Hv2|[Hv2|Hv2]]; [congruence|lia|exact (Hv2 C3)].
          + rewrite Hq2, (main_ok_not_bad E man minSdk maxSdk _ Hm). destruct (hasVersion _); reflexivity. }
      assert (Hfil : filter (isValidSig E man minSdk maxSdk) sigs = sigs).
      { clear -Hvalid. induction sigs as [|q t IH]; [reflexivity|]. cbn [filter]. destruct (Hvalid q (or_introl eq_refl)) as [-> _]. f_equal. apply IH. intros q' Hq'. apply Hvalid. right. exact Hq'. }
      set (chs := map (fun q => chainOf E minSdk maxSdk S (snd q)) sigs).
      destruct (hj_apk _ _ _ _ _ _ _ _ H) as (xml & Hxml & Hxd).
      destruct (hj_zip _ _ _ _ _ _ _ _ H) as [Hnd Hmap].
      assert (Hreq : forall path, In path (requiredFiles (z_map apk)) -> exists f, covered_file apk path f).
      { intros path Hp. unfold requiredFiles in Hp. apply in_app_or in Hp as [Hp|Hp].
        - apply in_map_iff in Hp as ([n f] & Hn & Hp). cbn [fst] in Hn. subst n. apply filter_In in Hp as [Hin Hp]. cbn [fst snd] in Hp.
          apply andb_true_iff in Hp as [Hp Hp3]. apply andb_true_iff in Hp as [Hp1 Hp2].
          apply negb_true_iff in Hp1, Hp2, Hp3. exists f. split; [split; [|exact Hp1]|].
          + apply (in_mget _ bytes_eqb_eq); [|exact Hin]. rewrite Hmap, map_map. cbn [fst]. exact Hnd.
          + split; [apply bytes_eqb_neq; exact Hp2|]. intros x ->. apply (proj1 (hasPrefix_false _ _)) with (1 := Hp3) (r := x). reflexivity.
        - exfalso. assert (Hex : existsb (fun p => negb (zf_isdir (snd p)) && (bytes_eqb (fst p) androidManifest || bytes_eqb (fst p) (s2b "BundleConfig.pb"))) (z_map apk) = true).
          { apply existsb_exists. exists (s2b "AndroidManifest.xml", xml). split; [apply (mget_in _ bytes_eqb_eq); exact Hxml|]. cbn [fst snd]. rewrite Hxd. reflexivity. }
          rewrite Hex in Hp. destruct Hp. }
      assert (Hcf : forall path f, covered_file apk path f -> chainsFor (map (withChain E minSdk maxSdk S) sigs) path = chs).
      { intros path f Hc. unfold chainsFor, chs. clear -H1 HF Hc. induction sigs as [|q t IH]; [reflexivity|]. cbn [map filter].
        destruct (H1 q (or_introl eq_refl)) as (g & Hg & _ & Hq2). destruct (HF g Hg) as [_ _ _ _ _ _ _ _ _ _ Hl]. destruct (Hl path f Hc) as [a Ha].
        unfold lists at 1, withChain at 1. cbn [fst snd]. rewrite Hq2, Ha. cbn [map]. f_equal. apply IH. intros q' Hq'. apply H1. right. exact Hq'. }
      assert (Hchne : chs <> []).
      { unfold chs. destruct (hj_signers _ _ _ _ _ _ _ _ H) as [Hne _]. destruct signers as [|g gs]; [congruence|]. destruct (H2 g (or_introl eq_refl)) as (q & Hq & _). destruct sigs; [destruct Hq|discriminate]. }
      assert (Hsucc : v1_success E S (mkV1 sigs man) apk hv minSdk maxSdk chs).
      { constructor; cbn [v1_sigs v1_manifest]; try rewrite Hfil.
        - apply Forall_forall. intros q Hq. destruct (H1 q Hq) as (g & Hg & Hqg). split; [eexists; exact (Hver q g Hg Hqg)|]. apply Hvalid. exact Hq.
        - intros C. apply Hchne. unfold chs. rewrite C. reflexivity.
        - rewrite Hlen. apply (hj_signers _ _ _ _ _ _ _ _ H).
        - intros name Hn. destruct (sget name (m_entries man)) as [a|] eqn:Ea; [exact (hj_entries _ _ _ _ _ _ _ _ H name a Ea)|].
          apply (mget_none _ bytes_eqb_eq) in Ea. contradiction.
        - intros path Hp. destruct (Hreq path Hp) as [f Hc]. split.
          + destruct (hj_files _ _ _ _ _ _ _ _ H path f Hc) as (at_ & Ha & Hd). exists at_. split; [exact Ha|]. apply (fileCheck_iff E _ _ _ _ _ f); [apply Hc|exact Hd].
          + rewrite (Hcf path f Hc). exact Hchne.
        - intros path Hp. destruct (Hreq path Hp) as [f Hc]. rewrite (Hcf path f Hc). apply same_chains_refl.
        - intros _. apply same_chains_refl. }
      destruct (verifyV1_complete E S (mkV1 sigs man) apk hv minSdk maxSdk chs HS Hndk Hsucc) as [chains Hv].
      pose proof (verifyV1_sound E S (mkV1 sigs man) apk hv minSdk maxSdk chains HS Hndk Hv) as Hsucc'.
      destruct (v1_success_chains E S _ apk hv minSdk maxSdk _ _ Hsucc' Hsucc) as (Hl & Hs1 & Hs2).
      exists chains. split; [unfold verifySchemeV1; rewrite Hnew; exact Hv|]. split.
      - unfold zlen in *. rewrite Hl. unfold chs. rewrite map_length. exact Hlen.
      - split.
        + intros ch Hc. destruct (Hs1 ch Hc) as (y & Hy & Hsame). apply in_map_iff in Hy as (q & <- & Hq). destruct (H1 q Hq) as (g & Hg & Hqg).
          destruct (Hchain q g Hg Hqg) as [t Ht]. exists g, (map c_raw t). split; [exact Hg|]. unfold same_chain in Hsame. rewrite Hsame, Ht. reflexivity.
        + intros g Hg. destruct (H2 g Hg) as (q & Hq & Hqg). destruct (Hchain q g Hg Hqg) as [t Ht].
          destruct (Hs2 (chainOf E minSdk maxSdk S (snd q))) as (ch & Hc & Hsame); [apply (in_map (fun q => chainOf E minSdk maxSdk S (snd q))); exact Hq|].
          exists ch, (map c_raw t). split; [exact Hc|]. unfold same_chain in Hsame. rewrite Hsame, Ht. reflexivity.
    Qed.
  End Honest.
End Files.
