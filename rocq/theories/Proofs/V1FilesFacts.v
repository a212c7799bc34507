(** newSchemeV1: which files of the APK a v1 scheme is made of *)
From Coq Require Import String.
From Coq Require Import Lia.
From Verif.Model Require Import Bytes Env ApiLevel GoStrings Manifest PkixName SchemeV1.
From Verif.Spec Require Import JarSigned.
From Verif.Proofs Require Import BytesFacts ManifestFacts GoStringsFacts.

(** ** Parsed manifests *)
Lemma sectionsLoop_nodup wc fuel : forall mk r clb e c e' c', sectionsLoop fuel wc mk r clb e c = Ret (inl (e', c')) ->
  NoDup (map fst e) -> NoDup (map fst e').
Proof.
  induction fuel as [|n IH]; intros mk r clb e c e' c' H Hnd; cbn [sectionsLoop] in H; [discriminate|].
  destruct (readHeader r clb) as [[h|er]|] eqn:Eh; cbn [obind] in H; [|discriminate|discriminate].
  destruct (h_single h); cbn [negb] in H; [|assert (e' = e) as -> by congruence; exact Hnd].
  destruct (bytes_eqb (h_name h) attrName); cbn [negb] in H; [|discriminate].
  destruct (attrsLoop _ _ _ _) as [[[[en r'] clb']|er]|]; cbn [obind] in H; [|discriminate|discriminate].
  assert (Hnd' : NoDup (map fst (sset (h_value h) en e))) by (apply mset_nodup; [exact bytes_eqb_eq|exact Hnd]).
  destruct wc.
  - destruct (sget (h_value h) c); [discriminate|]. exact (IH _ _ _ _ _ _ _ H Hnd').
  - exact (IH _ _ _ _ _ _ _ H Hnd').
Qed.
Lemma parseBytes_facts wc data m : parseBytes wc data = Ret (inl m) -> m_rawData m = data /\ NoDup (map fst (m_entries m)).
Proof.
  unfold parseBytes. intros H.
  destruct (attrsLoop _ _ _ _) as [[[[main r] clb]|e]|]; cbn [obind] in H; [|discriminate|discriminate].
  destruct (sectionsLoop _ _ _ _ _ _ _) as [[[en ch]|e]|] eqn:Es; cbn [obind] in H; [|discriminate|discriminate].
  assert (m = mkManifest data main en ch (zlen data - zlen r)) as -> by congruence. split; [reflexivity|].
  cbn [m_entries]. apply (sectionsLoop_nodup _ _ _ _ _ _ _ _ _ Es). constructor.
Qed.
Lemma parseStreams_some wc l m : parseStreams wc l = Ret (Some m) -> exists data, In (Some data) l /\ parseBytes wc data = Ret (inl m).
Proof.
  induction l as [|[d|] t IH]; intros H; cbn [parseStreams] in H; [discriminate| |].
  - destruct (parseBytes wc d) as [[m'|e]|] eqn:Ep; cbn [obind] in H; [| |discriminate].
    + assert (m' = m) by congruence. subst m'. exists d. split; [left; reflexivity|exact Ep].
    + destruct (IH H) as (d' & Hi & Hp). exists d'. split; [right; exact Hi|exact Hp].
  - destruct (IH H) as (d' & Hi & Hp). exists d'. split; [right; exact Hi|exact Hp].
Qed.
Lemma parseManifest_some f wc m : parseManifest f wc = Ret (Some m) ->
  zf_open_ok f = true /\ exists data, In (Some data) (zf_streams f) /\ parseBytes wc data = Ret (inl m).
Proof. unfold parseManifest. destruct (zf_open_ok f); [|discriminate]. intros H. split; [reflexivity|]. exact (parseStreams_some _ _ _ H). Qed.

(** ** File names *)
Lemma cutLast_app_right s t sep : ~ In sep t ->
  cutLast (s ++ t) sep = match cutLast s sep with Some (a, b) => Some (a, b ++ t) | None => None end.
Proof.
  intros Hn. destruct (cutLast s sep) as [[a b]|] eqn:E.
  - apply cutLast_some in E as [-> Hb]. apply cutLast_some. split; [rewrite <- app_assoc; reflexivity|].
    intros Hi. apply in_app_or in Hi as [Hi|Hi]; [exact (Hb Hi)|exact (Hn Hi)].
  - apply cutLast_none in E. apply cutLast_none. intros Hi. apply in_app_or in Hi as [Hi|Hi]; [exact (E Hi)|exact (Hn Hi)].
Qed.
(** The part after the last slash. *)
Definition lastSegment (base : bytes) : bytes := match cutLast base "/"%byte with Some (_, b) => b | None => base end.
Lemma dropSlashes_id l : match l with c :: _ => c <> "/"%byte | [] => True end -> dropSlashes l = l.
Proof. destruct l as [|c t]; [reflexivity|]. intros H. cbn [dropSlashes]. rewrite byte_eqb_neq by exact H. reflexivity. Qed.
Lemma signaturePrefix_ext base ext : ~ In "/"%byte ext -> ~ In "."%byte ext ->
  signaturePrefix (base ++ "."%byte :: ext) = Ret (lastSegment base).
Proof.
  intros Hs Hd. unfold signaturePrefix, pathBase.
  set (p := base ++ "."%byte :: ext).
  assert (Hsl : ~ In "/"%byte ("."%byte :: ext)) by (intros [H|H]; [discriminate|exact (Hs H)]).
  assert (Hdr : rev (dropSlashes (rev p)) = p).
  { rewrite dropSlashes_id; [apply rev_involutive|]. unfold p. rewrite rev_app_distr. cbn [rev].
    destruct (rev ext ++ ["."%byte]) as [|c t] eqn:Er; [destruct (rev ext); discriminate|]. cbn [app].
    intros ->. apply Hsl. apply in_rev. cbn [rev]. rewrite Er. left. reflexivity. }
  assert (Hp : exists c t, p = c :: t) by (unfold p; destruct base; do 2 eexists; reflexivity).
  destruct Hp as (c0 & t0 & Hp). rewrite Hp, <- Hp, Hdr.
  assert (Hb : match cutLast p "/"%byte with Some (_, b) => b | None => p end = lastSegment base ++ "."%byte :: ext).
  { unfold p. rewrite (cutLast_app_right base ("."%byte :: ext)) by exact Hsl. unfold lastSegment.
    destruct (cutLast base "/"%byte) as [[a b]|]; reflexivity. }
  rewrite Hb.
  assert (Hne : exists c t, lastSegment base ++ "."%byte :: ext = c :: t) by (destruct (lastSegment base); do 2 eexists; reflexivity).
  destruct Hne as (c1 & t1 & Hne). rewrite Hne, <- Hne.
  rewrite (proj2 (cutLast_some (lastSegment base ++ "."%byte :: ext) "."%byte (lastSegment base) ext)) by (split; [reflexivity|exact Hd]).
  reflexivity.
Qed.

Definition block_exts : list bytes := [s2b "RSA"; s2b "DSA"; s2b "EC"].
Definition isBlockName (n : bytes) : bool := hasSuffix n (s2b ".RSA") || hasSuffix n (s2b ".DSA") || hasSuffix n (s2b ".EC").
Lemma isBlockName_iff n : isBlockName n = true <-> exists base ext, In ext block_exts /\ n = base ++ "."%byte :: ext.
Proof.
  unfold isBlockName, block_exts. rewrite !orb_true_iff, !hasSuffix_iff. split.
  - intros [[[r ->]|[r ->]]|[r ->]]; exists r; [exists (s2b "RSA")|exists (s2b "DSA")|exists (s2b "EC")]; (split; [cbn; auto|reflexivity]).
  - intros (base & ext & [<-|[<-|[<-|[]]]] & ->); eauto.
Qed.
Lemma block_ext_clean ext : In ext block_exts -> ~ In "/"%byte ext /\ ~ In "."%byte ext.
Proof.
  intros [<-|[<-|[<-|[]]]]; (split; intros H; repeat (destruct H as [H|H]; [discriminate|]); destruct H).
Qed.
Lemma metaInf_base base ext y : base ++ "."%byte :: ext = metaInf ++ y -> ~ In "/"%byte ext -> exists x, base = metaInf ++ x.
Proof.
  intros H Hs. destruct (app_prefix_cases _ _ _ _ H) as [[r ->]|[r Hr]]; [exists r; reflexivity|].
  destruct r as [|b r]; [exists []; rewrite app_nil_r in *; congruence|]. exfalso.
  assert (Hin : In "/"%byte ("."%byte :: ext)).
  { rewrite Hr, <- app_assoc in H. apply app_inv_head in H. rewrite H. apply in_or_app. left.
    assert (Hl : last (b :: r) x00 = "/"%byte).
    { transitivity (last metaInf x00); [|reflexivity]. rewrite Hr. clear.
      induction base as [|a t IH]; [reflexivity|]. cbn [app]. rewrite IH. destruct (t ++ b :: r) eqn:E; [destruct t; discriminate|reflexivity]. }
    rewrite <- Hl. clear. revert b. induction r as [|c r IH]; intros b; [left; reflexivity|]. right. exact (IH c). }
  destruct Hin as [Hin|Hin]; [discriminate|exact (Hs Hin)].
Qed.

(** ** Scanning the files *)
Definition manifestName : bytes := s2b "META-INF/MANIFEST.MF".
Definition isBlockFile (f : zfile) : bool :=
  hasPrefix (zf_name f) metaInf && negb (bytes_eqb (zf_name f) manifestName) && isBlockName (zf_name f).

Lemma scanFiles_spec l : forall man blocks sfs man' blocks' sfs',
  scanFiles l man blocks sfs = Ret (Some (man', blocks', sfs')) ->
  blocks' = blocks ++ filter isBlockFile l /\
  (forall n f, In (n, f) sfs' -> In (n, f) sfs \/ (In f l /\ zf_name f = n)) /\
  match man with
  | Some m => man' = Some m /\ forall f, In f l -> zf_name f <> manifestName
  | None =>
      (man' = None /\ forall f, In f l -> zf_name f <> manifestName) \/
      exists l1 f l2 m, l = l1 ++ f :: l2 /\ zf_name f = manifestName /\ parseManifest f true = Ret (Some m) /\ man' = Some m /\
        forall g, In g (l1 ++ l2) -> zf_name g <> manifestName
  end.
Proof.
  induction l as [|f t IH]; intros man blocks sfs man' blocks' sfs' H; cbn [scanFiles] in H.
  - assert (man' = man /\ blocks' = blocks /\ sfs' = sfs) as (-> & -> & ->) by (repeat split; congruence).
    cbn [filter]. rewrite app_nil_r. split; [reflexivity|]. split; [auto|].
    destruct man; [split; [reflexivity|intros ? []]|left; split; [reflexivity|intros ? []]].
  - assert (Hcons : forall man0 blocks0 sfs0, scanFiles t man0 blocks0 sfs0 = Ret (Some (man', blocks', sfs')) ->
      zf_name f <> manifestName -> man0 = man ->
      match man with
      | Some m => man' = Some m /\ forall g, In g (f :: t) -> zf_name g <> manifestName
      | None => (man' = None /\ forall g, In g (f :: t) -> zf_name g <> manifestName) \/
        exists l1 f0 l2 m, f :: t = l1 ++ f0 :: l2 /\ zf_name f0 = manifestName /\ parseManifest f0 true = Ret (Some m) /\ man' = Some m /\
          forall g, In g (l1 ++ l2) -> zf_name g <> manifestName
      end).
    { intros man0 blocks0 sfs0 H0 Hn ->. destruct (IH _ _ _ _ _ _ H0) as (_ & _ & Hm). destruct man as [m|].
      - destruct Hm as [-> Hno]. split; [reflexivity|]. intros g [<-|Hg]; [exact Hn|exact (Hno g Hg)].
      - destruct Hm as [[-> Hno]|(l1 & f0 & l2 & m & -> & Hf & Hp & -> & Hno)].
        + left. split; [reflexivity|]. intros g [<-|Hg]; [exact Hn|exact (Hno g Hg)].
        + right. exists (f :: l1), f0, l2, m. repeat (split; [reflexivity || assumption|]). intros g [<-|Hg]; [exact Hn|exact (Hno g Hg)]. }
    cbn [filter]. unfold isBlockFile at 1.
    destruct (hasPrefix (zf_name f) metaInf) eqn:Ep; cbn [negb andb] in H |- *.
    2:{ assert (Hn : zf_name f <> manifestName) by (intros Hn; rewrite Hn in Ep; discriminate).
        specialize (Hcons _ _ _ H Hn eq_refl). destruct (IH _ _ _ _ _ _ H) as (-> & Hsf & _).
        split; [reflexivity|]. split; [|exact Hcons]. intros n g Hg. destruct (Hsf n g Hg) as [Hi|[Hi Hnm]]; [left; exact Hi|right; split; [right; exact Hi|exact Hnm]]. }
    fold manifestName in H. destruct (bytes_eqb (zf_name f) manifestName) eqn:Em; cbn [negb andb] in H |- *.
    { apply bytes_eqb_eq in Em. destruct man as [m|]; [discriminate|].
      destruct (parseManifest f true) as [[m|]|] eqn:Epm; cbn [obind] in H; [|discriminate|discriminate].
      destruct (IH _ _ _ _ _ _ H) as (-> & Hsf & [-> Hno]).
      split; [reflexivity|]. split.
      - intros n g Hg. destruct (Hsf n g Hg) as [Hi|[Hi Hnm]]; [left; exact Hi|right; split; [right; exact Hi|exact Hnm]].
      - right. exists [], f, t, m. repeat (split; [reflexivity || assumption|]). exact Hno. }
    apply bytes_eqb_neq in Em.
    fold (isBlockName (zf_name f)) in H. destruct (isBlockName (zf_name f)) eqn:Eb.
    { specialize (Hcons _ _ _ H Em eq_refl). destruct (IH _ _ _ _ _ _ H) as (-> & Hsf & _).
      split; [rewrite <- app_assoc; reflexivity|]. split; [|exact Hcons].
      intros n g Hg. destruct (Hsf n g Hg) as [Hi|[Hi Hnm]]; [left; exact Hi|right; split; [right; exact Hi|exact Hnm]]. }
    destruct (hasSuffix (zf_name f) (s2b ".SF")).
    + specialize (Hcons _ _ _ H Em eq_refl). destruct (IH _ _ _ _ _ _ H) as (-> & Hsf & _).
      split; [reflexivity|]. split; [|exact Hcons].
      intros n g Hg. destruct (Hsf n g Hg) as [Hi|[Hi Hnm]]; [|right; split; [right; exact Hi|exact Hnm]].
      destruct (sget (zf_name f) sfs) eqn:Eg; [left; exact Hi|].
      rewrite (sset_fresh _ _ _ Eg) in Hi. apply in_app_or in Hi as [Hi|[Hi|[]]]; [left; exact Hi|].
      apply pair_equal_spec in Hi as [<- <-]. right. split; [left; reflexivity|reflexivity].
    + specialize (Hcons _ _ _ H Em eq_refl). destruct (IH _ _ _ _ _ _ H) as (-> & Hsf & _).
      split; [reflexivity|]. split; [|exact Hcons].
      intros n g Hg. destruct (Hsf n g Hg) as [Hi|[Hi Hnm]]; [left; exact Hi|right; split; [right; exact Hi|exact Hnm]].
Qed.

Section Files.
  Variable E : env.
  Variable apk : zip.

  Lemma parseBlockStreams_some l p : parseBlockStreams E l = Ret (Some p) -> exists raw, In (Some raw) l /\ e_pkcs7 E raw = Ret (Some p).
  Proof.
    induction l as [|[d|] t IH]; intros H; cbn [parseBlockStreams] in H; [discriminate| |].
    - destruct (e_pkcs7 E d) as [[s|]|] eqn:Ep; cbn [obind] in H; [| |discriminate].
      + assert (s = p) by congruence. subst s. exists d. split; [left; reflexivity|exact Ep].
      + destruct (IH H) as (r & Hr & He). exists r. split; [right; exact Hr|exact He].
    - destruct (IH H) as (r & Hr & He). exists r. split; [right; exact Hr|exact He].
  Qed.

  Definition sigs_inv (sigs : list (bytes * v1sig0)) : Prop :=
    NoDup (map fst sigs) /\
    forall k s p sm, sget k sigs = Some s -> s0_cert s = Some p -> s0_manifest s = Some sm -> signature_pair E apk p sm.

  Lemma sdel_in {V} k (m : list (bytes * V)) x : In x (sdel k m) -> In x m.
  Proof. apply mdel_incl. Qed.

  Lemma blocksLoop_spec l : forall sfs sigs sigs',
    (forall f, In f l -> In f (z_ordered apk) /\ isBlockFile f = true) ->
    (forall n f, In (n, f) sfs -> In f (z_ordered apk) /\ zf_name f = n) ->
    sigs_inv sigs -> blocksLoop E l sfs sigs = Ret (Some sigs') -> sigs_inv sigs'.
  Proof.
    induction l as [|f t IH]; intros sfs sigs sigs' Hl Hsfs Hinv H; cbn [blocksLoop] in H.
    - assert (sigs' = sigs) by congruence. subst. exact Hinv.
    - destruct (Hl f (or_introl eq_refl)) as [Hf Hbf]. unfold isBlockFile in Hbf.
      apply andb_true_iff in Hbf as [Hbf Hbn]. apply andb_true_iff in Hbf as [Hpre _]. apply hasPrefix_iff in Hpre as [y Hy].
      apply isBlockName_iff in Hbn as (base & ext & Hext & Hname). destruct (block_ext_clean ext Hext) as [Hsl Hdt].
      assert (Hcut : cutLast (zf_name f) "."%byte = Some (base, ext)) by (apply cutLast_some; auto). rewrite Hcut in H.
      assert (Hl' : forall g, In g t -> In g (z_ordered apk) /\ isBlockFile g = true) by (intros g Hg; apply Hl; right; exact Hg).
      set (sfname := base ++ s2b ".SF") in *.
      destruct (sget sfname sfs) as [sf|] eqn:Esf; [|exact (IH _ _ _ Hl' Hsfs Hinv H)].
      destruct (Hsfs sfname sf) as [Hsfin Hsfname]; [apply (mget_in _ bytes_eqb_eq); exact Esf|].
      unfold addSignatureBlock in H. destruct (zf_open_ok f) eqn:Eo; cbn [negb] in H; [|discriminate].
      destruct (parseBlockStreams E (zf_streams f)) as [[p|]|] eqn:Eps; cbn [obind] in H; [|discriminate|discriminate].
      rewrite Hname, (signaturePrefix_ext base ext Hsl Hdt) in H. cbn [obind] in H.
      unfold addSignatureFile in H.
      assert (Hsfp : signaturePrefix sfname = Ret (lastSegment base)).
      { apply (signaturePrefix_ext base (s2b "SF")); intros Hi; repeat (destruct Hi as [Hi|Hi]; [discriminate|]); destruct Hi. }
      rewrite Hsfp in H. cbn [obind] in H. set (k := lastSegment base) in *.
      rewrite mget_mset_same in H by exact bytes_eqb_eq. cbn [s0_cert s0_blockName] in H.
      destruct (parseManifest sf false) as [m|] eqn:Epm; cbn [obind] in H; [|discriminate].
      set (sigs1 := sset k _ sigs) in H. set (sigs2 := sset k _ sigs1) in H.
      assert (Hinv2 : sigs_inv sigs2).
      { destruct Hinv as [Hnd Hp]. split.
        - apply mset_nodup; [exact bytes_eqb_eq|]. apply mset_nodup; [exact bytes_eqb_eq|exact Hnd].
        - intros k' s p' sm Hg Hc Hm. unfold sigs2 in Hg. rewrite sget_sset in Hg.
          destruct (bytes_eqb k' k) eqn:Ek.
          + assert (s = mkSig0 (base ++ "."%byte :: ext) (Some p) m) as -> by congruence. cbn [s0_cert s0_manifest] in Hc, Hm.
            assert (p' = p) as -> by congruence. subst m. destruct (parseManifest_some _ _ _ Epm) as (Hso & data & Hd & Hpb).
            destruct (parseBlockStreams_some _ _ Eps) as (raw & Hraw & Hpk).
            destruct (parseBytes_facts _ _ _ Hpb) as [Hrd _].
            destruct (metaInf_base base ext y) as [x Hx]; [rewrite <- Hname; exact Hy|exact Hsl|].
            exists base, ("."%byte :: ext), f, sf, raw, data.
            split; [destruct Hext as [<-|[<-|[<-|[]]]]; cbn; auto|].
            repeat (split; [assumption|]). exists x. exact Hx.
          + unfold sigs1 in Hg. rewrite sget_sset, Ek in Hg. exact (Hp k' s p' sm Hg Hc Hm). }
      apply (IH _ _ _ Hl') with (2 := Hinv2) (3 := H).
      intros n g Hg. apply Hsfs. destruct m; [apply (sdel_in _ _ _ Hg)|exact Hg].
  Qed.

  Lemma prepSigs_in sigs k sig : In (k, sig) (prepSigs sigs) ->
    exists s, In (k, s) sigs /\ s0_cert s = Some (sg_p7 sig) /\ s0_manifest s = Some (sg_sm sig).
  Proof.
    unfold prepSigs. rewrite in_flat_map. intros ((k' & s) & Hin & H). cbn [fst snd] in H.
    destruct (s0_cert s) as [c|] eqn:Ec; [|destruct H]. destruct (s0_manifest s) as [m|] eqn:Em; [|destruct H].
    destruct H as [H|[]]. apply pair_equal_spec in H as [<- <-]. exists s. auto.
  Qed.
  Lemma prepSigs_nodup sigs : NoDup (map fst sigs) -> NoDup (map fst (prepSigs sigs)).
  Proof.
    induction sigs as [|[k s] t IH]; intros Hnd; [constructor|]. cbn [map fst] in Hnd. inversion Hnd as [|? ? Hno Hnd']; subst.
    specialize (IH Hnd'). change (prepSigs ((k, s) :: t)) with
      ((match s0_cert s, s0_manifest s with Some c, Some m => [(k, mkSig (s0_blockName s) c m)] | _, _ => [] end) ++ prepSigs t).
    destruct (s0_cert s) as [c|]; [|exact IH]. destruct (s0_manifest s) as [m|]; [|exact IH].
    cbn [app map fst]. constructor; [|exact IH]. intros Hi. apply Hno. apply in_map_iff in Hi as ((k' & sig) & Hk & Hi). cbn [fst] in Hk. subst k'.
    apply prepSigs_in in Hi as (s' & Hs' & _). apply (in_map fst) in Hs'. exact Hs'.
  Qed.

  Lemma newSchemeV1_spec p : newSchemeV1 E apk = Ret (Some p) ->
    main_manifest apk (v1_manifest p) /\ NoDup (map fst (v1_sigs p)) /\ v1_sigs p <> [] /\
    forall k sig, In (k, sig) (v1_sigs p) -> signature_pair E apk (sg_p7 sig) (sg_sm sig).
  Proof.
    unfold newSchemeV1. intros H.
    destruct (scanFiles (z_ordered apk) None [] []) as [[[[man blocks] sfs]|]|] eqn:Es; cbn [obind] in H; [|discriminate|discriminate].
    destruct (blocksLoop E blocks sfs []) as [[sigs|]|] eqn:Eb; cbn [obind] in H; [|discriminate|discriminate].
    destruct man as [m|]; [|discriminate].
    destruct (prepSigs sigs) as [|s0 st] eqn:Ep; [discriminate|].
    assert (p = mkV1 (s0 :: st) m) as -> by congruence. cbn [v1_manifest v1_sigs]. rewrite <- Ep.
    destruct (scanFiles_spec _ _ _ _ _ _ _ Es) as (Hbl & Hsf & Hman).
    assert (Hinv : sigs_inv sigs).
    { apply (blocksLoop_spec blocks sfs [] sigs); [| | |exact Eb].
      - intros f Hf. rewrite Hbl in Hf. cbn [app] in Hf. apply filter_In in Hf. exact Hf.
      - intros n f Hf. destruct (Hsf n f Hf) as [[]|Hx]. exact Hx.
      - split; [constructor|]. intros k s p sm Hg. discriminate. }
    destruct Hinv as [Hnd Hpair]. split.
    - destruct Hman as [[Hm _]|(l1 & f & l2 & m' & Hl & Hf & Hp & Hm & Hno)]; [discriminate|].
      assert (m' = m) as -> by congruence. destruct (parseManifest_some _ _ _ Hp) as (Ho & data & Hd & Hpb).
      exists l1, f, l2, data. repeat (split; [assumption|]). exact Hno.
    - split; [apply prepSigs_nodup; exact Hnd|]. split; [rewrite Ep; discriminate|].
      intros k sig Hi. apply prepSigs_in in Hi as (s & Hs & Hc & Hm). apply (Hpair k s); [|exact Hc|exact Hm].
      apply (in_mget _ bytes_eqb_eq); assumption.
  Qed.
End Files.
