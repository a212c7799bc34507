(** newSchemeV1: which signatures it finds *)
From Coq Require Import String.
From Coq Require Import Lia.
From Verif.Model Require Import Bytes Env ApiLevel GoStrings Manifest PkixName SchemeV1.
From Verif.Spec Require Import JarSigned.
From Verif.Proofs Require Import BytesFacts ManifestFacts GoStringsFacts V1FilesFacts.

(** The key under which the signature of a block file is stored. *)
Definition blockBase (f : zfile) : bytes := match cutLast (zf_name f) "."%byte with Some (b, _) => b | None => [] end.
Definition blockKey (f : zfile) : bytes := lastSegment (blockBase f).

Lemma isBlockFile_name f : isBlockFile f = true -> exists ext, In ext block_exts /\ zf_name f = blockBase f ++ "."%byte :: ext /\
  cutLast (zf_name f) "."%byte = Some (blockBase f, ext).
Proof.
  unfold isBlockFile. intros H. apply andb_true_iff in H as [_ Hbn].
  apply isBlockName_iff in Hbn as (base & ext & Hext & Hname). destruct (block_ext_clean ext Hext) as [Hsl Hdt].
  assert (Hcut : cutLast (zf_name f) "."%byte = Some (base, ext)) by (apply cutLast_some; auto).
  exists ext. unfold blockBase. rewrite Hcut. auto.
Qed.
Lemma sf_prefix base : signaturePrefix (base ++ s2b ".SF") = Ret (lastSegment base).
Proof. apply (signaturePrefix_ext base (s2b "SF")); intros Hi; repeat (destruct Hi as [Hi|Hi]; [discriminate|]); destruct Hi. Qed.
Lemma hasSuffix_clash n a b : hasSuffix n a = true -> hasSuffix n b = true -> hasPrefix (rev a) (rev b) = true \/ hasPrefix (rev b) (rev a) = true.
Proof.
  unfold hasSuffix. generalize (rev n) (rev a) (rev b). clear. intros l. induction l as [|x l IH]; intros [|y a] [|z b] H1 H2; cbn in *; auto; try discriminate.
  apply andb_true_iff in H1 as [E1 H1]. apply andb_true_iff in H2 as [E2 H2].
  apply byte_eqb_eq in E1. apply byte_eqb_eq in E2. subst y z. rewrite !byte_eqb_refl. cbn. apply IH; assumption.
Qed.
Lemma sf_not_block n : hasSuffix n (s2b ".SF") = true -> isBlockName n = false.
Proof.
  intros H. unfold isBlockName.
  destruct (hasSuffix n (s2b ".RSA")) eqn:E1; [destruct (hasSuffix_clash _ _ _ H E1) as [C|C]; discriminate C|].
  destruct (hasSuffix n (s2b ".DSA")) eqn:E2; [destruct (hasSuffix_clash _ _ _ H E2) as [C|C]; discriminate C|].
  destruct (hasSuffix n (s2b ".EC")) eqn:E3; [destruct (hasSuffix_clash _ _ _ H E3) as [C|C]; discriminate C|].
  reflexivity.
Qed.
Lemma sf_not_manifest n : hasSuffix n (s2b ".SF") = true -> n <> manifestName.
Proof. intros H ->. discriminate. Qed.

(** Signature files found by the scan *)
Lemma scanFiles_keeps l : forall man blocks sfs man' blocks' sfs' n f,
  scanFiles l man blocks sfs = Ret (Some (man', blocks', sfs')) -> sget n sfs = Some f -> sget n sfs' = Some f.
Proof.
  induction l as [|g t IH]; intros man blocks sfs man' blocks' sfs' n f H Hg; cbn [scanFiles] in H.
  - congruence.
  - destruct (hasPrefix (zf_name g) metaInf); cbn [negb] in H; [|exact (IH _ _ _ _ _ _ _ _ H Hg)].
    destruct (bytes_eqb (zf_name g) (s2b "META-INF/MANIFEST.MF")).
    { destruct man; [discriminate|]. destruct (parseManifest g true) as [[m|]|]; cbn [obind] in H; [|discriminate|discriminate].
      exact (IH _ _ _ _ _ _ _ _ H Hg). }
    destruct (_ || _); [exact (IH _ _ _ _ _ _ _ _ H Hg)|].
    destruct (hasSuffix (zf_name g) (s2b ".SF")); [|exact (IH _ _ _ _ _ _ _ _ H Hg)].
    apply (IH _ _ _ _ _ _ _ _ H). destruct (sget (zf_name g) sfs) eqn:Eg; [exact Hg|].
    rewrite sget_sset. destruct (bytes_eqb n (zf_name g)) eqn:En; [|exact Hg]. apply bytes_eqb_eq in En. congruence.
Qed.
Lemma scanFiles_sf l : forall man blocks sfs man' blocks' sfs' f,
  scanFiles l man blocks sfs = Ret (Some (man', blocks', sfs')) -> In f l -> hasPrefix (zf_name f) metaInf = true ->
  hasSuffix (zf_name f) (s2b ".SF") = true -> (forall g, In g l -> zf_name g = zf_name f -> g = f) ->
  sget (zf_name f) sfs = None \/ sget (zf_name f) sfs = Some f -> sget (zf_name f) sfs' = Some f.
Proof.
  induction l as [|g t IH]; intros man blocks sfs man' blocks' sfs' f H Hin Hp Hs Hu Hn; [destruct Hin|].
  destruct Hn as [Hn|Hn]; [|exact (scanFiles_keeps _ _ _ _ _ _ _ _ _ H Hn)].
  assert (Hut : forall g, In g t -> zf_name g = zf_name f -> g = f) by (intros; apply Hu; [right|]; assumption).
  cbn [scanFiles] in H.
  destruct (bytes_eqb (zf_name g) (zf_name f)) eqn:Eg.
  - apply bytes_eqb_eq in Eg. assert (g = f) as -> by (apply Hu; [left; reflexivity|exact Eg]).
    rewrite Hp in H. cbn [negb] in H. pose proof (sf_not_manifest _ Hs) as Hm. apply bytes_eqb_neq in Hm. unfold manifestName in Hm.
    rewrite Hm in H. fold (isBlockName (zf_name f)) in H. rewrite (sf_not_block _ Hs), Hs in H.
    rewrite Hn in H. apply (scanFiles_keeps _ _ _ _ _ _ _ _ _ H). rewrite sget_sset, bytes_eqb_refl. reflexivity.
  - destruct Hin as [->|Hin]; [rewrite bytes_eqb_refl in Eg; discriminate|].
    destruct (hasPrefix (zf_name g) metaInf); cbn [negb] in H; [|exact (IH _ _ _ _ _ _ _ H Hin Hp Hs Hut (or_introl Hn))].
    destruct (bytes_eqb (zf_name g) (s2b "META-INF/MANIFEST.MF")).
    { destruct man; [discriminate|]. destruct (parseManifest g true) as [[m|]|]; cbn [obind] in H; [|discriminate|discriminate].
      exact (IH _ _ _ _ _ _ _ H Hin Hp Hs Hut (or_introl Hn)). }
    destruct (_ || _); [exact (IH _ _ _ _ _ _ _ H Hin Hp Hs Hut (or_introl Hn))|].
    destruct (hasSuffix (zf_name g) (s2b ".SF")); [|exact (IH _ _ _ _ _ _ _ H Hin Hp Hs Hut (or_introl Hn))].
    apply (IH _ _ _ _ _ _ _ H Hin Hp Hs Hut). left. destruct (sget (zf_name g) sfs); [exact Hn|].
    rewrite sget_sset. destruct (bytes_eqb (zf_name f) (zf_name g)) eqn:E2; [|exact Hn]. apply bytes_eqb_eq in E2. rewrite E2, bytes_eqb_refl in Eg. discriminate.
Qed.

Section Blocks.
  Variable E : env.

  (** One step of blocksLoop *)
  Lemma blocksLoop_step f t sfs sigs : isBlockFile f = true ->
    blocksLoop E (f :: t) sfs sigs =
    match sget (blockBase f ++ s2b ".SF") sfs with
    | None => blocksLoop E t sfs sigs
    | Some sf =>
        if negb (zf_open_ok f) then Ret None else
        q <- parseBlockStreams E (zf_streams f) ;;
        match q with
        | None => Ret None
        | Some p =>
            m <- parseManifest sf false ;;
            blocksLoop E t (match m with Some _ => sdel (blockBase f ++ s2b ".SF") sfs | None => sfs end)
                       (sset (blockKey f) (mkSig0 (zf_name f) (Some p) m)
                          (sset (blockKey f) (mkSig0 (zf_name f) (Some p) (match sget (blockKey f) sigs with Some s => s0_manifest s | None => None end)) sigs))
        end
    end.
  Proof.
    intros Hbf. destruct (isBlockFile_name f Hbf) as (ext & Hext & Hname & Hcut). destruct (block_ext_clean ext Hext) as [Hsl Hdt].
    cbn [blocksLoop]. rewrite Hcut. destruct (sget _ sfs) as [sf|]; [|reflexivity].
    unfold addSignatureBlock. destruct (zf_open_ok f); cbn [negb]; [|reflexivity].
    destruct (parseBlockStreams E (zf_streams f)) as [[p|]|]; cbn [obind]; [|reflexivity|reflexivity].
    assert (Hpre : signaturePrefix (zf_name f) = Ret (blockKey f)) by (rewrite Hname; apply signaturePrefix_ext; assumption).
    rewrite Hpre. cbn [obind]. unfold addSignatureFile. rewrite sf_prefix. cbn [obind]. fold (blockKey f).
    rewrite mget_mset_same by exact bytes_eqb_eq. cbn [s0_cert s0_blockName].
    destruct (parseManifest sf false) as [[m|]|]; cbn [obind]; try reflexivity;
      destruct (sget (blockKey f) sigs); reflexivity.
  Qed.

  Lemma sset_sset {V} k (a b : V) m : sset k a (sset k b m) = sset k a m.
  Proof.
    unfold sset. induction m as [|[k' v] t IH]; cbn [mset].
    - rewrite bytes_eqb_refl. reflexivity.
    - destruct (bytes_eqb k k') eqn:Ek; cbn [mset]; [rewrite bytes_eqb_refl|rewrite Ek, IH]; reflexivity.
  Qed.
  Lemma sdel_other {V} k k' (m : list (bytes * V)) : k <> k' -> sget k (sdel k' m) = sget k m.
  Proof.
    intros Hne. apply mget_mdel_other; [exact bytes_eqb_eq|exact Hne].
  Qed.

  Lemma blocksLoop_other l : forall sfs sigs sigs' k, Forall (fun f => isBlockFile f = true) l -> ~ In k (map blockKey l) ->
    blocksLoop E l sfs sigs = Ret (Some sigs') -> sget k sigs' = sget k sigs.
  Proof.
    induction l as [|f t IH]; intros sfs sigs sigs' k Hb Hk H; [cbn [blocksLoop] in H; congruence|].
    inversion Hb as [|? ? Hf Ht]; subst. cbn [map In] in Hk. rewrite (blocksLoop_step f t sfs sigs Hf) in H.
    destruct (sget _ sfs) as [sf|]; [|exact (IH _ _ _ _ Ht (fun C => Hk (or_intror C)) H)].
    destruct (negb _); [discriminate|]. destruct (parseBlockStreams E (zf_streams f)) as [[p|]|]; cbn [obind] in H; [|discriminate|discriminate].
    destruct (parseManifest sf false) as [m|]; cbn [obind] in H; [|discriminate].
    rewrite sset_sset in H. rewrite (IH _ _ _ _ Ht (fun C => Hk (or_intror C)) H). rewrite sget_sset.
    assert (Hne : bytes_eqb k (blockKey f) = false) by (apply bytes_eqb_neq; intros ->; apply Hk; left; reflexivity).
    rewrite Hne. reflexivity.
  Qed.
  Lemma blocksLoop_one l1 : forall f l2 sfs sigs sigs' sf sm, Forall (fun f => isBlockFile f = true) (l1 ++ f :: l2) ->
    ~ In (blockKey f) (map blockKey (l1 ++ l2)) ->
    sget (blockBase f ++ s2b ".SF") sfs = Some sf -> parseManifest sf false = Ret (Some sm) ->
    blocksLoop E (l1 ++ f :: l2) sfs sigs = Ret (Some sigs') ->
    exists name p, sget (blockKey f) sigs' = Some (mkSig0 name (Some p) (Some sm)).
  Proof.
    induction l1 as [|g t IH]; intros f l2 sfs sigs sigs' sf sm Hb Hk Hsf Hpm H; cbn [app] in *.
    - inversion Hb as [|? ? Hf Ht]; subst. rewrite (blocksLoop_step f l2 sfs sigs Hf), Hsf in H.
      destruct (negb _); [discriminate|]. destruct (parseBlockStreams E (zf_streams f)) as [[p|]|]; cbn [obind] in H; [|discriminate|discriminate].
      rewrite Hpm in H. cbn [obind] in H. rewrite sset_sset in H. exists (zf_name f), p.
      rewrite (blocksLoop_other _ _ _ _ _ Ht Hk H). rewrite sget_sset, bytes_eqb_refl. reflexivity.
    - inversion Hb as [|? ? Hg Ht]; subst. cbn [map In] in Hk. rewrite (blocksLoop_step g (t ++ f :: l2) sfs sigs Hg) in H.
      assert (Hk' : ~ In (blockKey f) (map blockKey (t ++ l2))) by (intros C; apply Hk; right; exact C).
      destruct (sget (blockBase g ++ s2b ".SF") sfs) as [sfg|]; [|exact (IH _ _ _ _ _ _ _ Ht Hk' Hsf Hpm H)].
      destruct (negb _); [discriminate|]. destruct (parseBlockStreams E (zf_streams g)) as [[p|]|]; cbn [obind] in H; [|discriminate|discriminate].
      destruct (parseManifest sfg false) as [m|]; cbn [obind] in H; [|discriminate].
      apply (IH _ _ _ _ _ sf sm Ht Hk') in H; [exact H| |exact Hpm].
      destruct m; [|exact Hsf]. rewrite sdel_other; [exact Hsf|].
      intros Heq. apply app_inv_tail in Heq. apply Hk. left. unfold blockKey. rewrite Heq. reflexivity.
  Qed.

  Lemma prepSigs_mem sigs k s p m : In (k, s) sigs -> s0_cert s = Some p -> s0_manifest s = Some m ->
    In (k, mkSig (s0_blockName s) p m) (prepSigs sigs).
  Proof.
    intros Hin Hc Hm. unfold prepSigs. apply in_flat_map. exists (k, s). split; [exact Hin|]. cbn [fst snd]. rewrite Hc, Hm. left. reflexivity.
  Qed.

  (** A block file whose name does not clash with another one, and the signature file of the same name: always found. *)
  Lemma newSchemeV1_finds apk p block sf sm : newSchemeV1 E apk = Ret (Some p) ->
    (exists l1 l2, z_ordered apk = l1 ++ block :: l2 /\ forall g, In g (l1 ++ l2) -> isBlockFile g = true -> blockKey g <> blockKey block) ->
    isBlockFile block = true -> In sf (z_ordered apk) -> zf_name sf = blockBase block ++ s2b ".SF" ->
    (forall g, In g (z_ordered apk) -> zf_name g = zf_name sf -> g = sf) ->
    parseManifest sf false = Ret (Some sm) ->
    exists k sig, In (k, sig) (v1_sigs p) /\ sg_sm sig = sm.
  Proof.
    intros H (l1 & l2 & Hord & Hno) Hb Hsf Hname Hu Hpm. unfold newSchemeV1 in H.
    destruct (scanFiles (z_ordered apk) None [] []) as [[[[man blocks] sfs]|]|] eqn:Es; cbn [obind] in H; [|discriminate|discriminate].
    destruct (blocksLoop E blocks sfs []) as [[sigs|]|] eqn:Eb; cbn [obind] in H; [|discriminate|discriminate].
    destruct man as [m|]; [|discriminate].
    destruct (prepSigs sigs) as [|s0 st] eqn:Ep; [discriminate|].
    assert (p = mkV1 (s0 :: st) m) as -> by congruence. cbn [v1_sigs]. rewrite <- Ep.
    destruct (scanFiles_spec _ _ _ _ _ _ _ Es) as (Hbl & _ & _). cbn [app] in Hbl. rewrite Hord, filter_app in Hbl. cbn [filter] in Hbl. rewrite Hb in Hbl.
    assert (HF : Forall (fun f => isBlockFile f = true) blocks).
    { rewrite Hbl. apply Forall_forall. intros g Hg. apply in_app_or in Hg as [Hg|[<-|Hg]]; [apply filter_In in Hg as [_ Hg]; exact Hg|exact Hb|apply filter_In in Hg as [_ Hg]; exact Hg]. }
    assert (Hk : ~ In (blockKey block) (map blockKey (filter isBlockFile l1 ++ filter isBlockFile l2))).
    { rewrite <- filter_app. intros C. apply in_map_iff in C as (g & Hg & Hin). apply filter_In in Hin as [Hin Hbg]. exact (Hno g Hin Hbg Hg). }
    assert (Hpre : hasPrefix (zf_name sf) metaInf = true).
    { destruct (isBlockFile_name block Hb) as (ext & Hext & Hbn & _). destruct (block_ext_clean ext Hext) as [Hsl _].
      unfold isBlockFile in Hb. apply andb_true_iff in Hb as [Hb _]. apply andb_true_iff in Hb as [Hb _].
      apply hasPrefix_iff in Hb as [y Hy]. rewrite Hbn in Hy. destruct (metaInf_base _ _ _ Hy Hsl) as [x Hx].
      rewrite Hname, Hx, <- app_assoc. apply hasPrefix_iff. eexists; reflexivity. }
    assert (Hsfx : hasSuffix (zf_name sf) (s2b ".SF") = true) by (rewrite Hname; apply hasSuffix_iff; eexists; reflexivity).
    pose proof (scanFiles_sf _ _ _ _ _ _ _ _ Es Hsf Hpre Hsfx Hu (or_introl eq_refl)) as Hget. rewrite Hname in Hget.
    rewrite Hbl in HF, Eb. destruct (blocksLoop_one _ _ _ _ _ _ _ _ HF Hk Hget Hpm Eb) as (name & q & Hq).
    exists (blockKey block), (mkSig name q sm). split; [|reflexivity].
    apply (prepSigs_mem sigs _ (mkSig0 name (Some q) (Some sm))); [|reflexivity|reflexivity].
    apply (mget_in _ bytes_eqb_eq). exact Hq.
  Qed.
End Blocks.
