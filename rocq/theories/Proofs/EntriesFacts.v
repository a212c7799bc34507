(** The entries of the signing block *)
From Coq Require Import String.
From Coq Require Import Lia.
From Verif.Model Require Import Bytes Env ApiLevel Utils SigBlock Result Signer SchemeV2 SchemeV3 DataSource Digest Frosting SourceStamp Verify.
From Verif.Spec Require Import Encoding ApkLayout Entries Digests.
From Verif.Proofs Require Import BytesFacts UtilsFacts SigBlockFacts SignerFacts CollectFacts IntegrityFacts.

Section WithEnv.
  Variable E : env.
  Variable maxSdk : Z.

  Fixpoint foldEntries (es : list (Z * bytes)) (st : entries_state) : outcome (option entries_state) :=
    match es with
    | [] => Ret (Some st)
    | (id, p) :: rest =>
        r <- handleEntry E maxSdk id p false st ;;
        match r with None => Ret None | Some st' => foldEntries rest st' end
    end.

  Definition bad_last (es : list (Z * bytes)) : Prop := exists before id, es = before ++ [(id, [])] /\ id <> id_padding.

  Lemma handleEntry_eof id p st : id <> id_padding -> handleEntry E maxSdk id p true st = Ret None.
  Proof.
    intro N. unfold handleEntry. destruct (_ || _); [reflexivity|].
    change blockIdVerityPadding with id_padding. destruct (Z.eqb_spec id id_padding); [contradiction|].
    destruct (id =? blockIdFrosting); [reflexivity|]. destruct (id =? blockIdSourceStampV2); reflexivity.
  Qed.
  Lemma handleEntry_padding p eof st : handleEntry E maxSdk id_padding p eof st = Ret (Some st).
  Proof. reflexivity. Qed.

  Lemma handleEntry_some id p st r : handleEntry E maxSdk id p false st = Ret r -> exists st', r = Some st'.
  Proof.
    unfold handleEntry. destruct (_ || _); [intro H; inversion H; eauto|].
    destruct (id =? blockIdVerityPadding); [intro H; inversion H; eauto|].
    destruct (id =? blockIdFrosting).
    { intro H. apply obind_ret in H as ([f e] & _ & H). inversion H. eauto. }
    destruct (id =? blockIdSourceStampV2); intro H; inversion H; eauto.
  Qed.

  Lemma foldEntries_app a : forall b st,
    foldEntries (a ++ b) st = (r <- foldEntries a st ;; match r with None => Ret None | Some st' => foldEntries b st' end).
  Proof.
    induction a as [|[id p] a IH]; intros b st; [reflexivity|]. cbn [app foldEntries].
    destruct (handleEntry E maxSdk id p false st) as [[st'|]|]; cbn [obind]; [apply IH | reflexivity | reflexivity].
  Qed.
  Lemma foldEntries_some es : forall st r, foldEntries es st = Ret r -> exists st', r = Some st'.
  Proof.
    induction es as [|[id p] es IH]; intros st r H; [inversion H; eauto|]. cbn [foldEntries] in H.
    apply obind_ret in H as (r1 & H1 & H). destruct (handleEntry_some _ _ _ _ H1) as [st1 ->]. eauto.
  Qed.

  Lemma enc_entry_ne e t : enc_entry e ++ t <> [].
  Proof. unfold enc_entry, le64. cbn [le_enc]. discriminate. Qed.
  Lemma enc_entry_len e : zlen (enc_entry e) = 12 + zlen (snd e).
  Proof. unfold enc_entry, le64, le32. rewrite !zlen_app, !le_enc_zlen. lia. Qed.

  (** reading encoded entries *)
  Lemma entriesLoop_enc es : Forall entry_fits es -> forall fuel st, (length (enc_entries es) <= fuel)%nat ->
    (forall before id, es = before ++ [(id, [])] -> id = id_padding) ->
    entriesLoop E fuel maxSdk (enc_entries es) st =
      (r <- foldEntries es st ;; match r with None => Ret (st, false) | Some st' => Ret (st', true) end).
  Proof.
    induction 1 as [|[id p] es F Fs IH]; intros fuel st Fu Bl.
    - destruct fuel; reflexivity.
    - cbn [enc_entries flat_map]. fold (enc_entries es). destruct fuel as [|fuel].
      { exfalso. unfold enc_entries in Fu. cbn [flat_map] in Fu. rewrite app_length in Fu. pose proof (enc_entry_len (id, p)) as L. cbn [snd] in L. unfold zlen in L. lia. }
      cbn [entriesLoop]. destruct (enc_entry (id, p) ++ enc_entries es) eqn:Q; [exfalso; eapply enc_entry_ne; eassumption|].
      rewrite <- Q. rewrite nextEntry_enc by assumption. cbn [fst snd].
      assert (Hh : handleEntry E maxSdk id p (match p ++ enc_entries es with [] => true | _ => false end) st = handleEntry E maxSdk id p false st).
      { destruct (p ++ enc_entries es) as [|x0 l0] eqn:Q2; [|reflexivity]. apply app_eq_nil in Q2 as [-> Q2].
        assert (es = []).
        { destruct es as [|e es]; [reflexivity|]. exfalso. unfold enc_entries in Q2. cbn [flat_map] in Q2. eapply enc_entry_ne; eassumption. }
        subst es. rewrite (Bl [] id eq_refl). reflexivity. }
      rewrite Hh. cbn [foldEntries]. destruct (handleEntry E maxSdk id p false st) as [[st'|]|] eqn:HE; cbn [obind]; [|reflexivity|reflexivity].
      rewrite IH.
      + destruct (foldEntries es st') as [[st2|]|] eqn:FE; cbn [obind]; try reflexivity.
        apply foldEntries_some in FE as [? ?]. discriminate.
      + unfold enc_entries in Fu. cbn [flat_map] in Fu. rewrite app_length in Fu. pose proof (enc_entry_len (id, p)) as L. cbn [snd] in L. unfold zlen in L. fold (enc_entries es) in Fu. lia.
      + intros before id' ->. apply (Bl ((id, p) :: before)). reflexivity.
  Qed.

  Lemma entriesLoop_inv fuel : forall pairs st st', entriesLoop E fuel maxSdk pairs st = Ret (st', true) ->
    exists es, entries_of pairs es /\ foldEntries es st = Ret (Some st').
  Proof.
    induction fuel as [|fuel IH]; intros pairs st st' H.
    - destruct pairs; cbn in H; [|inversion H]. inversion H; subst. exists []. split; [|reflexivity].
      repeat split; [constructor|]. intros [|] ? X; discriminate.
    - destruct pairs as [|b pairs]; cbn [entriesLoop] in H.
      { inversion H; subst. exists []. split; [|reflexivity]. repeat split; [constructor|]. intros [|] ? X; discriminate. }
      set (ps := b :: pairs) in *. destruct (nextEntry ps) as [|id p eof rest] eqn:N; [inversion H|].
      apply nextEntry_inv in N as (Ep & F & He). apply obind_ret in H as (r & Hh & H).
      destruct r as [st1|]; [|inversion H]. apply IH in H as (es & (-> & Fs & Bl) & FE).
      assert (Hh' : handleEntry E maxSdk id p false st = Ret (Some st1)).
      { destruct (Z.eq_dec id id_padding) as [->|Np]; [exact Hh|]. destruct eof; [|exact Hh].
        rewrite handleEntry_eof in Hh by assumption. discriminate. }
      exists ((id, p) :: es). split.
      + split; [rewrite Ep; reflexivity|]. split; [now constructor|]. intros before id' Eq.
        destruct before as [|e before]; cbn [app] in Eq; inversion Eq; subst; [|eapply Bl; reflexivity].
        cbn [app enc_entries flat_map] in Hh. destruct (Z.eq_dec id' id_padding) as [->|Np]; [reflexivity|].
        rewrite handleEntry_eof in Hh by assumption. discriminate.
      + cbn [foldEntries]. rewrite Hh'. cbn [obind]. assumption.
  Qed.

  Lemma enc_entries_inj es : Forall entry_fits es -> forall es', Forall entry_fits es' -> enc_entries es = enc_entries es' -> es = es'.
  Proof.
    induction 1 as [|[id p] es F Fs IH]; intros es' F' Q.
    - destruct es' as [|e es']; [reflexivity|]. exfalso. symmetry in Q. unfold enc_entries in Q. cbn [flat_map] in Q. eapply enc_entry_ne; eassumption.
    - destruct F' as [|[id' p'] es' F1 F1s].
      { exfalso. unfold enc_entries in Q. cbn [flat_map] in Q. eapply enc_entry_ne; eassumption. }
      unfold enc_entries in Q. cbn [flat_map] in Q. fold (enc_entries es) in Q. fold (enc_entries es') in Q.
      pose proof (nextEntry_enc (id, p) (enc_entries es) F) as N1. pose proof (nextEntry_enc (id', p') (enc_entries es') F1) as N2.
      rewrite Q in N1. rewrite N1 in N2. cbn [fst snd] in N2. inversion N2; subst. f_equal. now apply IH.
  Qed.

  (** What the state holds after the entries. *)
  Record entries_inv (es : list (Z * bytes)) (st : entries_state) : Prop := {
    ei_blocks : forall id p, zget id (en_blocks st) = Some p <-> used_at maxSdk id /\ last_entry es id p;
    ei_extra : forall id p, zget id (v_extraBlocks (en_res st)) = Some p <-> extra_at maxSdk id /\ last_entry es id p;
    ei_nodup : NoDup (map fst (en_blocks st)) /\ NoDup (map fst (v_extraBlocks (en_res st)));
    ei_core : quiet core0 (v_core (en_res st));
    ei_rest : v_schemeId (en_res st) = 0 /\ v_extraResult3 (en_res st) = None /\ v_sourceStamp (en_res st) = None
  }.

  Lemma last_entry_snoc es id p id' p' :
    last_entry (es ++ [(id, p)]) id' p' <-> (id' = id /\ p' = p) \/ (id' <> id /\ last_entry es id' p').
  Proof.
    split.
    - intros (b & a & Q & N). destruct a as [|x a] using rev_ind.
      + apply app_inj_tail in Q as [-> Q]. inversion Q. auto.
      + clear IHa. right. replace (b ++ (id', p') :: a ++ [x]) with ((b ++ (id', p') :: a) ++ [x]) in Q by (now rewrite <- app_assoc).
        apply app_inj_tail in Q as [-> <-]. rewrite map_app, in_app_iff in N. cbn in N. split; [intro X; apply N; right; left; congruence|].
        exists b, a. split; [reflexivity | tauto].
    - intros [[-> ->]|[D (b & a & -> & N)]].
      + exists es, []. split; [reflexivity | intros []].
      + exists b, (a ++ [(id, p)]). split; [now rewrite <- app_assoc|]. rewrite map_app, in_app_iff. cbn. intros [X|[X|[]]]; congruence || tauto.
  Qed.

  Lemma inv_set_blocks (m : list (Z * bytes)) (P : Z -> Prop) es id p :
    (forall i q, zget i m = Some q <-> P i /\ last_entry es i q) -> P id ->
    forall i q, zget i (zset id p m) = Some q <-> P i /\ last_entry (es ++ [(id, p)]) i q.
  Proof.
    intros H Pi i q. rewrite zget_zset, last_entry_snoc. destruct (Z.eqb_spec i id) as [->|N].
    - split; [intro X; inversion X; subst; auto|]. intros [_ [[_ ->]|[X _]]]; congruence.
    - rewrite H. intuition.
  Qed.
  Lemma inv_keep_blocks (m : list (Z * bytes)) (P : Z -> Prop) es id p :
    (forall i q, zget i m = Some q <-> P i /\ last_entry es i q) -> ~ P id ->
    forall i q, zget i m = Some q <-> P i /\ last_entry (es ++ [(id, p)]) i q.
  Proof.
    intros H Pi i q. rewrite last_entry_snoc, H. split.
    - intros [A B]. split; [assumption|]. right. split; [|assumption]. intros ->. contradiction.
    - intros [A [[-> _]|[_ B]]]; [contradiction | auto].
  Qed.

  Lemma entries_inv_step es st id p st' : entries_inv es st -> handleEntry E maxSdk id p false st = Ret (Some st') ->
    entries_inv (es ++ [(id, p)]) st'.
  Proof.
    intros [Ib Ie [Nb Ne] Ic (R1 & R2 & R3)] H. unfold handleEntry in H.
    unfold SupportsSigV2, SupportsSigV3, SupportsSigV31, V7_0_Nougat, V9_0_Pie, V13_0_TIRAMISU in H.
    change blockIdSchemeV2 with id_v2 in H. change blockIdSchemeV3 with id_v3 in H. change blockIdSchemeV31 with id_v31 in H.
    change blockIdVerityPadding with id_padding in H. change blockIdFrosting with id_frosting in H. change blockIdSourceStampV2 with id_stamp in H.
    destruct ((id =? id_v2) || (id =? id_v3) || (id =? id_v31)) eqn:Sc.
    - inversion H; subst st'; clear H.
      assert (Hid : id = id_v2 \/ id = id_v3 \/ id = id_v31).
      { apply orb_prop in Sc as [Sc|Sc]; [apply orb_prop in Sc as [Sc|Sc]|]; apply Z.eqb_eq in Sc; auto. }
      set (sup := (id =? id_v2) && (24 <=? maxSdk) || (id =? id_v3) && (28 <=? maxSdk) || (id =? id_v31) && (33 <=? maxSdk)).
      assert (Hu : sup = true <-> used_at maxSdk id).
      { unfold sup, used_at. destruct Hid as [->|[->| ->]]; cbn -[Z.leb id_v2 id_v3 id_v31 id_stamp]; unfold id_v2, id_v3, id_v31, id_stamp; cbn -[Z.leb];
        rewrite ?orb_false_r; rewrite Z.leb_le; intuition discriminate. }
      assert (He : (negb sup || ((id =? id_v3) && (33 <=? maxSdk))) = true <-> extra_at maxSdk id).
      { rewrite orb_true_iff, negb_true_iff, <- not_true_iff_false, Hu. unfold used_at, extra_at.
        destruct Hid as [->|[->| ->]]; unfold id_v2, id_v3, id_v31, id_stamp, id_padding, id_frosting; cbn -[Z.leb]; rewrite ?Z.leb_le;
        repeat split; try discriminate; intuition (try discriminate); lia. }
      split; cbn [en_blocks en_res].
      + destruct sup.
        * apply inv_set_blocks; [assumption | now apply Hu].
        * apply inv_keep_blocks; [assumption|]. intro U. apply Hu in U. discriminate.
      + destruct (negb sup || _) eqn:Ex; cbn [v_extraBlocks].
        * apply inv_set_blocks; [assumption | now apply He].
        * apply inv_keep_blocks; [assumption|]. intro U. apply He in U. discriminate.
      + split; [destruct sup; [now apply CollectFacts.mset_nodup | assumption]|].
        destruct (negb sup || _); cbn [v_extraBlocks]; [now apply CollectFacts.mset_nodup | assumption].
      + destruct (negb sup || _); assumption.
      + destruct (negb sup || _); cbn; auto.
    - assert (Hid : id <> id_v2 /\ id <> id_v3 /\ id <> id_v31).
      { apply orb_false_elim in Sc as [Sc S3]. apply orb_false_elim in Sc as [S1 S2]. now apply Z.eqb_neq in S1, S2, S3. }
      destruct Hid as (N2 & N3 & N31).
      destruct (Z.eqb_spec id id_padding) as [->|Np].
      { inversion H; subst st'; clear H. split; auto.
        - apply inv_keep_blocks; [assumption|]. unfold used_at, id_padding, id_v2, id_v3, id_v31, id_stamp. intuition discriminate.
        - apply inv_keep_blocks; [assumption|]. unfold extra_at. tauto. }
      destruct (Z.eqb_spec id id_frosting) as [->|Nf].
      { apply obind_ret in H as ([f e] & _ & H). inversion H; subst st'; clear H. split; cbn [en_blocks en_res v_extraBlocks v_schemeId v_extraResult3 v_sourceStamp v_core]; auto.
        - apply inv_keep_blocks; [assumption|]. unfold used_at, id_frosting, id_v2, id_v3, id_v31, id_stamp. intuition discriminate.
        - apply inv_keep_blocks; [assumption|]. unfold extra_at. tauto.
        - destruct e; [|assumption]. eapply quiet_trans; [exact Ic|]. eexists. reflexivity. }
      destruct (Z.eqb_spec id id_stamp) as [->|Ns].
      { inversion H; subst st'; clear H. split; cbn [en_blocks en_res]; auto.
        - apply inv_set_blocks; [assumption|]. unfold used_at. auto.
        - apply inv_keep_blocks; [assumption|]. unfold extra_at. tauto.
        - split; [now apply CollectFacts.mset_nodup | assumption]. }
      inversion H; subst st'; clear H. split; cbn [en_blocks en_res v_extraBlocks]; auto.
      + apply inv_keep_blocks; [assumption|]. unfold used_at. tauto.
      + apply inv_set_blocks; [assumption|]. unfold extra_at. tauto.
      + split; [assumption | now apply CollectFacts.mset_nodup].
  Qed.

  Lemma foldEntries_inv es : forall done st st', entries_inv done st -> foldEntries es st = Ret (Some st') -> entries_inv (done ++ es) st'.
  Proof.
    induction es as [|[id p] es IH]; intros done st st' I H; cbn [foldEntries] in H.
    - inversion H; subst. now rewrite app_nil_r.
    - apply obind_ret in H as (r & Hh & H). destruct r as [st1|]; [|inversion H].
      replace (done ++ (id, p) :: es) with ((done ++ [(id, p)]) ++ es) by (now rewrite <- app_assoc).
      eapply IH; [|exact H]. eapply entries_inv_step; eassumption.
  Qed.

  Lemma entries_inv0 : entries_inv [] (mkEnt [] None vres0).
  Proof.
    split; cbn; auto using quiet_refl; try (split; constructor);
    intros id p; (split; [discriminate | intros [_ ([|] & ? & X & _)]; discriminate]).
  Qed.

  Theorem entries_spec pairs st ok : entriesLoop E (length pairs) maxSdk pairs (mkEnt [] None vres0) = Ret (st, ok) ->
    (ok = true <-> exists es, entries_of pairs es) /\
    (forall es, entries_of pairs es -> foldEntries es (mkEnt [] None vres0) = Ret (Some st) /\ entries_inv es st).
  Proof.
    intro H.
    assert (Rev : forall es, entries_of pairs es -> ok = true /\ foldEntries es (mkEnt [] None vres0) = Ret (Some st)).
    { intros es (-> & F & Bl). rewrite entriesLoop_enc in H by (assumption || lia). apply obind_ret in H as (r & FE & H).
      destruct (foldEntries_some _ _ _ FE) as [st' ->]. inversion H; subst. auto. }
    split.
    - split; [|intros [es Es]; now apply Rev in Es]. intros ->. apply entriesLoop_inv in H as (es & Es & _). eauto.
    - intros es Es. apply Rev in Es as [_ Es]. split; [assumption|]. eapply (foldEntries_inv es []); [exact entries_inv0 | exact Es].
  Qed.
End WithEnv.

(** findSignatureBlocks *)
Definition sblock_of (before pairs cd rec : bytes) : sblock :=
  {| sb_eocd := {| ei_eocdOffset := zlen (before ++ signing_block pairs ++ cd);
                   ei_centralDirOffset := zlen (before ++ signing_block pairs);
                   ei_centralDirSize := zlen cd; ei_eocd := rec |};
     sb_offset := zlen before |}.

Theorem findSignatureBlocks_ok E file maxSdk st s : findSignatureBlocks E file maxSdk = Ret (FindOk st s) ->
  exists before pairs cd rec es, apk file before pairs cd rec /\ s = sblock_of before pairs cd rec /\
    entries_of pairs es /\ entries_inv maxSdk es st /\ foldEntries E maxSdk es (mkEnt [] None vres0) = Ret (Some st).
Proof.
  unfold findSignatureBlocks. destruct (findEocd file) as [ei| | | |] eqn:F; try (intro H; discriminate).
  destruct (isZip64 file (ei_eocdOffset ei)) eqn:Z; [intro H; discriminate|].
  destruct (findApkSigningBlock file (ei_centralDirOffset ei)) as [blk off| |] eqn:B; try (intro H; discriminate).
  intro H. apply obind_ret in H as ([st1 ok] & L & H). destruct ok; inversion H; subst; clear H.
  pose proof B as B'. apply findApkSigningBlock_iff in B' as (pairs & -> & _). rewrite signing_block_pairs in L.
  destruct (proj1 (find_apk file ei pairs off) (conj F (conj Z B))) as (before & cd & rec & A & -> & ->).
  pose proof (entries_spec _ _ _ _ _ L) as [X Y]. destruct (proj1 X eq_refl) as [es Es]. destruct (Y es Es) as [FE I].
  exists before, pairs, cd, rec, es. auto.
Qed.

Theorem findSignatureBlocks_apk E file maxSdk before pairs cd rec : apk file before pairs cd rec ->
  findSignatureBlocks E file maxSdk =
    ('(st, ok) <- entriesLoop E (length pairs) maxSdk pairs (mkEnt [] None vres0) ;;
     Ret (if ok then FindOk st (sblock_of before pairs cd rec) else FindErr st (Some (sblock_of before pairs cd rec)))).
Proof.
  intro A. destruct (proj2 (find_apk file _ pairs _) (ex_intro _ before (ex_intro _ cd (ex_intro _ rec (conj A (conj eq_refl eq_refl)))))) as (F & Z & B).
  unfold findSignatureBlocks. rewrite F, Z, B. rewrite signing_block_pairs. reflexivity.
Qed.

(** The layout of a file is unique. *)
Lemma apk_unique file b p c r b' p' c' r' : apk file b p c r -> apk file b' p' c' r' -> b = b' /\ p = p' /\ c = c' /\ r = r'.
Proof.
  intros A A'.
  destruct (proj2 (find_apk file _ p _) (ex_intro _ b (ex_intro _ c (ex_intro _ r (conj A (conj eq_refl eq_refl)))))) as (F & Z & B).
  destruct (proj2 (find_apk file _ p' _) (ex_intro _ b' (ex_intro _ c' (ex_intro _ r' (conj A' (conj eq_refl eq_refl)))))) as (F' & Z' & B').
  rewrite F in F'. inversion F' as [[E1 E2 E3 E4]]. cbn [ei_centralDirOffset] in B, B'. rewrite E2 in B. rewrite B in B'.
  assert (E5 : signing_block p = signing_block p') by congruence. assert (E6 : zlen b = zlen b') by congruence. clear B'.
  assert (p = p'). { rewrite <- (signing_block_pairs p), <- (signing_block_pairs p'). now rewrite E5. }
  subst p'. destruct A as (Ef & _), A' as (Ef' & _). rewrite Ef in Ef'. apply app_take_eq in Ef' as [-> Ef']; [|assumption].
  apply app_take_eq in Ef' as [_ Ef']; [|reflexivity]. apply app_take_eq in Ef' as [-> _]; auto.
Qed.
Lemma entries_unique pairs es es' : entries_of pairs es -> entries_of pairs es' -> es = es'.
Proof. intros (-> & F & _) (Q & F' & _). eapply enc_entries_inj; eassumption. Qed.
