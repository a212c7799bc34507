(** Frosting in the whole call *)
From Coq Require Import String.
From Coq Require Import Lia.
From Verif.Model Require Import Bytes Env ApiLevel SigBlock Result Frosting Verify.
From Verif.Spec Require Import Encoding ApkLayout Digests Entries Frosting Verified Calls.
From Verif.Proofs Require Import BytesFacts UtilsFacts SigBlockFacts SignerFacts IntegrityFacts EntriesFacts VerifyFacts ApkFacts FrostingFacts.

Section WithEnv.
  Variable E : env.
  Variable maxSdk : Z.

  Lemma entriesLoop_prefix fuel : forall pairs st st' ok, entriesLoop E fuel maxSdk pairs st = Ret (st', ok) ->
    exists es rest, pairs = enc_entries es ++ rest /\ Forall entry_fits es /\ foldEntries E maxSdk es st = Ret (Some st') /\ (ok = true -> rest = []).
  Proof.
    assert (Zero : forall pairs st st' ok, Ret (st, ok) = Ret (st', ok) -> (ok = true -> pairs = []) -> exists es rest, pairs = enc_entries es ++ rest /\
       Forall entry_fits es /\ foldEntries E maxSdk es st = Ret (Some st') /\ (ok = true -> rest = [])).
    { intros pairs st st' ok Q N. exists [], pairs. split; [reflexivity|]. split; [constructor|]. split; [|assumption]. cbn. congruence. }
    induction fuel as [|fuel IH]; intros pairs st st' ok H.
    - destruct pairs as [|b pairs]; cbn in H; (apply Zero; [congruence | try discriminate; auto]). intros ->. discriminate.
    - destruct pairs as [|b pairs]; cbn [entriesLoop] in H; [apply Zero; [congruence | auto]|].
      set (ps := b :: pairs) in *. destruct (nextEntry ps) as [|id p eof rest] eqn:N.
      { apply Zero; [congruence|]. intros ->. discriminate. }
      apply nextEntry_inv in N as (Ep & F & He). apply obind_ret in H as (r & Hh & H).
      destruct r as [st1|]; [|apply Zero; [congruence|]; intros ->; discriminate].
      apply IH in H as (es & rest' & -> & Fs & FE & Nil).
      assert (Hh' : handleEntry E maxSdk id p false st = Ret (Some st1)).
      { destruct (Z.eq_dec id id_padding) as [->|Np]; [exact Hh|]. destruct eof; [|exact Hh].
        rewrite handleEntry_eof in Hh by assumption. discriminate. }
      exists ((id, p) :: es), rest'. split; [rewrite Ep; unfold enc_entries; cbn [flat_map]; now rewrite app_assoc|]. split; [now constructor|]. split; [|assumption].
      cbn [foldEntries]. rewrite Hh'. cbn [obind]. assumption.
  Qed.

  (** What is recorded about frosting. *)
  Definition frosting_inv (es : list (Z * bytes)) (st : entries_state) : Prop :=
    forall fr, v_frosting (en_res st) = Some fr -> exists block f, last_entry es id_frosting block /\ frostingParse E block = Ret (f, fr_error fr) /\
      fr_keySha256 fr = f_usedKeySha256 f /\ fr_protobufInfo fr = f_protobufInfo f /\ (fr_error fr = None -> en_frosting st = Some f).

  Lemma frosting_inv_step es st id p st' : frosting_inv es st -> handleEntry E maxSdk id p false st = Ret (Some st') -> frosting_inv (es ++ [(id, p)]) st'.
  Proof.
    intros I H. destruct (Z.eq_dec id id_frosting) as [->|Nf].
    - change (handleEntry E maxSdk id_frosting p false st = Ret (Some st')) with
        (obind (frostingParse E p) (fun x => match x with (f, ferr) =>
          let fr := {| fr_error := ferr; fr_keySha256 := f_usedKeySha256 f; fr_protobufInfo := f_protobufInfo f |} in
          Ret (Some (mkEnt (en_blocks st) (match ferr with Some _ => en_frosting st | None => Some f end)
                       (mkRes (match ferr with Some _ => addWarning (v_core (en_res st)) "frosting" | None => v_core (en_res st) end)
                              (v_schemeId (en_res st)) (v_extraResult3 (en_res st)) (Some fr) (v_sourceStamp (en_res st)) (v_extraBlocks (en_res st))))) end)
         = Ret (Some st')) in H.
      apply obind_ret in H as ([f e] & Pa & H). cbn zeta in H.
      intros fr Fr. injection H as <-. cbn [en_res v_frosting en_frosting] in *. injection Fr as <-. cbn [fr_error fr_keySha256 fr_protobufInfo].
      exists p, f. split; [apply last_entry_snoc; auto|]. split; [assumption|]. split; [reflexivity|]. split; [reflexivity|]. now intros ->.
    - assert (Same : v_frosting (en_res st') = v_frosting (en_res st) /\ en_frosting st' = en_frosting st).
      { unfold handleEntry in H. destruct (_ || _).
        - injection H as <-. cbn [en_res en_frosting]. split; [|reflexivity]. destruct (negb _ || _); reflexivity.
        - destruct (id =? blockIdVerityPadding); [injection H as <-; auto|].
          change blockIdFrosting with id_frosting in H. destruct (Z.eqb_spec id id_frosting); [contradiction|].
          destruct (id =? blockIdSourceStampV2); injection H as <-; auto. }
      destruct Same as [S1 S2]. intros fr Fr. rewrite S1 in Fr. destruct (I fr Fr) as (block & f & L & X). exists block, f.
      split; [apply last_entry_snoc; right; auto|]. rewrite S2. exact X.
  Qed.
  Lemma foldEntries_frosting es : forall done st st', frosting_inv done st -> foldEntries E maxSdk es st = Ret (Some st') -> frosting_inv (done ++ es) st'.
  Proof.
    induction es as [|[id p] es IH]; intros done st st' I H; cbn [foldEntries] in H.
    - inversion H; subst. now rewrite app_nil_r.
    - apply obind_ret in H as (r & Hh & H). destruct r as [st1|]; [|inversion H].
      replace (done ++ (id, p) :: es) with ((done ++ [(id, p)]) ++ es) by (now rewrite <- app_assoc).
      eapply IH; [|exact H]. eapply frosting_inv_step; eassumption.
  Qed.

  Lemma frosting_loop_none pairs st ok fuel : entriesLoop E fuel maxSdk pairs (mkEnt [] None vres0) = Ret (st, ok) ->
    exists es rest, pairs = enc_entries es ++ rest /\ Forall entry_fits es /\ entries_inv maxSdk es st /\ frosting_inv es st /\ (ok = true -> rest = []).
  Proof.
    intro H. apply entriesLoop_prefix in H as (es & rest & Q & F & FE & Nil). exists es, rest. split; [assumption|]. split; [assumption|].
    split; [exact (foldEntries_inv E maxSdk es [] _ _ (entries_inv0 maxSdk) FE)|]. split; [|assumption].
    apply (foldEntries_frosting es [] (mkEnt [] None vres0)); [|assumption]. intros fr Fr. discriminate.
  Qed.

  (** The v2 block hashed with the file. *)
  Definition v2_of (st : entries_state) : option bytes :=
    match zget blockIdSchemeV2 (en_blocks st) with Some b => Some b | None => zget blockIdSchemeV2 (v_extraBlocks (en_res st)) end.
  Lemma v2_of_last es st p : entries_inv maxSdk es st -> v2_of st = Some p <-> last_entry es id_v2 p.
  Proof.
    intro I. unfold v2_of. destruct (zget blockIdSchemeV2 (en_blocks st)) as [b|] eqn:B.
    - apply (ei_blocks _ _ _ I) in B as [_ L]. split; [intro Q; injection Q as <-; exact L|]. intro L'. f_equal. eapply last_entry_fun; eassumption.
    - split.
      + intro X. apply (ei_extra _ _ _ I) in X. apply X.
      + intro L. apply (ei_extra _ _ _ I). split; [|exact L]. unfold extra_at. change blockIdSchemeV2 with id_v2.
        unfold id_v2, id_padding, id_frosting, id_stamp, id_v3, id_v31. repeat split; try discriminate. intros _.
        destruct (Z_lt_ge_dec maxSdk 24); [assumption|]. exfalso.
        assert (zget blockIdSchemeV2 (en_blocks st) = Some p); [|congruence]. apply (ei_blocks _ _ _ I). split; [|exact L].
        left. split; [reflexivity|lia].
  Qed.
End WithEnv.

Lemma frostingVerifyApk_eq E f before v2 pairs cd rec file : apk file before pairs cd rec ->
  exists msg, frosting_hashed before v2 cd rec msg /\
    frostingVerifyApk E f file (zlen before) v2 (zlen (before ++ signing_block pairs)) (zlen cd) rec =
      Ret (if bytes_eqb (e_hash E HSha256 msg) (f_fileSha256 f) then None else Some FErrDigestMismatch).
Proof.
  intro A. pose proof (apk_bounds _ _ _ _ _ A) as (B1 & B2 & [B3 B4] & B5). destruct A as (Ef & _ & Ncd & _). unfold frostingVerifyApk, hashFileSection.
  assert (X1 : (if zlen before <=? 0 then if 0 <? 0 then None else Some [] else read_at file 0 (zlen before)) = Some before).
  { pose proof (zlen_nonneg before). destruct (Z.leb_spec (zlen before) 0).
    - destruct before; [reflexivity|]. rewrite zlen_cons in *. pose proof (zlen_nonneg before). lia.
    - unfold read_at. rewrite Ef, zlen_app. pose proof (zlen_nonneg (signing_block pairs ++ cd ++ rec)). destruct (Z.ltb_spec 0 0); [lia|].
      destruct (Z.ltb_spec (zlen before) 0); [lia|]. destruct (Z.ltb_spec (zlen before + zlen (signing_block pairs ++ cd ++ rec)) (0 + zlen before)); [lia|].
      cbn [orb]. rewrite dropZ_0 by lia. now rewrite takeZ_app. }
  rewrite X1.
  assert (X2 : (if zlen cd <=? 0 then if zlen (before ++ signing_block pairs) <? 0 then None else Some [] else read_at file (zlen (before ++ signing_block pairs)) (zlen cd)) = Some cd).
  { pose proof (zlen_nonneg (before ++ signing_block pairs)). pose proof (zlen_nonneg rec). destruct (Z.leb_spec (zlen cd) 0).
    - destruct cd; [contradiction|]. rewrite zlen_cons in *. pose proof (zlen_nonneg cd). lia.
    - unfold read_at. rewrite Ef. rewrite app_assoc. set (pre := before ++ signing_block pairs) in *. rewrite !zlen_app.
      destruct (Z.ltb_spec (zlen pre) 0); [lia|]. destruct (Z.ltb_spec (zlen cd) 0); [lia|]. destruct (Z.ltb_spec (zlen pre + (zlen cd + zlen rec)) (zlen pre + zlen cd)); [lia|].
      cbn [orb]. rewrite dropZ_app by reflexivity. now rewrite takeZ_app. }
  rewrite X2. clear X1 X2. destruct (patched_exists rec (zlen before)) as (rec' & Pa & _ & Cp); [lia|].
  change eocdCentralDirOffsetOffset with 16. rewrite Cp. cbn [obind].
  match goal with |- context [bytes_eqb (e_hash E HSha256 ?m) _] => set (msg := m) end.
  exists msg. split; [|destruct (bytes_eqb _ _); reflexivity]. exists rec'. split; [assumption|]. subst msg. do 2 f_equal. destruct v2 as [[|]|]; reflexivity.
Qed.
Lemma frostingVerifyApk_ok E f before v2 pairs cd rec file : apk file before pairs cd rec ->
  frostingVerifyApk E f file (zlen before) v2 (zlen (before ++ signing_block pairs)) (zlen cd) rec = Ret None ->
  exists msg, frosting_hashed before v2 cd rec msg /\ f_fileSha256 f = e_hash E HSha256 msg.
Proof.
  intro A. destruct (frostingVerifyApk_eq E f before v2 pairs cd rec file A) as (msg & Hm & ->).
  destruct (bytes_eqb (e_hash E HSha256 msg) (f_fileSha256 f)) eqn:Q; [|discriminate]. intros _. apply bytes_eqb_eq in Q.
  exists msg. split; [assumption|congruence].
Qed.

Lemma pickAndVerify_frosting E S k file s blocks minSdk maxSdk res cds res' :
  pickAndVerify E S k file s blocks minSdk maxSdk res = Ret (cds, res') -> v_frosting res' = v_frosting res.
Proof.
  unfold pickAndVerify. destruct (negb _); [intro H; inversion H; reflexivity|]. destruct (pickScheme blocks) as [id [b|]].
  - intro H. apply verifyScheme_frame in H as (_ & H & _). exact H.
  - intro H; inversion H; reflexivity.
Qed.
Lemma fallback_frosting E S file s blocks minSdk maxSdk cds res cds' res' :
  fallback E S file s blocks minSdk maxSdk cds res = Ret (cds', res') -> v_frosting res' = v_frosting res.
Proof.
  unfold fallback. destruct (_ && _); [|intro H; inversion H; reflexivity]. intro H. apply pickAndVerify_frosting in H. exact H.
Qed.

Theorem frosting_sound E S file minSdk maxSdk z res err fr : ecdsa_sig_min E ->
  returns E S file minSdk maxSdk z res err -> v_frosting res = Some fr -> fr_error fr = None -> frosting_verified E file err fr.
Proof.
  intros Min (vr & H & Rr & Re) Fr Fe. unfold verifySigningBlock in H.
  destruct (newSigningBlock file) as [magic|]; [|injection H as <-; discriminate].
  apply obind_ret in H as (fd & Fd & H).
  assert (Key : exists st s ok, (match fd with FindErr st' s' => st = st' /\ s = s' /\ ok = false | FindOk st' s' => st = st' /\ s = Some s' /\ ok = true end) /\
            (ok = false -> exists m, err = Some (ErrNotFound m)) /\
            exists r, applyFrosting E file st s = Ret r /\ v_frosting r = Some fr).
  { destruct fd as [st s|st s].
    - apply obind_ret in H as (r & Ap & H). injection H as <-. cbn [vr_res vr_err] in Rr, Re. exists st, s, false. split; [auto|]. split; [eauto|].
      exists r. split; [assumption|]. congruence.
    - apply obind_ret in H as (r & Ap & H). apply obind_ret in H as ([cds1 res1] & P1 & H). apply obind_ret in H as ([cds2 res2] & P2 & H).
      apply obind_ret in H as (stamp & _ & H). injection H as <-. cbn [vr_res vr_err] in Rr, Re. exists st, (Some s), true. split; [auto|]. split; [discriminate|].
      exists r. split; [assumption|]. rewrite <- (pickAndVerify_frosting _ _ _ _ _ _ _ _ _ _ _ P1), <- (fallback_frosting _ _ _ _ _ _ _ _ _ _ _ P2).
      injection Rr as <-. exact Fr. }
  destruct Key as (st & s & ok & Hfd & Herr & r & Ap & Vr). clear H Rr Re Fr.
  unfold findSignatureBlocks in Fd. 
  assert (None_ok : st = mkEnt [] None vres0 -> False).
  { intros ->. unfold applyFrosting in Ap. cbn in Ap. injection Ap as <-. discriminate. }
  destruct (findEocd file) as [ei| | | |] eqn:F; try (injection Fd as <-; destruct Hfd as (-> & _); now exfalso; apply None_ok).
  destruct (isZip64 file (ei_eocdOffset ei)) eqn:Z; [injection Fd as <-; destruct Hfd as (-> & _); now exfalso; apply None_ok|].
  destruct (findApkSigningBlock file (ei_centralDirOffset ei)) as [blk off| |] eqn:B; try (injection Fd as <-; destruct Hfd as (-> & _); now exfalso; apply None_ok).
  apply obind_ret in Fd as ([st1 ok1] & L & Fd).
  pose proof B as B'. apply findApkSigningBlock_iff in B' as (pairs & -> & _). rewrite signing_block_pairs in L.
  destruct (proj1 (find_apk file ei pairs off) (conj F (conj Z B))) as (before & cd & rec & A & -> & ->). clear F Z B.
  assert (st1 = st /\ s = Some (sblock_of before pairs cd rec) /\ ok1 = ok) as (-> & -> & ->).
  { destruct ok1; injection Fd as <-; destruct Hfd as (-> & -> & ->); auto. }
  pose proof (proj1 (entries_spec _ _ _ _ _ L)) as Whole.
  apply frosting_loop_none in L as (es & rest & Qp & Fits & Inv & FInv & Nil).
  unfold applyFrosting in Ap. destruct (v_frosting (en_res st)) as [fr0|] eqn:Fr0; [|destruct (en_frosting st); injection Ap as <-; congruence].
  destruct (FInv fr0 Fr0) as (block & f & Lb & Pa & K1 & K2 & K3).
  destruct (fr_error fr0) as [e0|] eqn:E0.
  { destruct (en_frosting st); injection Ap as <-; congruence. }
  rewrite (K3 eq_refl) in Ap. apply obind_ret in Ap as (e & Va & Ap).
  assert (e = None /\ fr_keySha256 fr = fr_keySha256 fr0 /\ fr_protobufInfo fr = fr_protobufInfo fr0) as (-> & Q1 & Q2).
  { injection Ap as <-. unfold setFrostingError in Vr. cbn [v_frosting] in Vr. rewrite Fr0 in Vr. injection Vr as <-. cbn in *. auto. }
  apply (frostingVerifyApk_ok E f before (v2_of st) pairs cd rec file A) in Va as (msg & Hm & Hs).
  apply frostingParse_sound in Pa as (sk & en & sig & signed & spki & FB & Dis & En & Lsk & Npr & Eb & Ok & Us); [| |assumption].
  2: { destruct Lb as (b0 & a0 & -> & _). apply Forall_app in Fits as [_ Fits]. inversion Fits as [|? ? [_ Fb] _]; subst. cbn [snd] in Fb. unfold max_int32. lia. }
  exists before, pairs, cd, rec, es, rest.
  split; [assumption|]. split; [assumption|]. split; [assumption|]. split.
  { intro Nr. destruct ok; [exfalso; auto|]. split; [auto|]. intro X. apply Whole in X. discriminate. }
  exists block, sk, en, (f_fileSha256 f), sig, signed, spki, (v2_of st), msg.
  split; [assumption|]. split; [rewrite Q2, K2; assumption|]. split; [assumption|]. split; [assumption|]. split; [assumption|].
  split; [rewrite Q2, K2; assumption|]. split; [assumption|]. split; [assumption|].
  split; [congruence|]. split; [intro p; now apply (v2_of_last maxSdk)|]. auto.
Qed.
