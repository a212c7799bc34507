(** Frosting made as the format says is accepted. *)
From Coq Require Import String.
From Coq Require Import Lia.
From Verif.Model Require Import Bytes Env ApiLevel SigBlock Result Frosting Verify.
From Verif.Spec Require Import Encoding ApkLayout Digests Entries Frosting Verified Calls.
From Verif.Proofs Require Import BytesFacts UtilsFacts SigBlockFacts SignerFacts IntegrityFacts EntriesFacts VerifyFacts ApkFacts FrostingFacts FrostingApkFacts.

Lemma v32_read data pos v bs r : varint32 v bs -> dropZ pos data = bs ++ r -> 0 <= pos ->
  readInt32 data pos = Some (v, pos + zlen bs) /\ dropZ (pos + zlen bs) data = r.
Proof.
  intros (z & V & L & ->) D Hp. split; [exact (readInt32_varint data pos z bs r Hp V L D)|].
  assert (X : dropZ (zlen bs) (dropZ pos data) = r) by (rewrite D; now apply dropZ_app).
  rewrite dropZ_dropZ in X by (try lia; apply zlen_nonneg). rewrite <- X. f_equal. lia.
Qed.
Lemma drop_more data pos (a r : bytes) : 0 <= pos -> dropZ pos data = a ++ r -> dropZ (pos + zlen a) data = r.
Proof.
  intros Hp D. assert (X : dropZ (zlen a) (dropZ pos data) = r) by (rewrite D; now apply dropZ_app).
  rewrite dropZ_dropZ in X by (try lia; apply zlen_nonneg). rewrite <- X. f_equal. lia.
Qed.
Lemma drop_len data pos (a : bytes) : 0 <= pos -> dropZ pos data = a -> a <> [] -> pos + zlen a = zlen data.
Proof.
  intros Hp D N. apply (f_equal zlen) in D. rewrite zlen_dropZ in D.
  assert (0 < zlen a) by (destruct a; [contradiction|rewrite zlen_cons; pose proof (zlen_nonneg a); lia]). lia.
Qed.
Lemma rdRead_app data pos x r n : 0 <= pos -> dropZ pos data = x ++ r -> 0 < zlen x -> n = zlen x -> rdRead data pos n = Some x.
Proof.
  intros Hp D N ->. pose proof (zlen_nonneg r).
  assert (L : pos + zlen (x ++ r) = zlen data).
  { apply drop_len; [assumption|assumption|]. intro Q. apply (f_equal zlen) in Q. rewrite zlen_app, zlen_nil in Q. lia. }
  rewrite zlen_app in L. unfold rdRead. destruct (Z.leb_spec (zlen data) pos); [lia|]. rewrite D, takeZ_app by reflexivity.
  rewrite Z.sub_diag. unfold zeros. cbn [Z.to_nat repeat]. now rewrite app_nil_r.
Qed.

Lemma vfield_pos x b : vfield x b -> 0 < zlen b.
Proof. intros (l & V & ->). apply varint32_pos in V. rewrite zlen_app. pose proof (zlen_nonneg x). lia. Qed.
Lemma vfield_len_ok x b : vfield x b -> 0 <= zlen x <= max_int32.
Proof.
  intros (l & (z & _ & _ & Q) & _). pose proof (wrap32_range z). pose proof (zlen_nonneg x). lia.
Qed.

Lemma skipEntries_made before : Forall (fun b => exists x, vfield x b) before -> forall data pos limit r, 0 <= pos ->
  dropZ pos data = concat before ++ r -> pos + zlen (concat before) < limit ->
  skipEntries (List.length before) data pos limit = Some (pos + zlen (concat before)).
Proof.
  induction 1 as [|b before (x & l & V & ->) F IH]; intros data pos limit r Hp D L.
  - cbn [List.length skipEntries concat]. rewrite zlen_nil, Z.add_0_r. reflexivity.
  - cbn [List.length skipEntries concat] in *. rewrite <- !app_assoc in D. rewrite !zlen_app in L |- *.
    destruct (v32_read _ _ _ _ _ V D Hp) as [R D1]. rewrite R. pose proof (zlen_nonneg x). pose proof (zlen_nonneg l). pose proof (zlen_nonneg (concat before)).
    destruct (Z.ltb_spec (zlen x) 0); [lia|]. destruct (Z.leb_spec limit (pos + zlen l + zlen x)); [lia|]. cbn [orb].
    apply drop_more in D1; [|lia]. rewrite (IH data (pos + zlen l + zlen x) limit r ltac:(lia) D1 ltac:(lia)). f_equal. lia.
Qed.

Lemma readArrayItem_made data pos sigs arr junk before sig sigE after : 0 <= pos -> 0 < zlen sig ->
  dropZ pos data = sigs ++ arr ++ junk -> varint32 (zlen arr) sigs -> arr = concat before ++ sigE ++ after -> vfield sig sigE ->
  Forall (fun b => exists x, vfield x b) before -> readArrayItem data pos (List.length before) = Some sig.
Proof.
  intros Hp Ns D V Qa (l & Vl & Qs) F. unfold readArrayItem. destruct (v32_read _ _ _ _ _ V D Hp) as [R D1]. rewrite R.
  pose proof (varint32_pos _ _ V). pose proof (varint32_pos _ _ Vl). pose proof (zlen_nonneg after). pose proof (zlen_nonneg junk). pose proof (zlen_nonneg (concat before)).
  assert (La : zlen arr = zlen (concat before) + (zlen l + zlen sig + zlen after)) by (rewrite Qa, Qs, !zlen_app; lia).
  assert (Ld : pos + zlen sigs + zlen (arr ++ junk) = zlen data).
  { apply drop_len; [lia|assumption|]. intro Q. apply (f_equal zlen) in Q. rewrite zlen_app, zlen_nil in Q. lia. }
  rewrite zlen_app in Ld. unfold rdLen. destruct (Z.leb_spec (zlen arr) 0); [lia|]. destruct (Z.leb_spec (zlen data) (pos + zlen sigs)); [lia|].
  destruct (Z.ltb_spec (zlen data - (pos + zlen sigs)) (zlen arr)); [lia|]. cbn [orb].
  rewrite Qa, <- !app_assoc in D1.
  rewrite (skipEntries_made before F data (pos + zlen sigs) (pos + zlen sigs + zlen arr) (sigE ++ after ++ junk) ltac:(lia) D1 ltac:(lia)).
  apply drop_more in D1; [|lia]. rewrite Qs, <- !app_assoc in D1.
  destruct (v32_read _ _ _ _ _ Vl D1 ltac:(lia)) as [R2 D2]. rewrite R2.
  destruct (Z.ltb_spec (zlen sig) 0); [lia|]. destruct (Z.ltb_spec (zlen arr + (pos + zlen sigs)) (pos + zlen sigs + zlen (concat before) + zlen l + zlen sig)); [lia|]. cbn [orb].
  eapply rdRead_app; [|exact D2|lia|reflexivity]. lia.
Qed.

Section Parse.
  Variable E : env.

  Lemma frostingVerifySignature_made signed sig spki key : e_base64 E key = Some spki -> ecdsa_sha256_ok E spki signed sig ->
    frostingVerifySignature E signed sig key = (hex_encode (e_hash E HSha256 spki), None).
  Proof.
    intros B (k & r & s & K & A & Hr & Hs & V). unfold frostingVerifySignature. rewrite B, K, A.
    destruct (Z.leb_spec r 0); [lia|]. destruct (Z.leb_spec s 0); [lia|]. cbn [orb]. now rewrite V.
  Qed.

  Lemma frostingLoop_made skipped encs : Forall2 vfield skipped encs -> Forall disabled_entry skipped ->
    forall fuel data off pm ps psz limit pos idx e eE rest sha sig signed spki proto,
    (List.length skipped < fuel)%nat -> zlen data <= max_int32 -> 0 <= pos ->
    vfield e eE -> enabled_entry 0 sha e -> dropZ pos data = concat encs ++ eE ++ rest ->
    pos + zlen (concat encs ++ eE) <= limit ->
    readArrayItem data (off + pm) (idx + List.length skipped) = Some sig ->
    rdRead data off (pos + zlen (concat encs ++ eE) - off) = Some signed ->
    e_base64 E frosting_key = Some spki -> ecdsa_sha256_ok E spki signed sig -> rdRead data ps psz = Some proto ->
    frostingLoop E fuel data off pm ps psz limit pos idx = Ret (mkFrosting sha proto (hex_encode (e_hash E HSha256 spki)), None).
  Proof.
    induction 1 as [|x enc skipped encs (l & V & ->) F IH]; intros Ds fuel data off pm ps psz limit pos idx e eE rest sha sig signed spki proto Lf Ld Hp Ve En D Lim Ra Rs Eb Ok Rp;
      (destruct fuel as [|fuel]; [cbn in Lf; lia|]); cbn [frostingLoop].
    - cbn [concat app] in *. pose proof Ve as (l & V & Q). pose proof En as (ds & ks & Vd & Vk & Qe & L32).
      rewrite Q, <- app_assoc in D. destruct (v32_read _ _ _ _ _ V D Hp) as [R1 D1].
      rewrite Qe, <- !app_assoc in D1.
      pose proof (varint32_pos _ _ V). pose proof (varint32_pos _ _ Vd). pose proof (varint32_pos _ _ Vk).
      assert (Le : zlen e = zlen ds + (zlen ks + 32)) by (rewrite Qe, !zlen_app; lia).
      rewrite Q, zlen_app in Lim, Rs.
      destruct (v32_read _ _ _ _ _ Vd D1 ltac:(lia)) as [R2 D2]. destruct (v32_read _ _ _ _ _ Vk D2 ltac:(lia)) as [R3 D3].
      assert (Lx : pos + zlen l + zlen ds + zlen ks + zlen (sha ++ rest) = zlen data).
      { apply drop_len; [lia|assumption|]. intro N. apply (f_equal zlen) in N. rewrite zlen_app, zlen_nil in N. pose proof (zlen_nonneg rest). lia. }
      rewrite zlen_app in Lx. pose proof (zlen_nonneg rest).
      rewrite R1. destruct (Z.leb_spec limit pos); [lia|].
      rewrite (wrap32_id (pos + zlen l)) by (unfold min_int32 in *; lia). rewrite (wrap32_id (zlen e + (pos + zlen l))) by (unfold min_int32 in *; lia).
      destruct (Z.ltb_spec limit (zlen e + (pos + zlen l))); [lia|]. destruct (Z.leb_spec (zlen e + (pos + zlen l)) 0); [lia|]. cbn [orb]. cbv zeta.
      rewrite R2. destruct (Z.ltb_spec (zlen e + (pos + zlen l)) (pos + zlen l + zlen ds)); [lia|]. change (negb (0 =? 0)) with false. cbv iota.
      rewrite R3. change (zlen frostingPublicKeys <=? 0) with false. cbv iota.
      destruct (Z.eqb_spec (zlen e + (pos + zlen l) - (pos + zlen l + zlen ds + zlen ks)) 32); [|lia]. cbn [negb].
      rewrite (rdRead_app data (pos + zlen l + zlen ds + zlen ks) sha rest 32 ltac:(lia) D3) by lia.
      cbn [List.length] in Ra. rewrite Nat.add_0_r in Ra. rewrite Ra.
      replace (zlen e + (pos + zlen l) - off) with (pos + (zlen l + zlen e) - off) by lia. rewrite Rs.
      change (0 <? 0) with false. cbv iota. change (nth_error frostingPublicKeys (Z.to_nat 0)) with (Some frosting_key). cbv iota beta.
      rewrite (frostingVerifySignature_made _ _ _ _ Eb Ok). now rewrite Rp.
    - inversion Ds as [|? ? Dx Ds']; subst. pose proof Dx as (d & dd & xr & Nd & Vd & Qx).
      cbn [concat] in D. rewrite <- !app_assoc in D. destruct (v32_read _ _ _ _ _ V D Hp) as [R1 D1].
      pose proof D1 as D2. apply drop_more in D2; [|apply varint32_pos in V; lia].
      rewrite Qx, <- !app_assoc in D1.
      pose proof (varint32_pos _ _ V). pose proof (varint32_pos _ _ Vd). pose proof (zlen_nonneg xr). pose proof (vfield_pos _ _ Ve). pose proof (zlen_nonneg (concat encs)).
      assert (Lx' : zlen x = zlen dd + zlen xr) by (rewrite Qx, zlen_app; lia).
      cbn [concat] in Lim, Rs. rewrite <- !app_assoc in Lim, Rs. rewrite (zlen_app l), (zlen_app x) in Lim, Rs.
      destruct (v32_read _ _ _ _ _ Vd D1 ltac:(lia)) as [R2 _].
      assert (Lx : pos + zlen l + zlen x + zlen (concat encs ++ eE ++ rest) = zlen data).
      { apply drop_len; [lia|assumption|]. intro N. apply (f_equal zlen) in N. rewrite !zlen_app, zlen_nil in N. pose proof (zlen_nonneg rest). lia. }
      rewrite !zlen_app in Lx. rewrite zlen_app in Lim. pose proof (zlen_nonneg rest).
      rewrite R1. destruct (Z.leb_spec limit pos); [lia|].
      rewrite (wrap32_id (pos + zlen l)) by (unfold min_int32 in *; lia). rewrite (wrap32_id (zlen x + (pos + zlen l))) by (unfold min_int32 in *; lia).
      destruct (Z.ltb_spec limit (zlen x + (pos + zlen l))); [lia|]. destruct (Z.leb_spec (zlen x + (pos + zlen l)) 0); [lia|]. cbn [orb]. cbv zeta.
      rewrite R2. destruct (Z.ltb_spec (zlen x + (pos + zlen l)) (pos + zlen l + zlen dd)); [lia|].
      destruct (Z.eqb_spec d 0); [contradiction|]. cbn [negb].
      replace (zlen x + (pos + zlen l)) with (pos + zlen l + zlen x) by lia.
      eapply IH; try eassumption; try lia.
      + cbn in Lf. lia.
      + rewrite zlen_app. lia.
      + cbn [List.length] in Ra. rewrite Nat.add_succ_comm. exact Ra.
      + rewrite <- Rs. f_equal. lia.
  Qed.

  Theorem frostingParse_made block proto skipped e sig signed sha spki : zlen block <= max_int32 -> ecdsa_sig_min E ->
    frosting_block block proto skipped e sig signed -> Forall disabled_entry skipped -> enabled_entry 0 sha e ->
    zlen skipped < 32767 -> proto <> [] -> e_base64 E frosting_key = Some spki -> ecdsa_sha256_ok E spki signed sig ->
    frostingParse E block = Ret (mkFrosting sha proto (hex_encode (e_hash E HSha256 spki)), None).
  Proof.
    intros Lb Min (total & totals & protoE & metas & metaSize & skipE & eE & rest & Vt & Vp & Vm & (encs & Fs & QsE) & Ve & Qs & Qb & L1 & L2 &
                   pm & sigs & arr & junk & before & sigE & after & Qb2 & Lpm & Va & Qa & Vs & Lbf & Fb) Ds En Lsk Np Eb Ok.
    assert (8 <= zlen sig) by (destruct Ok as (k & r & s & _ & Rs & _); exact (Min _ _ Rs)).
    pose proof Vp as (pl & Vpl & Qp). pose proof (varint32_pos _ _ Vt). pose proof (varint32_pos _ _ Vpl). pose proof (varint32_pos _ _ Vm). pose proof (varint32_pos _ _ Va).
    pose proof (vfield_pos _ _ Ve). pose proof (zlen_nonneg skipE). pose proof (zlen_nonneg rest).
    assert (0 < zlen proto) by (destruct proto; [contradiction|rewrite zlen_cons; pose proof (zlen_nonneg proto); lia]).
    assert (40 < zlen block \/ True) by auto.
    assert (D0 : dropZ 0 block = totals ++ signed ++ rest) by (rewrite dropZ_0 by lia; assumption).
    assert (D0' : dropZ 0 block = totals ++ pm ++ sigs ++ arr ++ junk) by (rewrite dropZ_0 by lia; assumption).
    destruct (v32_read _ _ _ _ _ Vt D0 ltac:(lia)) as [R0 D1]. destruct (v32_read _ _ _ _ _ Vt D0' ltac:(lia)) as [_ D1'].
    assert (Lblk : 0 + zlen totals + zlen (pm ++ sigs ++ arr ++ junk) = zlen block).
    { apply drop_len; [lia|assumption|]. intro N. apply (f_equal zlen) in N. rewrite !zlen_app, zlen_nil in N. pose proof (zlen_nonneg arr). pose proof (zlen_nonneg junk). pose proof (zlen_nonneg pm). lia. }
    rewrite !zlen_app, Lpm in Lblk. pose proof (zlen_nonneg arr). pose proof (zlen_nonneg junk). pose proof (zlen_nonneg pm).
    rewrite zlen_app in L1.
    assert (Le : 34 <= zlen e).
    { destruct En as (ds & ks & Vd & Vk & -> & L32). apply varint32_pos in Vd. apply varint32_pos in Vk. rewrite !zlen_app. lia. }
    assert (zlen e < zlen eE).
    { destruct Ve as (l & Vl & ->). apply varint32_pos in Vl. rewrite zlen_app. lia. }
    unfold frostingParse. rewrite R0. unfold rdLen. destruct (Z.leb_spec total 0); [lia|]. destruct (Z.leb_spec (zlen block) (0 + zlen totals)); [lia|].
    destruct (Z.ltb_spec (zlen block - (0 + zlen totals)) total); [lia|]. cbn [orb].
    pose proof D1 as D1s. rewrite Qs, Qp, <- !app_assoc in D1.
    destruct (v32_read _ _ _ _ _ Vpl D1 ltac:(lia)) as [R1 D2]. rewrite R1. cbv iota.
    assert (Lp : 0 + zlen totals + zlen pl + zlen (proto ++ metas ++ skipE ++ eE ++ rest) = zlen block).
    { apply drop_len; [lia|assumption|]. intro N. apply (f_equal zlen) in N. rewrite !zlen_app, zlen_nil in N. lia. }
    rewrite !zlen_app in Lp.
    destruct (Z.leb_spec (zlen proto) 0); [lia|]. destruct (Z.leb_spec (zlen block) (0 + zlen totals + zlen pl)); [lia|].
    destruct (Z.ltb_spec (zlen block - (0 + zlen totals + zlen pl)) (zlen proto)); [lia|].
    destruct (Z.ltb_spec (total - (0 + zlen totals + zlen pl - (0 + zlen totals))) (zlen proto)); [lia|]. cbn [orb].
    pose proof D2 as D2p. apply drop_more in D2; [|lia].
    destruct (v32_read _ _ _ _ _ Vm D2 ltac:(lia)) as [R2 D3]. rewrite R2.
    destruct (Z.leb_spec metaSize 0); [lia|]. destruct (Z.ltb_spec (total - zlen proto) metaSize); [lia|]. cbn [orb].
    assert (Lf : (List.length skipped < Z.to_nat maxInt16)%nat) by (apply Nat2Z.inj_lt; rewrite Z2Nat.id by (unfold maxInt16; lia); exact Lsk).
    assert (Ls : zlen signed = zlen pl + zlen proto + (zlen metas + (zlen skipE + zlen eE))) by (rewrite Qs, Qp, !zlen_app; lia).
    rewrite QsE in D3.
    eapply (frostingLoop_made skipped encs Fs Ds _ block _ _ _ _ _ _ 0 e eE rest sha sig signed spki proto Lf); try eassumption; try lia.
    - rewrite <- QsE, zlen_app. lia.
    - cbn [Nat.add]. rewrite <- Lbf. apply drop_more in D1'; [|lia]. rewrite Lpm in D1'.
      eapply readArrayItem_made; [| |exact D1'|exact Va|exact Qa|exact Vs|exact Fb]; lia.
    - rewrite <- QsE. eapply rdRead_app; [|exact D1s| |]; rewrite ?zlen_app; lia.
    - eapply rdRead_app; [|exact D2p| |]; lia.
  Qed.
End Parse.

Section Call.
  Variable E : env.

  Lemma handleEntry_has_frosting maxSdk id p st st' : handleEntry E maxSdk id p false st = Ret (Some st') ->
    id = id_frosting \/ v_frosting (en_res st) <> None -> v_frosting (en_res st') <> None.
  Proof.
    intros H Hor. destruct (Z.eq_dec id id_frosting) as [->|Nf].
    - change (obind (frostingParse E p) (fun x => match x with (f, ferr) =>
          let fr := {| fr_error := ferr; fr_keySha256 := f_usedKeySha256 f; fr_protobufInfo := f_protobufInfo f |} in
          Ret (Some (mkEnt (en_blocks st) (match ferr with Some _ => en_frosting st | None => Some f end)
                       (mkRes (match ferr with Some _ => addWarning (v_core (en_res st)) "frosting" | None => v_core (en_res st) end)
                              (v_schemeId (en_res st)) (v_extraResult3 (en_res st)) (Some fr) (v_sourceStamp (en_res st)) (v_extraBlocks (en_res st))))) end)
         = Ret (Some st')) in H.
      apply obind_ret in H as ([f e] & _ & H). injection H as <-. discriminate.
    - destruct Hor as [|N]; [contradiction|]. unfold handleEntry in H. destruct (_ || _).
      + injection H as <-. cbn [en_res]. destruct (negb _ || _); exact N.
      + destruct (id =? blockIdVerityPadding); [injection H as <-; auto|].
        change blockIdFrosting with id_frosting in H. destruct (Z.eqb_spec id id_frosting); [contradiction|].
        destruct (id =? blockIdSourceStampV2); injection H as <-; auto.
  Qed.
  Lemma foldEntries_has_frosting maxSdk es : forall st st', foldEntries E maxSdk es st = Ret (Some st') ->
    In id_frosting (map fst es) \/ v_frosting (en_res st) <> None -> v_frosting (en_res st') <> None.
  Proof.
    induction es as [|[id p] es IH]; intros st st' H Hor; cbn [foldEntries] in H.
    - injection H as <-. destruct Hor as [[]|]; assumption.
    - apply obind_ret in H as (r & Hh & H). destruct r as [st1|]; [|discriminate]. apply (IH _ _ H).
      destruct Hor as [[Q|I]|N]; [| left; exact I |]; right; eapply handleEntry_has_frosting; eauto.
  Qed.

  Theorem frosting_complete S file minSdk maxSdk z res err fr : ecdsa_sig_min E ->
    returns E S file minSdk maxSdk z res err -> frosting_genuine E file fr -> fr_error fr = None -> v_frosting res = Some fr.
  Proof.
    intros Min (vr & H & Rr & Re) (before & pairs & cd & rec & es & A & Es & Parts) Fe.
    destruct Parts as (block & sk & e & sha & sig & signed & spki & v2 & msg & Lb & FB & Dis & En & Lsk & Np & Eb & Ok & Qk & Qv2 & (rec' & Pa & Qm) & Qs).
    unfold verifySigningBlock in H. destruct (newSigningBlock file) as [magic|]; [|injection H as <-; discriminate].
    rewrite (findSignatureBlocks_apk E file maxSdk before pairs cd rec A) in H.
    apply obind_ret in H as (fd & Fd & H). apply obind_ret in Fd as ([st ok] & L & Fd).
    destruct (entries_spec E maxSdk pairs st ok L) as [Hok Hes]. assert (ok = true) by (apply Hok; eauto). subst ok.
    destruct (Hes es Es) as [FE Inv]. injection Fd as <-.
    pose proof (foldEntries_frosting E maxSdk es [] (mkEnt [] None vres0) st ltac:(intros fr0 X; discriminate) FE) as FInv.
    assert (Has : v_frosting (en_res st) <> None).
    { apply (foldEntries_has_frosting _ _ _ _ FE). left. destruct Lb as (b0 & a0 & -> & _). rewrite map_app. apply in_or_app. right. left. reflexivity. }
    assert (Lbk : zlen block <= max_int32).
    { destruct Es as (_ & Fits & _). destruct Lb as (b0 & a0 & -> & _). apply Forall_app in Fits as [_ Fits]. inversion Fits as [|? ? [_ Fb] _]; subst. cbn [snd] in Fb. unfold max_int32. lia. }
    pose proof (frostingParse_made E block (fr_protobufInfo fr) sk e sig signed sha spki Lbk Min FB Dis En Lsk Np Eb Ok) as Pm.
    destruct (v_frosting (en_res st)) as [fr0|] eqn:Fr0; [|contradiction].
    destruct (FInv fr0 Fr0) as (block' & f & Lb' & Pf & K1 & K2 & K3). cbn [app] in Lb'.
    assert (block' = block) by (eapply last_entry_fun; eassumption). subst block'. rewrite Pm in Pf. injection Pf as <- E0.
    apply obind_ret in H as (r & Ap & H). apply obind_ret in H as ([cds1 res1] & P1 & H). apply obind_ret in H as ([cds2 res2] & P2 & H).
    apply obind_ret in H as (stamp & _ & H). injection H as <-. cbn [vr_res vr_err] in Rr, Re.
    assert (v_frosting res = v_frosting r).
    { rewrite <- (pickAndVerify_frosting _ _ _ _ _ _ _ _ _ _ _ P1), <- (fallback_frosting _ _ _ _ _ _ _ _ _ _ _ P2). now injection Rr as <-. }
    rewrite H. clear H P1 P2 Rr Re. unfold applyFrosting in Ap. rewrite (K3 (eq_sym E0)), Fr0, <- E0 in Ap.
    fold (v2_of st) in Ap. assert (Qv : v2_of st = v2).
    { destruct v2 as [p|].
      - apply (v2_of_last maxSdk es st p Inv). now apply Qv2.
      - destruct (v2_of st) as [p|] eqn:V; [|reflexivity]. apply (v2_of_last maxSdk es st p Inv) in V. apply Qv2 in V. discriminate. }
    rewrite Qv in Ap. cbn [sb_offset sb_eocd ei_centralDirOffset ei_centralDirSize ei_eocd sblock_of] in Ap.
    match type of Ap with context [frostingVerifyApk E ?f _ _ _ _ _ _] => destruct (frostingVerifyApk_eq E f before v2 pairs cd rec file A) as (msg' & (rec'' & Pa' & Qm') & Eq) end.
    rewrite Eq in Ap. cbn [obind f_fileSha256] in Ap.
    assert (rec'' = rec') by (eapply patched_fun; eassumption). subst rec''. assert (msg' = msg) by congruence. subst msg'.
    rewrite Qs, ?Qm, bytes_eqb_refl in Ap. injection Ap as <-. unfold setFrostingError. cbn [v_frosting]. rewrite Fr0. f_equal.
    destruct fr as [fe fk fp], fr0 as [e0 k0 p0]. cbn [fr_error fr_keySha256 fr_protobufInfo f_usedKeySha256 f_protobufInfo] in *. congruence.
  Qed.

  (** Soundness when all entries are well-formed. *)
  Theorem frosting_sound_whole S file minSdk maxSdk z res err fr before pairs cd rec es : ecdsa_sig_min E ->
    returns E S file minSdk maxSdk z res err -> apk file before pairs cd rec -> entries_of pairs es ->
    v_frosting res = Some fr -> fr_error fr = None -> frosting_genuine E file fr.
  Proof.
    intros Min R A Es Fr Fe. destruct (frosting_sound E S file minSdk maxSdk z res err fr Min R Fr Fe)
      as (before' & pairs' & cd' & rec' & es' & rest & A' & Qp & Fits & Nr & Parts).
    destruct (apk_unique _ _ _ _ _ _ _ _ _ A A') as (<- & <- & <- & <-).
    (* the entries read are all of them *)
    exists before, pairs, cd, rec, es. split; [assumption|]. split; [assumption|].
    destruct rest as [|b rest]; [|exfalso; apply (Nr ltac:(discriminate)); eauto].
    rewrite app_nil_r in Qp. destruct Es as (Q & F & _). rewrite Q in Qp.
    now rewrite (enc_entries_inj es F es' Fits Qp).
  Qed.
End Call.
