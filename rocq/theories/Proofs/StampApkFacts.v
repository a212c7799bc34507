(** Source stamps of whole APKs *)
From Coq Require Import String.
From Coq Require Import Lia Permutation Sorted.
From Verif.Model Require Import Bytes ApiLevel Env Utils SigBlock Result Signer SchemeV3 SourceStamp Verify.
From Verif.Spec Require Import Encoding Algorithms Nondet ApkLayout Digests Entries Signer SignerV3 Stamp Verified Calls.
From Verif.Proofs Require Import BytesFacts UtilsFacts SignerFacts LineageFacts SigBlockFacts EntriesFacts ApkFacts CollectFacts StampFacts.

Lemma lp_head x r x' r' : fits x -> fits x' -> lp x ++ r = lp x' ++ r' -> x = x' /\ r = r'.
Proof. intros F F' Q. pose proof (getLP_enc x r F) as A. rewrite Q, getLP_enc in A by assumption. split; congruence. Qed.
Lemma layout_fun b e s r e' s' r' : stamp_layout b e s r -> stamp_layout b e' s' r' -> e = e' /\ s = s' /\ r = r'.
Proof.
  intros (sb & j & -> & F & -> & Fe & Fs) (sb' & j' & Q & F' & -> & Fe' & Fs'). apply lp_head in Q as [Q _]; [|assumption|assumption].
  apply lp_head in Q as [-> Q]; [|assumption|assumption]. apply lp_head in Q as [-> ->]; auto.
Qed.

Section Stamp.
  Variables (E : env) (S : sched).
  Hypothesis HS : sched_ok S.

  Theorem stamp_sound scheme minSdk maxSdk z block cds st entry :
    verifySourceV2Stamp E S scheme minSdk maxSdk z block cds = Ret (Some st) -> st_errors st = [] ->
    sget stamp_entry_name (z_map z) = Some entry ->
    exists b c m, block = Some b /\ st_cert st = Some c /\
      zf_readall entry 65536 = Some (e_hash E HSha256 (c_raw c)) /\
      stamp_block E minSdk maxSdk scheme m b c /\
      (cds <> [] -> m = cds) /\ (cds = [] -> exists d, manifest_digest E z d /\ m = [(4, d)]) /\
      (st_lineage st <> [] -> exists al v, stamp_attrs E minSdk maxSdk b c al [] /\ last_entry al id_stamp_rotation v /\ stamp_lineage E c v (st_lineage st)) /\
      (forall t, st_time st = Some t -> 0 < t /\ exists al tail rest, stamp_attrs E minSdk maxSdk b c al tail /\ last_entry al id_stamp_time (le64 t ++ rest)).
  Proof.
    unfold verifySourceV2Stamp. intros H Er En. change sourceStampZipEntryName with stamp_entry_name in H. rewrite En in H.
    destruct block as [b|]; [|inversion H; subst; discriminate].
    destruct (getLengthPrefixedSlice b) as [[sb j]|] eqn:G1; [|inversion H; subst; discriminate].
    destruct (getLengthPrefixedSlice sb) as [[enc sb1]|] eqn:G2; [|inversion H; subst; discriminate].
    destruct (e_cert_andr E enc) as [c|] eqn:Hc; [|inversion H; subst; discriminate].
    set (s0 := mkStamp (Some c) None [] [] []) in H.
    assert (exists cds1 s1, match cds with
                       | [] => let '(d, s) := getSchemeV1ContentDigest E z s0 in ([(digestNonChunkedSha256, d)], s)
                       | _ => (cds, s0)
                       end = (cds1, s1) /\ st_frame s0 s1 /\ (cds <> [] -> cds1 = cds) /\ (cds = [] -> exists d, manifest_digest E z d /\ cds1 = [(4, d)])) as (cds1 & s1 & Q & F1 & C1 & C2).
    { destruct cds as [|p cds].
      - unfold getSchemeV1ContentDigest, manifest_digest. change manifestMfName with manifest_mf_name. change (128 * 1024 * 1024) with 134217728.
        destruct (sget manifest_mf_name (z_map z)) as [f|]; [destruct (zf_readall f 134217728) as [mb|]|]; eexists _, _; (split; [reflexivity|]); (split; [repeat split|]); (split; [congruence|]); intros _; eexists; (split; [|reflexivity]); reflexivity.
      - eexists _, _. split; [reflexivity|]. split; [apply st_frame_refl|]. split; [auto | discriminate]. }
    rewrite Q in H. clear Q. cbv beta iota in H.
    change sourceStampHashSizeLimit with 65536 in H.
    destruct (zf_readall entry 65536) as [hash|] eqn:Rd; [|inversion H; subst; exfalso; exact (addError_ne _ _ Er)].
    destruct (Z.leb_spec 65536 (zlen hash)); [inversion H; subst; exfalso; exact (addError_ne _ _ Er)|].
    destruct (bytes_eqb (e_hash E HSha256 (c_raw c)) hash) eqn:Be; cbn [negb] in H; [|inversion H; subst; exfalso; cbn in Er; destruct (st_errors s1); discriminate].
    apply bytes_eqb_eq in Be. subst hash.
    destruct (getLengthPrefixedSlice sb1) as [[schemes sb2]|] eqn:G3; [|inversion H; subst; exfalso; exact (addError_ne _ _ Er)].
    apply getLP_inv in G1 as [-> Fb], G2 as [-> Fe], G3 as [-> Fs].
    set (b := lp (lp enc ++ lp schemes ++ sb2) ++ j) in *. assert (Lay : stamp_layout b enc schemes sb2) by (exists (lp enc ++ lp schemes ++ sb2), j; auto).
    set (needed := if scheme =? schemeIdV31 then schemeIdV3 else scheme) in H. change needed with (stamp_scheme scheme) in H. clear needed.
    destruct (lpItems schemes) as [items ok] eqn:L. destruct (stampSchemes items ok (stamp_scheme scheme) None s1) as [found s2] eqn:Sc.
    destruct found as [found|]; [|inversion H; subst; exfalso; exact (stampSchemes_err _ _ _ _ _ _ Sc Er)].
    assert (Fi : Forall fits items).
    { destruct ok; [apply lpItems_inv in L as [_ F]; exact F|]. apply lpItems_false in L as (t & _ & F & _). exact F. }
    apply (stampSchemes_ok items (stamp_scheme scheme) Fi ok []) in Sc as (rs & -> & -> & -> & Fr & Hr).
    2:{ intro x. split; [discriminate|]. intros (f & ([|] & ? & X & _) & _); discriminate. }
    apply lpItems_inv in L as [-> _]. cbn [app] in Hr.
    destruct found as [sigs|]; [|inversion H; subst; exfalso; exact (addError_ne _ _ Er)].
    apply obind_ret in H as ([good s3] & Vs & H). destruct good; cbn [negb] in H; [|inversion H; subst; exfalso; exact (stampSig_false _ _ _ _ _ _ _ _ _ _ Vs Er)].
    apply (stampSig_sound E S HS) in Vs as [Sg F3]. pose proof (st_frame_trans _ _ _ F1 F3) as F03. clear F1 F3.
    assert (Sch : scheme_signatures (lps (map enc_rec rs)) scheme sigs).
    { destruct (proj1 (Hr sigs) eq_refl) as (f & Lf & Hf). exists rs, f. auto. }
    assert (Msg : stamp_message cds1 (getSignatureSchemeDigest S (ord S _ 13 0 cds1))) by (apply message_spec; [assumption | apply (ord_perm S HS)]).
    exists b, c, cds1. split; [reflexivity|].
    destruct sb2 as [|x sb2].
    { inversion H; subst. destruct F03 as (X1 & X2 & X3 & X4). unfold s0 in *. cbn in X2, X3, X4. split; [assumption|]. split; [reflexivity|]. split.
      - eexists enc, _, [], sigs, _. repeat (split; [eassumption|]). auto.
      - split; [assumption|]. split; [assumption|]. rewrite X3, X4. split; [contradiction | discriminate]. }
    set (sb3 := x :: sb2) in *.
    destruct (getLengthPrefixedSlice sb3) as [[attrs sb4]|] eqn:G4; [|inversion H; subst; exfalso; exact (addError_ne _ _ Er)].
    destruct (getLengthPrefixedSlice sb4) as [[asigs j2]|] eqn:G5; [|inversion H; subst; exfalso; exact (addError_ne _ _ Er)].
    apply getLP_inv in G4 as [E4 Fa], G5 as [-> Fas]. assert (La : stamp_attributes_layout sb3 attrs asigs) by (exists j2; auto).
    apply obind_ret in H as ([good2 s4] & Vs2 & H). destruct good2; cbn [negb] in H; [|inversion H; subst; exfalso; exact (stampSig_false _ _ _ _ _ _ _ _ _ _ Vs2 Er)].
    apply (stampSig_sound E S HS) in Vs2 as [Sg2 F4]. pose proof (st_frame_trans _ _ _ F03 F4) as F04. clear F03 F4.
    apply obind_ret in H as ([g s5] & Pa & H). inversion H; subst s5. clear H.
    unfold parseStampAttributes in Pa. destruct (getLengthPrefixedSlice attrs) as [[inner j3]|] eqn:G6; [|inversion Pa; subst; exfalso; exact (addError_ne _ _ Er)].
    apply getLP_inv in G6 as [E6 F6]. destruct (lpItems inner) as [aitems aok] eqn:La2.
    destruct F04 as (X1 & X2 & X3 & X4). unfold s0 in *. cbn in X1, X2, X3, X4.
    assert (Fi2 : Forall fits aitems).
    { destruct aok; [apply lpItems_inv in La2 as [_ F]; exact F|]. apply lpItems_false in La2 as (t & _ & F & _). exact F. }
    apply (stampAttrLoop_ok E c aitems Fi2 aok []) in Pa as (_ & X5 & al & rest & Ei & R1 & R2 & Fal & Ia & Ib); [| |assumption].
    2:{ split; [rewrite X4; contradiction | rewrite X3; discriminate]. }
    cbn [app] in Ia, Ib. split; [congruence|]. split; [first [assumption|reflexivity]|].
    split. { eexists enc, _, sb3, sigs, _. repeat (split; [eassumption|]). right. exists attrs, asigs. auto. }
    split; [assumption|]. split; [assumption|].
    assert (exists tail, inner = lps (map enc_rec al) ++ tail /\ (st_lineage st <> [] -> tail = [])) as (tail & Et & T0).
    { destruct aok.
      - apply lpItems_inv in La2 as [-> _]. rewrite Ei. unfold lps. rewrite flat_map_app. eexists. split; [reflexivity|]. intro Ne. destruct rest; [reflexivity|]. exfalso. apply Ne. apply R2. discriminate.
      - apply lpItems_false in La2 as (t & -> & _). rewrite Ei. unfold lps. rewrite flat_map_app, <- app_assoc. eexists. split; [reflexivity|]. intro Ne. exfalso.
        destruct rest; [|apply Ne; apply R2; discriminate]. destruct (R1 eq_refl); [contradiction | discriminate]. }
    assert (At : stamp_attrs E minSdk maxSdk b c al tail).
    { eexists enc, _, sb3, attrs, asigs, (lps (map enc_rec al)), j3. repeat (split; [eassumption|]). split; [rewrite <- Et; assumption|]. split; [rewrite <- Et; assumption|]. split; [reflexivity | assumption]. }
    split.
    - intro Ne. destruct (Ia Ne) as (v & Lv & Sl). exists al, v. rewrite (T0 Ne) in At. auto.
    - intros t Ht. destruct (Ib t Ht) as (P & r & Lt). split; [assumption|]. exists al, tail, r. auto.
  Qed.
End Stamp.

Section StampApk.
  Variables (E : env) (S : sched).
  Hypothesis HE : hash_sizes_ok E.
  Hypothesis HS : sched_ok S.

  Lemma cds_match is m sections : recorded_digests is m -> digests_match E sections is -> is <> [] ->
    (forall i, In i is -> supported (si_algo i)) ->
    m <> [] /\ NoDup (map fst m) /\ Forall (fun p => exists k, fst p = kind_id k /\ content_digest E k sections (snd p)) m.
  Proof.
    intros [N R] D Ne Su. split; [|split; [assumption|]].
    - destruct is as [|i is]; [contradiction|]. destruct (Su i (or_introl eq_refl)) as (k & mm & T). intros ->.
      assert (X : zget (kind_id k) [] = Some (si_digest i)); [|discriminate]. apply R. exists i, k. split; [now left|]. split; [exists mm; exact T|]. auto.
    - apply Forall_forall. intros [a d] I. apply in_mget in I; [|assumption]. apply R in I as (i & k & I & K & -> & ->). exists k. split; [reflexivity|]. cbn. eapply D; eassumption.
  Qed.

  Lemma signed_supported sd sigs pk digs cs ch a d : signed_by E sd sigs pk digs cs ch a d -> supported a.
  Proof. intros (? & ? & ? & ? & ? & (rs & f & _ & _ & (? & ? & k & _ & (m & K) & _) & _) & _). exists k, m. exact K. Qed.
  Lemma v2_supported maxSdk Q b is : v2_block E maxSdk Q b is -> forall i, In i is -> supported (si_algo i).
  Proof.
    intros (signers & j & _ & _ & _ & F & _). induction F as [|s i ss is V F IH]; [intros ? []|]. intros i' [<-|I]; [|auto].
    destruct V as (? & ? & ? & ? & ? & ? & ? & ? & ? & _ & _ & _ & _ & _ & _ & _ & _ & V & _). eapply signed_supported; exact V.
  Qed.
  Lemma v3_supported maxSdk rot b is : v3_block E maxSdk rot b is -> forall i, In i (map i3_signer is) -> supported (si_algo i).
  Proof.
    intros (signers & j & _ & _ & _ & F & _). induction F as [|s i ss is V F IH]; [intros ? []|]. cbn [map]. intros i' [<-|I]; [|auto].
    destruct V as (? & ? & ? & ? & ? & ? & ? & ? & ? & ? & ? & H). decompose [and] H. eapply signed_supported; eassumption.
  Qed.

  (** the digests handed to the stamp check *)
  Lemma whole_cds file es sections minSdk maxSdk before pairs cd rec st res cds res1 cds2 res2 :
    apk file before pairs cd rec -> protected before cd rec sections -> entries_inv maxSdk es st -> quiet core0 (v_core res) -> v_extraBlocks res = v_extraBlocks (en_res st) ->
    pickAndVerify E S 0 file (sblock_of before pairs cd rec) (en_blocks st) minSdk maxSdk res = Ret (cds, res1) ->
    fallback E S file (sblock_of before pairs cd rec) (en_blocks st) minSdk maxSdk cds res1 = Ret (cds2, res2) ->
    (maxSdk < 24 -> cds2 = []) /\ (24 <= maxSdk -> errors (v_core res2) = [] -> content_digests E sections cds2).
  Proof.
    intros A P [Ib Ie [Nb Ne] Ic Ir] Rc Fx Pv Fb. split.
    - intro M. rewrite run_old in Pv by assumption. inversion Pv; subst. rewrite fallback_ok in Fb by (cbn; now apply fresh_core in Rc as (_ & _ & X)). now inversion Fb.
    - intros M Er.
      destruct (whole E S file before pairs cd rec sections es minSdk maxSdk HE HS A P (en_blocks st) Ib _ Ie res Rc Fx Nb _ _ _ _ Pv Fb Er)
        as [[-> ->]|(Id & N31 & V3 & Mi & Er1 & is & w & Vd & Hc & Rd & _)].
      + destruct (in_cases maxSdk es) as ([I31|I31] & [I3|I3] & [I2|I2]).
        1-4: apply (first_31 E S file before pairs cd rec sections es minSdk maxSdk HE HS A P (en_blocks st) Ib _ Ie res Rc Fx) in Pv as (Id & Sd & _);
             [|assumption]; destruct (Sd Er) as (is31 & is3 & V & Hc & Rd); destruct V as (_ & _ & Ne3 & b31 & b3 & rot & lin3 & _ & _ & _ & _ & B3 & Dm & _);
             apply (cds_match (map i3_signer is3)); [assumption|assumption|destruct is3; [contradiction|discriminate]|eapply v3_supported; exact B3].
        1-2: apply (first_3 E S file before pairs cd rec sections es minSdk maxSdk HE HS A P (en_blocks st) Ib _ Ie res Rc Fx) in Pv as (Id & Sd & _);
             [|assumption|assumption]; destruct (Sd Er) as (is & V & Hc & Rd); destruct V as (_ & Ne3 & b3 & _ & B3 & Dm & _);
             apply (cds_match (map i3_signer is)); [assumption|assumption|destruct is; [contradiction|discriminate]|eapply v3_supported; exact B3].
        * apply (first_2 E S file before pairs cd rec sections es minSdk maxSdk HE HS A P (en_blocks st) Ib _ Ie res Rc Fx) in Pv as (Id & Sd & _);
             [|assumption|assumption|assumption]. destruct (Sd Er) as (is & V & Hc & Hl & Rd). destruct V as (_ & Nei & b & _ & B & Dm).
          apply (cds_match is); [assumption|assumption|assumption|eapply v2_supported; exact B].
        * apply (first_1 E S file before pairs cd rec es minSdk maxSdk (en_blocks st) Ib _ Ie res Rc Fx) in Pv as (_ & X); try assumption. congruence.
      + destruct Vd as (_ & Nei & b & _ & B & Dm). apply (cds_match is); [assumption|assumption|assumption|eapply v2_supported; exact B].
  Qed.

  Theorem stamp_apk file es sections minSdk maxSdk z res err st entry :
    returns E S file minSdk maxSdk z res err -> apk_with file es sections ->
    v_sourceStamp res = Some st -> st_errors st = [] -> sget stamp_entry_name (z_map z) = Some entry ->
    exists b c m, last_entry es id_stamp b /\ st_cert st = Some c /\
      zf_readall entry 65536 = Some (e_hash E HSha256 (c_raw c)) /\
      stamp_block E minSdk maxSdk (scheme res) m b c /\
      (err = None -> 24 <= maxSdk -> content_digests E sections m) /\
      (maxSdk < 24 -> exists d, manifest_digest E z d /\ m = [(4, d)]) /\
      (st_lineage st <> [] -> exists al v, stamp_attrs E minSdk maxSdk b c al [] /\ last_entry al id_stamp_rotation v /\ stamp_lineage E c v (st_lineage st)) /\
      (forall t, st_time st = Some t -> 0 < t /\ exists al tail rest, stamp_attrs E minSdk maxSdk b c al tail /\ last_entry al id_stamp_time (le64 t ++ rest)).
  Proof.
    intros (vr & H & Rs & Ve) Ap Ss Er En.
    destruct (verify_unfold E S _ _ _ _ _ _ _ Ap H) as (before & pairs & cd & rec & est & res0 & cds & res1 & cds2 & res2 & stamp & A & P & Inv & Rc & Fx & Pv & Fb & Rs' & St & Ve').
    rewrite Rs in Rs'. inversion Rs'; subst res. clear Rs'. cbn [v_sourceStamp] in Ss. subst stamp.
    destruct (whole_cds _ _ _ _ _ _ _ _ _ _ _ _ _ _ _ A P Inv Rc Fx Pv Fb) as [W1 W2].
    destruct (stamp_sound E S HS _ _ _ _ _ _ _ _ St Er En) as (b & c & m & Zb & Sc & Rd & Sb & C1 & C2 & Li & Ti).
    exists b, c, m. split. { destruct Inv as [Ib _ _ _ _]. apply Ib in Zb. apply Zb. }
    split; [assumption|]. split; [assumption|]. split; [exact Sb|]. split; [|split; [|split; assumption]].
    - intros -> M. symmetry in Ve'. rewrite Ve in Ve'. apply getLastError_none in Ve'. destruct (W2 M Ve') as (X & Y). rewrite (C1 X). split; assumption.
    - intro M. apply C2. auto.
  Qed.
End StampApk.
