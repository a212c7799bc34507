(** The properties of Props/ in terms of Spec/Calls.v *)
From Coq Require Import String.
From Coq Require Import Lia Permutation.
From Verif.Model Require Import Bytes ApiLevel Env Utils SigBlock Result Signer SchemeV2 SchemeV3 DataSource Digest Frosting SourceStamp Verify.
From Verif.Spec Require Import Encoding Algorithms Nondet Signer SignerV3 Ranges ApkLayout Digests Entries Verified Calls.
From Verif.Proofs Require Import BytesFacts UtilsFacts SigBlockFacts SignerFacts SchemeV2Facts CollectFacts V2BlockFacts LineageFacts SchemeV3Facts V3BlockFacts RangeFacts CoveringFacts IntegrityFacts EntriesFacts VerifyFacts ApkFacts TotalFacts.

Theorem findSignatureBlocks_iff E file maxSdk fr : findSignatureBlocks E file maxSdk = Ret fr ->
  ((exists st s, fr = FindOk st s) <-> exists before pairs cd rec es, apk file before pairs cd rec /\ entries_of pairs es) /\
  (forall st s before pairs cd rec es, fr = FindOk st s -> apk file before pairs cd rec -> entries_of pairs es ->
     (forall id p, zget id (en_blocks st) = Some p <-> used_at maxSdk id /\ last_entry es id p) /\
     (forall id p, zget id (v_extraBlocks (en_res st)) = Some p <-> extra_at maxSdk id /\ last_entry es id p)).
Proof.
  intro H. split; [split|].
  - intros (st & s & ->). apply findSignatureBlocks_ok in H as (before & pairs & cd & rec & es & A & _ & En & _). eauto 10.
  - intros (before & pairs & cd & rec & es & A & En). rewrite (findSignatureBlocks_apk E file maxSdk _ _ _ _ A) in H.
    apply obind_ret in H as ([st ok] & Lo & Fi). destruct (entries_spec E maxSdk pairs st ok Lo) as [Ok _].
    assert (ok = true) as -> by (apply Ok; eauto). inversion Fi. eauto.
  - intros st s before pairs cd rec es -> A En. apply findSignatureBlocks_ok in H as (b' & p' & c' & r' & es' & A' & _ & En' & [Ib Ie _ _ _] & _).
    destruct (apk_unique _ _ _ _ _ _ _ _ _ A A') as (<- & <- & <- & <-). rewrite (entries_unique _ _ _ En En'). auto.
Qed.

Section Calls.
  Variables (E : env) (S : sched).
  Hypothesis HE : hash_sizes_ok E.
  Hypothesis HS : sched_ok S.

  Lemma pick_frame k file s bl minSdk maxSdk r cds r' : pickAndVerify E S k file s bl minSdk maxSdk r = Ret (cds, r') -> v_extraBlocks r' = v_extraBlocks r.
  Proof.
    unfold pickAndVerify. destruct (negb _); [intro H; inversion H; reflexivity|]. destruct (pickScheme bl) as [id [b|]]; [|intro H; inversion H; reflexivity].
    intro H. apply verifyScheme_frame in H as (_ & _ & _ & X). exact X.
  Qed.
  Lemma pick_scheme k file s bl minSdk maxSdk r cds r' : 24 <= maxSdk -> pickAndVerify E S k file s bl minSdk maxSdk r = Ret (cds, r') -> v_schemeId r' = fst (pickScheme bl).
  Proof.
    intro M. unfold pickAndVerify, SupportsSigV2, V7_0_Nougat. destruct (Z.leb_spec 24 maxSdk); [|lia]. cbn [negb].
    destruct (pickScheme bl) as [id [b|]]; [|intro H'; inversion H'; reflexivity].
    intro H'. apply verifyScheme_frame in H' as (X & _). exact X.
  Qed.

  Theorem extra_blocks file es sections minSdk maxSdk z res err :
    apk_with file es sections -> returns E S file minSdk maxSdk z res err ->
    forall id p,
      (extra_at maxSdk id -> last_entry es id p -> extra_block res id = Some p) /\
      (extra_block res id = Some p -> last_entry es id p /\ (extra_at maxSdk id \/ id = id_v3 /\ minSdk < 28 /\ err <> None \/ id = id_v3 /\ minSdk < 28 /\ scheme res = 2)).
  Proof.
    intros Ap (vr & H & Rs & Er) id p.
    destruct (verify_unfold E S _ _ _ _ _ _ _ Ap H) as (before & pairs & cd & rec & st & res0 & cds & res1 & cds2 & res2 & stamp & A & P & [Ib Ie [Nb Ne] Ic Ir] & Rc & Fx & Pv & Fb & Rs' & St & Ve).
    rewrite Rs in Rs'. inversion Rs'; subst res. clear Rs'. unfold extra_block, scheme. cbn [v_extraBlocks v_schemeId].
    rewrite Ve in Er. subst err. pose proof (pick_frame _ _ _ _ _ _ _ _ _ Pv) as Fx1.
    pose proof Fb as Fb0. apply (fallback_cond E S file before pairs cd rec es minSdk maxSdk (en_blocks st) Ib) in Fb as [[-> ->]|(Er1 & Id & Mi & V2 & Fb)].
    { rewrite Fx1, Fx, Ie. tauto. }
    cbn zeta in Fb. pose proof (pick_frame _ _ _ _ _ _ _ _ _ Fb) as Fx2. cbn [v_extraBlocks] in Fx2. rewrite Fx1, Fx in Fx2.
    assert (D : getLastError (v_core res2) <> None \/ v_schemeId res2 = 2).
    { destruct (errors (v_core res2)) as [|e er] eqn:Q; [right | left; unfold getLastError; rewrite Q; discriminate].
      destruct (whole E S file before pairs cd rec sections es minSdk maxSdk HE HS A P (en_blocks st) Ib _ Ie res0 Rc Fx Nb _ _ _ _ Pv Fb0 Q) as [[-> _]|(X & _)]; [congruence | exact X]. }
    rewrite Fx2. change blockIdSchemeV3 with id_v3. destruct (zget id_v3 (en_blocks st)) as [b3|] eqn:Z3.
    - apply Ib in Z3 as [_ L3]. rewrite zget_zset. destruct (Z.eqb_spec id id_v3) as [->|Nid].
      + split; [intros _ L; f_equal; eapply last_entry_fun; eassumption|]. intro Q. inversion Q; subst p. split; [assumption|]. tauto.
      + rewrite Ie. tauto.
    - rewrite zget_zdel by assumption. destruct (Z.eqb_spec id id_v3) as [->|Nid]; [|rewrite Ie; tauto].
      split; [|discriminate]. intros X L. exfalso.
      assert (U : ~ used_at maxSdk id_v3). { intro U. assert (zget id_v3 (en_blocks st) = Some p) by (apply Ib; auto). congruence. }
      unfold used_at, extra_at in *. decompose [and] X.
      match goal with Y : id_v3 = id_v3 -> _ |- _ => specialize (Y eq_refl) as Y' end.
      assert (M : maxSdk < 28) by (destruct (Z_lt_le_dec maxSdk 28); [assumption | exfalso; apply U; auto]).
      destruct V2 as [M2 _]. rewrite (pick_scheme _ _ _ _ _ _ _ _ _ M2 Pv) in Id. unfold pickScheme in Id.
      destruct (zget blockIdSchemeV31 (en_blocks st)) as [b|] eqn:Z31.
      + apply Ib in Z31 as [Z31 _]. change blockIdSchemeV31 with id_v31 in Z31. unfold used_at, id_v31, id_v2, id_v3, id_stamp in Z31. lia.
      + change blockIdSchemeV3 with id_v3 in Id. rewrite Z3 in Id. destruct (zget blockIdSchemeV2 (en_blocks st)); cbn in Id; unfold schemeIdV2, schemeIdV1 in Id; lia.
  Qed.

  (** ... and in the fallback the v3.0 block is in ExtraBlocks. *)
  Theorem extra_fallback file es sections minSdk maxSdk z res p :
    apk_with file es sections -> returns E S file minSdk maxSdk z res None -> 28 <= maxSdk -> scheme res = 2 -> last_entry es id_v3 p ->
    extra_block res id_v3 = Some p.
  Proof.
    intros Ap (vr & H & Rs & Er) M Id L.
    destruct (verify_unfold E S _ _ _ _ _ _ _ Ap H) as (before & pairs & cd & rec & st & res0 & cds & res1 & cds2 & res2 & stamp & A & P & [Ib Ie [Nb Ne] Ic Ir] & Rc & Fx & Pv & Fb & Rs' & St & Ve).
    rewrite Rs in Rs'. inversion Rs'; subst res. clear Rs'. unfold extra_block, scheme in *. cbn [v_extraBlocks v_schemeId] in *.
    assert (Z3 : zget id_v3 (en_blocks st) = Some p) by (apply Ib; split; [unfold used_at; auto | assumption]).
    apply (fallback_cond E S file before pairs cd rec es minSdk maxSdk (en_blocks st) Ib) in Fb as [[-> ->]|(_ & _ & _ & _ & Fb)].
    { exfalso. assert (M2 : 24 <= maxSdk) by lia. rewrite (pick_scheme _ _ _ _ _ _ _ _ _ M2 Pv) in Id. unfold pickScheme in Id. change blockIdSchemeV3 with id_v3 in Id. rewrite Z3 in Id.
      destruct (zget blockIdSchemeV31 (en_blocks st)); cbn in Id; unfold schemeIdV31, schemeIdV3 in Id; lia. }
    cbn zeta in Fb. pose proof (pick_frame _ _ _ _ _ _ _ _ _ Fb) as Fx2. cbn [v_extraBlocks] in Fx2. change blockIdSchemeV3 with id_v3 in Fx2. rewrite Z3 in Fx2.
    rewrite Fx2, zget_zset. change (id_v3 =? id_v3) with true. reflexivity.
  Qed.

  Theorem precedence file es sections minSdk maxSdk z res err :
    apk_with file es sections -> 24 <= maxSdk -> returns E S file minSdk maxSdk z res err ->
    (v31_in maxSdk es -> scheme res = 31) /\
    (~ v31_in maxSdk es -> v3_in maxSdk es -> scheme res = 3 \/ scheme res = 2 /\ minSdk < 28 /\ v2_in maxSdk es) /\
    (~ v31_in maxSdk es -> ~ v3_in maxSdk es -> v2_in maxSdk es -> scheme res = 2) /\
    (~ v31_in maxSdk es -> ~ v3_in maxSdk es -> ~ v2_in maxSdk es -> scheme res = 1 /\ exists m, err = Some (ErrNotFound m)).
  Proof.
    intros Ap M (vr & H & Rs & Er).
    destruct (verify_unfold E S _ _ _ _ _ _ _ Ap H) as (before & pairs & cd & rec & st & res0 & cds & res1 & cds2 & res2 & stamp & A & P & [Ib Ie [Nb Ne] Ic Ir] & Rc & Fx & Pv & Fb & Rs' & St & Ve).
    rewrite Rs in Rs'. inversion Rs'; subst res. clear Rs'. unfold scheme. cbn [v_schemeId].
    rewrite Ve in Er. subst err. pose proof (pick_scheme _ _ _ _ _ _ _ _ _ M Pv) as Id1.
    assert (Pk1 : ~ v31_in maxSdk es -> v3_in maxSdk es -> pickScheme (zdel blockIdSchemeV3 (en_blocks st)) = pickScheme (zdel blockIdSchemeV3 (en_blocks st))) by reflexivity.
    apply (fallback_cond E S file before pairs cd rec es minSdk maxSdk (en_blocks st) Ib) in Fb as [[-> ->]|(Er1 & Id & Mi & V2 & Fb)].
    - rewrite Id1. repeat split.
      + intro V. destruct (pick_31 es maxSdk (en_blocks st) Ib V) as (b & -> & _). reflexivity.
      + intros N V. destruct (pick_3 es maxSdk (en_blocks st) Ib N V) as (b & -> & _). now left.
      + intros N N3 V. destruct (pick_2 es maxSdk (en_blocks st) Ib N N3 V) as (b & -> & _). reflexivity.
      + rewrite (pick_1 es maxSdk (en_blocks st) Ib) by assumption. reflexivity.
      + apply (first_1 E S file before pairs cd rec es minSdk maxSdk (en_blocks st) Ib _ Ie res0 Rc Fx) in Pv as (_ & X); try assumption.
        unfold getLastError. rewrite X. cbn. eexists. reflexivity.
    - cbn zeta in Fb. pose proof (pick_scheme _ _ _ _ _ _ _ _ _ M Fb) as Id2. rewrite Id2. repeat split.
      + intro V. destruct (pick_31 es maxSdk (en_blocks st) Ib V) as (b & _ & _ & Zb). unfold pickScheme. rewrite zget_zdel by assumption.
        change (blockIdSchemeV31 =? blockIdSchemeV3) with false. cbv iota. now rewrite Zb.
      + intros N V. right. split; [|auto]. unfold pickScheme. rewrite !zget_zdel by assumption. change (blockIdSchemeV31 =? blockIdSchemeV3) with false.
        change (blockIdSchemeV3 =? blockIdSchemeV3) with true. change (blockIdSchemeV2 =? blockIdSchemeV3) with false. cbv iota.
        destruct (zget blockIdSchemeV31 (en_blocks st)) eqn:Q; [exfalso; apply N; apply (block_v31 es maxSdk (en_blocks st) Ib); eauto|].
        apply (block_v2 es maxSdk (en_blocks st) Ib) in V2 as [b V2]. now rewrite V2.
      + intros N N3 V. exfalso. destruct (pick_2 es maxSdk (en_blocks st) Ib N N3 V) as (b & Pk & _). rewrite Pk in Id1. cbn in Id1. unfold schemeIdV2 in Id1. lia.
      + exfalso. tauto.
      + exfalso. tauto.
  Qed.
End Calls.
