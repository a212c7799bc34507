(** ExtractCerts: the v1 part and the signing block part. *)
From Coq Require Import String.
From Coq Require Import Lia Permutation.
From Verif.Model Require Import Bytes Env ApiLevel Manifest Utils SigBlock Result Signer SchemeV2 SchemeV3 Verify SchemeV1 ApkVerifier.
From Verif.Spec Require Import Encoding Nondet Signer SignerV3 ApkLayout Entries Verified JarSigned Calls TopLevel.
From Verif.Proofs Require Import BytesFacts SignerFacts V2BlockFacts V3BlockFacts EntriesFacts VerifyFacts ApkFacts V1SigFacts V1FilesFacts V1VerifyFacts V1MainFacts SchemeV2Facts PlainFacts PlainApkFacts.

Section V1.
  Variables (E : env) (S : sched).

  Lemma verifySigner_levels sig info a b : (a <? 24) = (b <? 24) -> verifySigner E S sig info a = verifySigner E S sig info b.
  Proof.
    intros H. unfold verifySigner, V7_0_Nougat. rewrite !Z.leb_antisym, H. reflexivity.
  Qed.
  Lemma signersLoop_levels sig a b l : (a <? 24) = (b <? 24) -> forall f, signersLoop E S sig l a f = signersLoop E S sig l b f.
  Proof.
    intros H. induction l as [|i l IH]; intros f; [reflexivity|]. cbn [signersLoop]. rewrite (verifySigner_levels sig i a b H).
    destruct (verifySigner E S sig i b) as [[| |]|]; cbn [obind]; auto.
  Qed.
  Lemma verifySignature_levels sig a b a' b' : (a <? 24) = (a' <? 24) -> (b <? 24) = (b' <? 24) ->
    SchemeV1.verifySignature E S sig a b = SchemeV1.verifySignature E S sig a' b'.
  Proof.
    intros Ha Hb. unfold SchemeV1.verifySignature, V7_0_Nougat. rewrite Ha. destruct (p7_signers (sg_p7 sig)); [reflexivity|]. cbn zeta.
    rewrite (signersLoop_levels sig b b' _ Hb). reflexivity.
  Qed.

  Lemma extractLoop_iff a b l : forall ch n cs,
    extractLoop E S a b l ch n = Ret (cs, 0%nat) <->
    n = 0%nat /\ Forall (fun q => exists c, verified E a b S (snd q) c) l /\ cs = ch ++ map (fun q => chainOf E a b S (snd q)) l.
  Proof.
    induction l as [|[k sig] l IH]; intros ch n cs; cbn [extractLoop map].
    - rewrite app_nil_r. split; [intros H; split; [congruence|]; split; [constructor|congruence]|]. intros (-> & _ & ->). reflexivity.
    - destruct (SchemeV1.verifySignature E S sig a b) as [[c e]|p] eqn:Ev; cbn [obind].
      + rewrite IH. cbn [snd]. unfold chainOf at 2. rewrite Ev. split.
        * intros (Hn & HF & Hc). destruct e; [discriminate|]. subst n. split; [reflexivity|].
          assert (Hv : verified E a b S sig c) by exact Ev. pose proof (verified_nonempty E a b S sig c Hv) as Hne.
          split; [constructor; [exists c; exact Hv|exact HF]|]. rewrite Hc. destruct c; [congruence|]. rewrite <- app_assoc. reflexivity.
        * intros (-> & HF & ->). inversion HF as [|? ? [c' Hv] HF']; subst. unfold verified in Hv. cbn [snd] in Hv. rewrite Ev in Hv.
          assert (c' = c) as -> by congruence. assert (e = None) as -> by congruence.
          pose proof (verified_nonempty E a b S sig c Ev) as Hne. split; [reflexivity|]. split; [exact HF'|].
          destruct c; [congruence|]. rewrite <- app_assoc. reflexivity.
      + split; [discriminate|]. intros (_ & HF & _). inversion HF as [|? ? [c' Hv] HF']; subst. unfold verified in Hv. cbn [snd] in Hv. congruence.
  Qed.

  Lemma extractV1_iff apk a b cs : extractCertsSchemeV1 E S apk a b = Ret (cs, None) <->
    exists p, newSchemeV1 E apk = Ret (Some p) /\
      Forall (fun q => exists c, verified E a b S (snd q) c) (ord S _ 25 0%nat (v1_sigs p)) /\
      cs = map (fun q => chainOf E a b S (snd q)) (ord S _ 25 0%nat (v1_sigs p)).
  Proof.
    unfold extractCertsSchemeV1. destruct (newSchemeV1 E apk) as [[p|]|]; cbn [obind].
    - split.
      + intros H. apply obind_ret in H as ([ch n] & El & H). exists p. split; [reflexivity|].
        destruct n; [|discriminate]. apply extractLoop_iff in El as (_ & HF & Hc). split; [exact HF|]. cbn [app] in Hc. congruence.
      + intros (p' & Hp & HF & ->). assert (p' = p) as -> by congruence.
        assert (El : extractLoop E S a b (ord S _ 25 0%nat (v1_sigs p)) [] 0 = Ret (map (fun q => chainOf E a b S (snd q)) (ord S _ 25 0%nat (v1_sigs p)), 0%nat)).
        { apply extractLoop_iff. auto. }
        rewrite El. reflexivity.
    - split; [discriminate|]. intros (p' & Hp & _). discriminate.
    - split; [discriminate|]. intros (p' & Hp & _). discriminate.
  Qed.

  Lemma extractV1_sound apk a b cs : sched_ok S -> extractCertsSchemeV1 E S apk a b = Ret (cs, None) ->
    exists p signatures, newSchemeV1 E apk = Ret (Some p) /\ signatures <> [] /\ cs = map snd signatures /\
      Forall (fun s => signature_pair E apk (fst (fst s)) (snd (fst s)) /\ block_verified E S (fst (fst s)) (m_rawData (snd (fst s))) a b (snd s)) signatures /\
      forall k sig, In (k, sig) (v1_sigs p) -> exists ch, In (sg_p7 sig, sg_sm sig, ch) signatures.
  Proof.
    intros HS H. apply extractV1_iff in H as (p & Hp & HF & ->). destruct (newSchemeV1_spec E apk p Hp) as (_ & _ & Hne & Hpair).
    pose proof (ord_perm S HS _ 25%nat 0%nat (v1_sigs p)) as HP. set (l := ord S _ 25 0%nat (v1_sigs p)) in *. exists p.
    exists (map (fun q => (sg_p7 (snd q), sg_sm (snd q), chainOf E a b S (snd q))) l). split; [exact Hp|]. split.
    - intros C. apply map_eq_nil in C. apply Hne. rewrite C in HP. apply Permutation_nil. exact HP.
    - split; [rewrite map_map; reflexivity|]. split.
      + apply Forall_map. rewrite Forall_forall in *. intros [k sig] Hq. cbn [fst snd].
        split; [apply (Hpair k); apply (Permutation_in _ HP Hq)|]. destruct (HF _ Hq) as (c & Hv). cbn [snd] in Hv.
        unfold chainOf. rewrite Hv. apply (verifySignature_sound E S sig a b c Hv).
      + intros k sig Hin. exists (chainOf E a b S sig). apply in_map_iff. exists (k, sig). split; [reflexivity|].
        apply (Permutation_in _ (Permutation_sym HP) Hin).
  Qed.

  (** agreement with the verifier *)
  Lemma extractV1_agrees S' apk hv a b a' b' chains : sched_ok S -> sched_ok S' -> same_sort S S' -> (a <? 24) = (a' <? 24) -> (b <? 24) = (b' <? 24) ->
    verifySchemeV1 E S' apk hv a b = Ret (chains, None) ->
    exists cs, extractCertsSchemeV1 E S apk a' b' = Ret (cs, None) /\ forall ch, In ch chains -> exists c, In c cs /\ same_chain ch c.
  Proof.
    intros HS HS' Hss Ha Hb H. unfold verifySchemeV1 in H. destruct (newSchemeV1 E apk) as [[p|]|] eqn:En; cbn [obind] in H; [|discriminate|discriminate].
    destruct (newSchemeV1_spec E apk p En) as (_ & Hnd & _).
    destruct (verifyV1_sound E S' p apk hv a b chains HS' Hnd H) as [Hgood Hval Hten Hex Hpaths Hch Hall].
    pose proof (ord_perm S HS _ 25%nat 0%nat (v1_sigs p)) as HP.
    assert (Hco : forall sig, chainOf E a b S' sig = chainOf E a' b' S sig).
    { intros sig. unfold chainOf. rewrite (verifySignature_levels sig a' b' a b) by congruence. rewrite (verifySignature_same E S S' sig a b Hss). reflexivity. }
    exists (map (fun q => chainOf E a' b' S (snd q)) (ord S _ 25 0%nat (v1_sigs p))). split.
    - apply extractV1_iff. exists p. split; [exact En|]. split; [|reflexivity].
      rewrite Forall_forall in *. intros q Hq. destruct (Hgood q (Permutation_in _ HP Hq)) as [(c & Hc) _]. exists c.
      unfold verified in *. rewrite (verifySignature_levels (snd q) a' b' a b) by congruence. rewrite (verifySignature_same E S S' (snd q) a b Hss). exact Hc.
    - intros ch Hin.
      assert (Hex2 : exists y q, In q (v1_sigs p) /\ y = chainOf E a b S' (snd q) /\ same_chain ch y).
      { destruct (requiredFiles (z_map apk)) as [|path req] eqn:Er.
        - destruct (Hall eq_refl) as (_ & Hs & _). destruct (Hs _ Hin) as (y & Hy & Hsy). apply in_map_iff in Hy as (q & <- & Hq). eauto.
        - destruct (Hch path (or_introl eq_refl)) as (_ & Hs & _). destruct (Hs _ Hin) as (y & Hy & Hsy). unfold chainsFor in Hy.
          apply in_map_iff in Hy as (q & <- & Hq). apply filter_In in Hq as [Hq _]. apply in_map_iff in Hq as (q' & <- & Hq').
          apply filter_In in Hq' as [Hq' _]. exists (chainOf E a b S' (snd q')), q'. auto. }
      destruct Hex2 as (y & q & Hq & -> & Hsy). exists (chainOf E a' b' S (snd q)). split; [|rewrite <- Hco; exact Hsy].
      apply in_map_iff. exists q. split; [reflexivity|]. apply (Permutation_in _ (Permutation_sym HP) Hq).
  Qed.
End V1.

Lemma extractCertsReader_sound E file es sections minSdk maxSdk cs : apk_with file es sections -> usable maxSdk es ->
  extractCertsReader E file minSdk maxSdk = Ret (cs, None) -> block_chains E maxSdk es cs.
Proof.
  intros (before & pairs & cd & rec & A & En & P) U.
  unfold extractCertsReader. destruct (newSigningBlock file) as [magic|]; [|discriminate].
  rewrite (findSignatureBlocks_apk E file maxSdk _ _ _ _ A). intro H. apply obind_ret in H as (fr & Fi & H).
  apply obind_ret in Fi as ([st ok] & Lo & Fi). destruct (entries_spec E maxSdk pairs st ok Lo) as [Ok In].
  destruct (In es En) as [_ [Ib Ie [Nb Ne] Ic (_ & Ix & _)]]. assert (ok = true) as -> by (apply Ok; eauto). inversion Fi; subst fr. clear Fi.
  destruct (fresh_core _ Ic) as (Fc & Fl & Fe).
  assert (R0 : is_int32 0) by (unfold is_int32; lia).
  destruct (in_cases maxSdk es) as (D31 & D3 & D2).
  destruct D31 as [H31|N31].
  { destruct (pick_31 es maxSdk _ Ib H31) as (b & Pk & L & Zb). rewrite Pk in H. cbn beta iota in H.
    apply obind_ret in H as ([[st' cds] res] & Ex & H). assert (Hcs : cs = certs (v_core res)) by congruence. assert (Er : getLastError (v_core res) = None) by congruence. clear H.
    apply getLastError_none in Er. unfold extractCertsScheme in Ex. change (schemeIdV31 =? schemeIdV31) with true in Ex. cbv iota in Ex.
    apply obind_ret in Ex as ([[[s31 cds'] c] extra] & V & Ex). assert (Hc : v_core res = c) by (inversion Ex; reflexivity). clear Ex. rewrite Hc in *. clear Hc.
    unfold v31ParseSigners in V. apply obind_ret in V as ([[s1 d1] c1] & V1 & V). cbn zeta in V. cbn [setScheme v_core v_extraBlocks] in V1, V.
    assert (Q : errors c1 = [] /\ certs c = certs c1).
    { destruct (zget blockIdSchemeV3 (v_extraBlocks (en_res st))) as [b3|].
      - apply obind_ret in V as ([[s3 d3] c3] & V3 & V). assert (Hc : c = c1) by congruence. subst c. auto.
      - assert (Hc : c = addError c1 "The APK contains a v3.1 signing block without a v3.0 base block") by congruence. subst c. cbn in Er. apply app_eq_nil in Er as [_ Er]. discriminate. }
    destruct Q as [Q1 Q2]. destruct (v3ParseSigners_iff E _ _ _ _ _ _ (R0 : is_int32 (rotationMin (mkV3Cfg _ maxSdk 0))) V1) as [I1 I2]. cbn [cfg_maxSdk rotationMin] in I1, I2.
    destruct (proj1 I1 ltac:(congruence)) as (is & B). destruct (I2 is B) as (_ & _ & w & Hq). apply (bc_31 _ _ _ _ b is); try assumption.
    rewrite Hcs, Q2, Hq. cbn [certs]. rewrite Fc. reflexivity. }
  destruct D3 as [H3|N3].
  { destruct (pick_3 es maxSdk _ Ib N31 H3) as (b & Pk & L & Zb). rewrite Pk in H. cbn beta iota in H.
    apply obind_ret in H as ([[st' cds] res] & Ex & H). assert (Hcs : cs = certs (v_core res)) by congruence. assert (Er : getLastError (v_core res) = None) by congruence. clear H.
    apply getLastError_none in Er. unfold extractCertsScheme in Ex. change (schemeIdV3 =? schemeIdV31) with false in Ex. change (schemeIdV3 =? schemeIdV3) with true in Ex. cbv iota in Ex.
    apply obind_ret in Ex as ([[s1 d1] c1] & V1 & Ex). assert (Hc : v_core res = c1) by (inversion Ex; reflexivity). rewrite Hc in *. cbn [setScheme v_core] in V1.
    destruct (v3ParseSigners_iff E _ _ _ _ _ _ (R0 : is_int32 (rotationMin (mkV3Cfg _ maxSdk 0))) V1) as [I1 I2]. cbn [cfg_maxSdk rotationMin] in I1, I2.
    destruct (proj1 I1 ltac:(congruence)) as (is & B). destruct (I2 is B) as (_ & _ & w & Hq). apply (bc_3 _ _ _ _ b is); try assumption.
    rewrite Hcs, Hq. cbn [certs]. rewrite Fc. reflexivity. }
  destruct U as [H2|[U|U]]; [|contradiction|contradiction].
  destruct (pick_2 es maxSdk _ Ib N31 N3 H2) as (b & Pk & L). rewrite Pk in H. cbn beta iota in H.
  apply obind_ret in H as ([[st' cds] res] & Ex & H). assert (Hcs : cs = certs (v_core res)) by congruence. assert (Er : getLastError (v_core res) = None) by congruence. clear H.
  apply getLastError_none in Er. unfold extractCertsScheme in Ex. change (schemeIdV2 =? schemeIdV31) with false in Ex. change (schemeIdV2 =? schemeIdV3) with false in Ex. cbv iota in Ex.
  apply obind_ret in Ex as ([d1 c1] & V1 & Ex). assert (Hc : v_core res = c1) by (inversion Ex; reflexivity). rewrite Hc in *. cbn [setScheme v_core v_extraBlocks] in V1.
  apply v2ParseSigners_sound in V1 as (X & T). destruct T as (signers & junk & is & -> & F1 & F2 & F & C & Hcc & Le); [congruence|].
  apply (bc_2 _ _ _ _ (lp (lps signers) ++ junk) is); try assumption; [|rewrite Hcs, Hcc, Fc; reflexivity].
  apply (v2_block_ids E maxSdk (has (v_extraBlocks (en_res st))) (present_in es)).
  - intros M id I. apply (present_direct es maxSdk _ Ie); assumption.
  - exists signers, junk. repeat split; try assumption; [eapply CollectFacts.collects_consistent; eassumption|]. rewrite Fc in Le. cbn in Le. lia.
Qed.
