(** What I/O errors can change in the verification of an APK as a whole. *)
From Coq Require Import String.
From Coq Require Import Lia.
From Verif.Model Require Import Bytes ApiLevel Env Utils SigBlock Result Signer SchemeV2 SchemeV3 DataSource Digest Frosting SourceStamp Verify SchemeV1 ApkVerifier Reader.
From Verif.Spec Require Import Encoding Algorithms Nondet Signer SignerV3 Ranges ApkLayout Digests Entries Verified Faults.
From Verif.Proofs Require Import BytesFacts EntriesFacts VerifyFacts ApkFacts FrostingApkFacts TopFacts PlainFacts PlainApkFacts ReaderFacts FaultFacts FaultRun.

Section Faulty.
  Variables (E : env) (S : sched) (file : bytes) (R : reader).
  Hypothesis U : unreliable file R.

  Lemma verifySchemeR_plain k s id b a z r : plain_res r -> post (fun x => plain_res (snd x)) (verifySchemeR E S R k s id b a z r).
  Proof.
    intro P. destruct (schemeR_cases E S file R U k s id b a z r) as [->|(st & cds & res1 & X & ->)]; [now apply verifyScheme_plain|].
    pose proof (post_ret _ _ _ (extractCertsScheme_plain E id z b r P) X) as [P1 P2]. cbn [snd] in P1, P2. cbn [post snd]. split; [|exact P2].
    cbn [withCore v_core]. auto with plain.
  Qed.
  Lemma pickAndVerifyR_plain k s blocks a z r : SupportsSigV2 z = true -> snd (pickScheme blocks) <> None -> plain_res r ->
    post (fun x => plain_res (snd x)) (pickAndVerifyR E S R k s blocks a z r).
  Proof.
    intros M Pk P. unfold pickAndVerifyR. rewrite M. cbn [negb]. destruct (pickScheme blocks) as [id [b|]]; [|contradiction]. apply verifySchemeR_plain. exact P.
  Qed.

  (** "Not found" under faults that leave the search alone: no usable block. *)
  Lemma not_found_locates minSdk maxSdk z vr vr' : locates file R ->
    verifySigningBlockR E S R minSdk maxSdk z = Ret vr -> isNotFound (vr_err vr) = true ->
    verifySigningBlock E S file minSdk maxSdk z = Ret vr' -> isNotFound (vr_err vr') = true /\ vr_magic vr' = vr_magic vr.
  Proof.
    intros L H Nf H'. unfold verifySigningBlockR in H. destruct (newSigningBlockR R) as [[size m]|] eqn:Ns; [|inversion H; subst; discriminate].
    apply (sizeR file R U) in Ns as [-> Nm]. unfold verifySigningBlock in H'. rewrite Nm in H'.
    rewrite (find_locates E file R maxSdk L) in H. apply obind_ret in H as (fr & Fi & H). rewrite Fi in H'. cbn [obind] in H'.
    destruct fr as [st s|st s].
    { apply obind_ret in H as (? & _ & H), H' as (? & _ & H'). inversion H; inversion H'; subst. auto. }
    apply findSignatureBlocks_ok in Fi as (before & pairs & cd & rec & es & A & -> & En & [Ib Ie [Nb Ne] Ic (_ & Ix & _)] & _).
    apply obind_ret in H as (res & Fr & H). apply applyFrostingR_frame in Fr as (Fc & Fx & Fr3).
    apply obind_ret in H' as (res' & Fr' & H'). apply applyFrosting_frame in Fr' as (Fc' & Fx' & Fr3').
    assert (Pr : plain_res res). { split; [rewrite Fc; intros n C; destruct Ic as (w & Hw); rewrite Hw in C; destruct C|]. rewrite Fr3, Ix. exact I. }
    apply obind_ret in H as ([cds res1] & Pv & H). apply obind_ret in H as ([cds2 res2] & Fb & H). apply obind_ret in H as (stamp & _ & H).
    apply obind_ret in H' as ([cds' res1'] & Pv' & H'). apply obind_ret in H' as ([cds2' res2'] & Fb' & H'). apply obind_ret in H' as (stamp' & _ & H').
    cbn beta iota zeta in H, H'. match type of H with Ret ?x = _ => assert (Hv : vr = x) by congruence end. match type of H' with Ret ?x = _ => assert (Hv' : vr' = x) by congruence end.
    clear H H'. subst vr vr'. cbn [vr_err vr_magic v_core] in *. split; [|reflexivity].
    destruct (SupportsSigV2 maxSdk) eqn:Mb.
    - destruct (pickScheme (en_blocks st)) as [id [b|]] eqn:Pk.
      + exfalso. assert (Pk' : snd (pickScheme (en_blocks st)) <> None) by (rewrite Pk; discriminate).
        pose proof (post_ret _ _ _ (pickAndVerifyR_plain _ _ _ _ _ _ Mb Pk' Pr) Pv) as P1. cbn [snd] in P1.
        assert (P2 : plain_res res2).
        { unfold fallbackR in Fb. match type of Fb with (if ?b then _ else _) = _ => destruct b eqn:Hb end; [|assert (res2 = res1) as -> by congruence; exact P1].
          refine (post_ret _ _ _ (pickAndVerifyR_plain 1 _ _ _ _ _ Mb _ _) Fb).
          - unfold pickScheme. rewrite !zget_zdel by exact Nb.
            change (blockIdSchemeV31 =? blockIdSchemeV3) with false. change (blockIdSchemeV2 =? blockIdSchemeV3) with false.
            destruct (zget blockIdSchemeV31 (en_blocks st)); [discriminate|]. rewrite Z.eqb_refl.
            destruct (zget blockIdSchemeV2 (en_blocks st)); [discriminate|]. rewrite andb_false_r in Hb. discriminate.
          - split; [apply plain_none|apply P1]. }
        rewrite plain_last in Nf by apply P2. discriminate.
      + assert (N2 : zget blockIdSchemeV2 (en_blocks st) = None).
        { unfold pickScheme in Pk. destruct (zget blockIdSchemeV31 (en_blocks st)); [congruence|]. destruct (zget blockIdSchemeV3 (en_blocks st)); [congruence|].
          destruct (zget blockIdSchemeV2 (en_blocks st)); [congruence | reflexivity]. }
        unfold fallback in Fb'. rewrite N2, andb_false_r in Fb'. assert (res2' = res1') as -> by congruence.
        unfold pickAndVerify in Pv'. rewrite Mb, Pk in Pv'. cbn [negb] in Pv'.
        match type of Pv' with Ret (_, ?x) = _ => assert (Q : res1' = x) by congruence end. rewrite Q. cbn [withCore v_core].
        unfold getLastError. cbn [errors]. clear. generalize (errors (v_core (setScheme res' id))) as l. intro l.
        destruct (l ++ [noBlockError]) as [|x l'] eqn:Q; [destruct l; discriminate|]. rewrite <- Q. rewrite last_last. reflexivity.
    - exfalso. unfold pickAndVerifyR in Pv. rewrite Mb in Pv. cbn [negb] in Pv. inversion Pv; subst. clear Pv.
      assert (Er : errors (v_core (setScheme res 1)) = []). { cbn. rewrite Fc. destruct Ic as (w & Hw). rewrite Hw. reflexivity. }
      unfold fallbackR, containsErrors in Fb. rewrite Er in Fb. cbn [andb] in Fb. inversion Fb; subst. unfold getLastError in Nf. rewrite Er in Nf. discriminate.
  Qed.

  Lemma verifyR_unfold z minArg maxSdk :
    let minSdk := min_of E z minArg maxSdk in
    let e := used_enc E z minArg maxSdk in
    let mErr := match used_info E z minArg maxSdk with None => true | Some _ => false end in
    verifyWithSdkR E S R (Some z) minArg maxSdk =
    if maxSdk <? minSdk then Ret (mkARes 0 [] None, Some AErrRange) else
    vr <- verifySigningBlockR E S R minSdk maxSdk z ;;
    match vr_err vr with
    | Some (ErrNotFound _) => v1Tail E S z e mErr minSdk maxSdk (vr_magic vr) true 1 [] (vr_res vr)
    | Some err => Ret (match vr_res vr with Some b => mkARes (v_schemeId b) (certs (v_core b)) (Some b) | None => mkARes 1 [] None end, Some (AErrBlock err))
    | None =>
        let id := match vr_res vr with Some b => v_schemeId b | None => 1 end in
        let cs := match vr_res vr with Some b => certs (v_core b) | None => [] end in
        if 24 <=? minSdk then Ret (mkARes id cs (vr_res vr), None)
        else v1Tail E S z e mErr minSdk maxSdk (vr_magic vr) false id cs (vr_res vr)
    end.
  Proof.
    cbn zeta. unfold verifyWithSdkR. fold (used_info E z minArg maxSdk). fold (used_enc E z minArg maxSdk). cbn zeta.
    assert (Hmin : (if negb (match used_info E z minArg maxSdk with None => true | Some _ => false end) && (minArg =? V_AnyMin)
                    then en_min (used_enc E z minArg maxSdk) else minArg) = min_of E z minArg maxSdk).
    { unfold min_of, used_enc. destruct (used_info E z minArg maxSdk); [|reflexivity]. reflexivity. }
    rewrite Hmin. destruct (maxSdk <? min_of E z minArg maxSdk); [reflexivity|].
    destruct (verifySigningBlockR E S R (min_of E z minArg maxSdk) maxSdk z) as [vr|]; [|reflexivity]. cbn [obind].
    unfold v1Tail, SupportsSigV2, V7_0_Nougat. destruct (vr_err vr) as [[m|m]|]; cbn [isNotFound].
    - destruct (vr_res vr); reflexivity.
    - destruct (vr_res vr), (24 <=? min_of E z minArg maxSdk); reflexivity.
    - destruct (vr_res vr) as [b|]; destruct (24 <=? min_of E z minArg maxSdk); try reflexivity. cbn [ar_certs ar_schemeId ar_block negb].
      destruct (verifySchemeV1 E S z true (min_of E z minArg maxSdk) maxSdk) as [[cs1 ve]|]; [|reflexivity]. cbn [obind]. destruct (certs (v_core b)); reflexivity.
  Qed.

  Hypothesis HE : hash_sizes_ok E.
  Hypothesis HS : sched_ok S.

  (** An APK accepted in spite of I/O errors is accepted without them, unless the search for the block was disturbed and
      the JAR signatures were enough. *)
  Lemma faulty_top z minArg maxSdk res res' err' : ~ zip64_file file \/ (forall o n, rd_read R SZip64 o n = read_at file o n) ->
    locates file R \/ (30 <= en_target (used_enc E z minArg maxSdk) <= maxSdk) \/ (26 <= maxSdk /\ 1 < en_sandbox (used_enc E z minArg maxSdk)) ->
    verifyWithSdkR E S R (Some z) minArg maxSdk = Ret (res, None) -> verifyWithSdk E S file (Some z) minArg maxSdk = Ret (res', err') ->
    err' = None /\ same_or_downgraded (ar_schemeId res) (ar_schemeId res').
  Proof.
    intros Nz L H H'. rewrite verifyR_unfold in H. rewrite verify_unfold in H'. cbn zeta in *.
    destruct (maxSdk <? min_of E z minArg maxSdk); [congruence|].
    apply obind_ret in H as (vr & V & H), H' as (vr' & V' & H'). destruct (vr_err vr) as [[m|m]|] eqn:Er; [congruence| |].
    - (* the JAR signatures alone *)
      destruct (v1Tail_iff E S z (used_enc E z minArg maxSdk) (match used_info E z minArg maxSdk with None => true | Some _ => false end) (min_of E z minArg maxSdk) maxSdk (vr_magic vr) true 1 [] (vr_res vr) res None ltac:(now left)) as [T _].
      destruct (T H) as (cs1 & H1 & Sb & Me & -> & Dx). clear T.
      destruct L as [L|L].
      + destruct (not_found_locates _ _ _ _ _ L V ltac:(now rewrite Er) V') as [Nf Mg].
        destruct (vr_err vr') as [[m'|m']|]; try discriminate. unfold v1Tail in H', H. rewrite H1 in H', H. cbn [obind] in H', H.
        match type of H' with Ret (?x, ?y) = _ => assert (R1 : res' = x) by congruence; assert (R2 : err' = y) by congruence end. clear H'.
        match type of H with Ret (?x, ?y) = _ => assert (R3 : None = y) by congruence end. rewrite Mg in R2. split; [congruence|]. rewrite R1. left. reflexivity.
      + exfalso. unfold sandbox_ok, RequiresSandboxV2, V8_0_Oreo, V11_0_Eleven in Sb. apply andb_true_iff in Sb as [S1 S2]. apply negb_true_iff in S1, S2.
        cbn [orb] in S1. rewrite andb_true_r in S1. change (1 <? 2) with true in S2. rewrite andb_true_r in S2.
        destruct L as [L|L]; [apply andb_false_iff in S2 as [S2|S2] | apply andb_false_iff in S1 as [S1|S1]];
          repeat match goal with X : (_ <=? _) = false |- _ => apply Z.leb_gt in X | X : (_ <? _) = false |- _ => apply Z.ltb_ge in X end; lia.
    - destruct (faulty_accept E S file R HE HS U _ _ _ _ _ Nz V Er V') as (Er' & Mg & b & b' & Hb & Hb' & Sc).
      rewrite Er', Hb' in H'. rewrite Hb in H. cbn zeta in *. destruct (24 <=? min_of E z minArg maxSdk).
      + inversion H; inversion H'; subst. auto.
      + match type of H with v1Tail ?E' ?S' ?z' ?e ?me ?mi ?ma ?mg ?nb ?id ?cs ?br = _ => destruct (v1Tail_iff E' S' z' e me mi ma mg nb id cs br res None ltac:(now left)) as [T _] end.
        destruct (T H) as (cs1 & H1 & Sb & Me & -> & Dx). clear T.
        match goal with |- ?P => assert (Y : err' = None -> P) end.
        { intro Y. subst err'. match type of H' with v1Tail ?E' ?S' ?z' ?e ?me ?mi ?ma ?mg ?nb ?id ?cs ?br = _ => destruct (v1Tail_iff E' S' z' e me mi ma mg nb id cs br res' None ltac:(now left)) as [T _] end.
          destruct (T H') as (cs2 & _ & _ & _ & -> & _). cbn [ar_schemeId]. auto. }
        apply Y. clear Y.
        assert (W : exists r, v1Tail E S z (used_enc E z minArg maxSdk) (match used_info E z minArg maxSdk with None => true | Some _ => false end) (min_of E z minArg maxSdk) maxSdk (vr_magic vr') false (v_schemeId b') (certs (v_core b')) (Some b') = Ret (r, None)).
        { eexists. apply v1Tail_iff; [now left|]. exists cs1. split; [exact H1|]. split; [|split; [|split; [reflexivity|rewrite Mg; exact Dx]]].
          - destruct Sc as [<-|[Q Q']]; [exact Sb|]. rewrite Q' . rewrite Q in Sb. exact Sb.
          - destruct Sc as [<-|[Q Q']]; [exact Me|]. rewrite Q'. rewrite Q in Me. exact Me. }
        destruct W as (r & W). rewrite W in H'. congruence.
  Qed.
End Faulty.

Section Frosting.
  Variables (E : env) (S : sched) (file : bytes) (R : reader).
  Hypothesis U : unreliable file R.

  Lemma hashR_or o n : hashFileSectionR R o n = None \/ hashFileSectionR R o n = hashFileSection file o n.
  Proof.
    unfold hashFileSectionR, hashFileSection. destruct (n <=? 0).
    - destruct (o <? 0); cbn [orb]; [auto|]. destruct (negb (rd_seek R SFrosting o)); auto.
    - destruct U as [_ Ur]. destruct (rd_read R SFrosting o n) as [b|] eqn:Q; [|auto]. right. symmetry. eapply Ur, Q.
  Qed.
  Lemma applyFrostingR_ok st s r r' fr : applyFrostingR E R st s = Ret r -> applyFrosting E file st s = Ret r' ->
    v_frosting r = Some fr -> fr_error fr = None -> v_frosting r' = Some fr.
  Proof.
    unfold applyFrostingR, applyFrosting. destruct (en_frosting st) as [f|]; [|intros; congruence]. destruct (v_frosting (en_res st)) as [fr0|] eqn:F0; [|intros; congruence].
    destruct s as [s|]; [|intros; congruence]. destruct (fr_error fr0) eqn:Fe; [intros; congruence|]. cbv zeta.
    unfold frostingVerifyApkR, frostingVerifyApk. cbv zeta.
    match goal with |- context [hashFileSectionR R ?a ?b] => destruct (hashR_or a b) as [Q|Q]; rewrite Q end.
    { cbn [obind]. intros H _ V Ne. exfalso. inversion H; subst. cbn in V. rewrite F0 in V. inversion V; subst. discriminate. }
    destruct (hashFileSection file 0 _) as [a|]; [|intros; congruence].
    match goal with |- context [hashFileSectionR R ?a ?b] => destruct (hashR_or a b) as [Q'|Q']; rewrite Q' end; [|intros; congruence].
    cbn [obind]. intros H _ V Ne. exfalso. inversion H; subst. cbn in V. rewrite F0 in V. inversion V; subst. discriminate.
  Qed.
  Lemma verifySchemeR_frosting k s id block minSdk maxSdk res cds res' : verifySchemeR E S R k s id block minSdk maxSdk res = Ret (cds, res') -> v_frosting res' = v_frosting res.
  Proof.
    destruct (schemeR_cases E S file R U k s id block minSdk maxSdk res) as [->|(st & c & r1 & X & ->)]; intro H.
    - apply verifyScheme_frame in H as (_ & H & _). exact H.
    - inversion H; subst. cbn. clear H. revert X. unfold extractCertsScheme. destruct (id =? schemeIdV31); [|destruct (id =? schemeIdV3)]; intro X.
      + apply obind_ret in X as ([[[? ?] ?] ?] & _ & X). inversion X; subst. reflexivity.
      + apply obind_ret in X as ([[? ?] ?] & _ & X). inversion X; subst. reflexivity.
      + apply obind_ret in X as ([? ?] & _ & X). inversion X; subst. reflexivity.
  Qed.
  Lemma pickR_frosting k s blocks minSdk maxSdk res cds res' :
    pickAndVerifyR E S R k s blocks minSdk maxSdk res = Ret (cds, res') -> v_frosting res' = v_frosting res.
  Proof.
    unfold pickAndVerifyR. destruct (negb _); [intro H; inversion H; reflexivity|]. destruct (pickScheme blocks) as [id [b|]].
    - intro H. apply verifySchemeR_frosting in H. exact H.
    - intro H; inversion H; reflexivity.
  Qed.
  Lemma fallbackR_frosting s blocks minSdk maxSdk cds res cds' res' :
    fallbackR E S R s blocks minSdk maxSdk cds res = Ret (cds', res') -> v_frosting res' = v_frosting res.
  Proof. unfold fallbackR. destruct (_ && _); [|intro H; inversion H; reflexivity]. intro H. apply pickR_frosting in H. exact H. Qed.

  (** The Google Play metadata are not reported as verified because of an I/O error. *)
  Lemma faulty_frosting minSdk maxSdk z vr vr' res fr : ~ zip64_file file \/ (forall o n, rd_read R SZip64 o n = read_at file o n) ->
    verifySigningBlockR E S R minSdk maxSdk z = Ret vr -> verifySigningBlock E S file minSdk maxSdk z = Ret vr' ->
    vr_res vr = Some res -> v_frosting res = Some fr -> fr_error fr = None -> exists res', vr_res vr' = Some res' /\ v_frosting res' = Some fr.
  Proof.
    intros Nz H H' Rr Ff Fe. unfold verifySigningBlockR in H. destruct (newSigningBlockR R) as [[size m]|] eqn:Ns; [|inversion H; subst; discriminate].
    apply (sizeR file R U) in Ns as [-> Nm]. unfold verifySigningBlock in H'. rewrite Nm in H'.
    destruct (find_or E file R U maxSdk Nz) as [Q|Q]; rewrite Q in H.
    { cbn [obind] in H. apply obind_ret in H as (x & Ax & H). cbn in Ax. inversion H; subst. cbn in Rr. inversion Rr; subst. inversion Ax; subst. discriminate. }
    apply obind_ret in H as (fr0 & Fi & H). rewrite Fi in H'. cbn [obind] in H'.
    destruct fr0 as [st s|st s].
    { apply obind_ret in H as (x & Ax & H), H' as (x' & Ax' & H'). inversion H; subst. inversion H'; subst. cbn [vr_res] in *. inversion Rr; subst.
      exists x'. split; [reflexivity|]. eapply applyFrostingR_ok; eassumption. }
    apply obind_ret in H as (r & Fr & H). apply obind_ret in H as ([cds r1] & Pv & H). apply obind_ret in H as ([cds2 r2] & Fb & H). apply obind_ret in H as (stamp & _ & H).
    apply obind_ret in H' as (r' & Fr' & H'). apply obind_ret in H' as ([cds' r1'] & Pv' & H'). apply obind_ret in H' as ([cds2' r2'] & Fb' & H'). apply obind_ret in H' as (stamp' & _ & H').
    inversion H; subst. inversion H'; subst. cbn [vr_res] in *. inversion Rr; subst. cbn [v_frosting] in Ff.
    eexists. split; [reflexivity|]. cbn [v_frosting].
    apply pickR_frosting in Pv. apply fallbackR_frosting in Fb. apply pickAndVerify_frosting in Pv'. apply fallback_frosting in Fb'.
    rewrite Fb', Pv'. eapply applyFrostingR_ok; [exact Fr | exact Fr' | congruence | assumption].
  Qed.
End Frosting.

Section Extract.
  Variables (E : env) (S : sched) (file : bytes) (R : reader).
  Hypothesis U : unreliable file R.

  Lemma extract_or minSdk maxSdk : ~ zip64_file file \/ (forall o n, rd_read R SZip64 o n = read_at file o n) ->
    extractCertsReaderR E R minSdk maxSdk = Ret ([], Some (Err "APK file is too short")) \/
    extractCertsReaderR E R minSdk maxSdk = Ret ([], Some (ErrNotFound "findSignatureBlocks")) \/
    extractCertsReaderR E R minSdk maxSdk = extractCertsReader E file minSdk maxSdk.
  Proof.
    intro Nz. unfold extractCertsReaderR. destruct (newSigningBlockR R) as [[size m]|] eqn:Ns; [|auto]. apply (sizeR file R U) in Ns as [-> Nm].
    unfold extractCertsReader. rewrite Nm. destruct (find_or E file R U maxSdk Nz) as [->| ->]; auto.
  Qed.
  Lemma extract_locates minSdk maxSdk : locates file R ->
    extractCertsReaderR E R minSdk maxSdk = Ret ([], Some (Err "APK file is too short")) \/
    extractCertsReaderR E R minSdk maxSdk = extractCertsReader E file minSdk maxSdk.
  Proof.
    intro L. unfold extractCertsReaderR. destruct (newSigningBlockR R) as [[size m]|] eqn:Ns; [|auto]. apply (sizeR file R U) in Ns as [-> Nm].
    unfold extractCertsReader. rewrite Nm. rewrite (find_locates E file R maxSdk L). auto.
  Qed.
  Lemma faulty_extract z cs : ~ zip64_file file \/ (forall o n, rd_read R SZip64 o n = read_at file o n) ->
    extractCertsR E S R (Some z) = Ret (cs, None) ->
    extractCerts E S file (Some z) = Ret (cs, None) \/ extractCertsSchemeV1 E S z (-1) 2147483647 = Ret (cs, None).
  Proof.
    intros Nz. unfold extractCertsR. destruct (extract_or V_AnyMin V_AnyMax Nz) as [->|[->| ->]]; cbn [obind isNotFound negb].
    - discriminate.
    - intro H. right. apply obind_ret in H as ([c1 e1] & H1 & H). change (-1) with V_AnyMin. change 2147483647 with V_AnyMax. rewrite H1. destruct e1; [discriminate|]. cbn [app] in H. congruence.
    - intro H. left. exact H.
  Qed.
  Lemma faulty_extract_locates z : locates file R ->
    extractCertsR E S R (Some z) = Ret ([], Some (AErrBlock (Err "APK file is too short"))) \/ extractCertsR E S R (Some z) = extractCerts E S file (Some z).
  Proof.
    intros L. unfold extractCertsR. destruct (extract_locates V_AnyMin V_AnyMax L) as [->| ->]; cbn [obind isNotFound negb]; [now left|]. now right.
  Qed.
End Extract.
