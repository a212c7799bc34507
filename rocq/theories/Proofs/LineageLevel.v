(** The SDK level of a reported lineage is computed from the nodes reported with it. *)
From Coq Require Import String Lia Permutation.
From Verif.Model Require Import Bytes Env ApiLevel Utils SigBlock Result Signer SchemeV2 SchemeV3 Digest Verify.
From Verif.Spec Require Import Nondet Calls.
From Verif.Proofs Require Import BytesFacts PlainFacts.

Definition lok (l : option lineage) : Prop :=
  match l with Some l => l_minSdk l = lineageCalculateMinSdkVersion (l_nodes l) | None => True end.
Definition lev (c : core) : Prop := lok (signingLineage c).
Definition lev_opt (o : option core) : Prop := match o with Some c => lev c | None => True end.
Definition lev_res (r : vresult) : Prop := lev (v_core r) /\ lev_opt (v_extraResult3 r).

Lemma lev_add c e : lev c -> lev (addError c e).  Proof. exact (fun H => H). Qed.
Lemma lev_warn c e : lev c -> lev (addWarning c e).  Proof. exact (fun H => H). Qed.
Lemma lev_mk c a w e : lev c -> lev (mkCore a (signingLineage c) w e).  Proof. exact (fun H => H). Qed.
Lemma lev_core0 : lev core0.  Proof. exact I. Qed.
Global Hint Resolve lev_add lev_warn lev_mk lev_core0 : lev.

Ltac lsplit :=
  match goal with
  | |- post _ (Ret _) => cbn [post fst snd]; auto with lev
  | |- post _ (Panic _) => exact I
  | |- post _ (if ?b then _ else _) => destruct b
  | |- post _ (match ?x with _ => _ end) => destruct x
  | |- lev (if ?b then _ else _) => destruct b
  | |- lev (addError _ _) => apply lev_add
  | |- lev (addWarning _ _) => apply lev_warn
  | |- lev _ => solve [auto with lev]
  end.

Lemma parseSignaturesLoop_lev items ok : forall c r, lev r ->
  post (fun x => lev (snd (fst x))) (parseSignaturesLoop items ok c r).
Proof.
  induction items as [|s items IH]; intros c r H; cbn [parseSignaturesLoop]; [repeat lsplit|].
  destruct (zlen s <? 8); [repeat lsplit|]. destruct (read_i32 s) as [[algo s']|]; [|repeat lsplit]. cbn zeta.
  destruct (negb (isSupported algo)); [apply IH; auto with lev|]. apply post_any. intros [|].
  - destruct (getLengthPrefixedSlice s') as [[? ?]|]; [apply IH; exact H|repeat lsplit].
  - apply IH. exact H.
Qed.
Lemma parseSignatures_lev s r : lev r -> post (fun x => lev (snd (fst x))) (parseSignatures s r).
Proof.
  intros H. unfold parseSignatures. destruct (lpItems s) as [items ok].
  eapply post_bind; [apply parseSignaturesLoop_lev; exact H|]. intros [[c r1] good] P. cbn [fst snd] in P. repeat lsplit.
Qed.
Lemma parsePublicKey_lev E c k d r : lev r -> post (fun x => lev (fst x)) (parsePublicKey E c k d r).
Proof.
  intros H. unfold parsePublicKey. destruct (e_pkix_andr E k); [|repeat lsplit]. apply post_any. intros [|]; repeat lsplit.
Qed.
Lemma parseCertificatesLoop_lev E items ok : forall chain r, lev r ->
  lev (snd (fst (parseCertificatesLoop E items ok chain r))).
Proof.
  induction items as [|s items IH]; intros chain r H; cbn [parseCertificatesLoop].
  - destruct ok; cbn [fst snd]; auto with lev.
  - destruct (e_cert_andr E s); [|cbn [fst snd]; auto with lev].
    unfold certAppend. destruct chain; apply IH; exact H.
Qed.
Lemma parseCertificates_lev E s k r : lev r -> lev (fst (parseCertificates E s k r)).
Proof.
  intros H. unfold parseCertificates. destruct (lpItems s) as [items ok].
  pose proof (parseCertificatesLoop_lev E items ok [] r H) as P.
  destruct (parseCertificatesLoop E items ok [] r) as [[chain r1] good]. cbn [fst snd] in P.
  destruct (negb good); [exact P|]. destruct chain; [cbn [fst]; auto with lev|].
  destruct (bytes_eqb _ _); cbn [fst]; auto with lev.
Qed.
Lemma parseDigestsLoop_lev items ok best : forall cd algos r, lev r ->
  lev (snd (fst (parseDigestsLoop items ok best cd algos r))).
Proof.
  induction items as [|s items IH]; intros cd algos r H; cbn [parseDigestsLoop].
  - destruct ok; cbn [fst snd]; auto with lev.
  - destruct (zlen s <? 8); [cbn [fst snd]; auto with lev|]. destruct (read_i32 s) as [[algo s']|]; [|exact H]. cbn zeta.
    destruct (algo =? best); [|apply IH; exact H].
    destruct (getLengthPrefixedSlice s') as [[? ?]|]; [apply IH; exact H|cbn [fst snd]; auto with lev].
Qed.
Lemma parseDigests_lev s c cds r : lev r -> post (fun x => lev (snd (fst x))) (parseDigests s c cds r).
Proof.
  intros H. unfold parseDigests. destruct (lpItems s) as [items ok].
  pose proof (parseDigestsLoop_lev items ok (bestAlgo c) None [] r H) as P.
  destruct (parseDigestsLoop items ok (bestAlgo c) None [] r) as [[[cd algos] r1] good]. cbn [fst snd] in P.
  destruct (negb good); [exact P|]. destruct (negb _); [repeat lsplit|]. apply post_any. intros a. cbn zeta.
  destruct (zget a cds); [|exact P]. destruct (bytes_eqb _ _); [exact P|repeat lsplit].
Qed.

Lemma v2Attributes_lev items ok maxSdk ex : forall r, lev r -> lev (v2Attributes items ok maxSdk ex r).
Proof.
  induction items as [|s items IH]; intros r H; cbn [v2Attributes]; [destruct ok; auto with lev|].
  destruct (read_u32 s) as [[id s']|]; [|auto with lev].
  destruct (id =? _); [|apply IH; auto with lev]. destruct (negb _); [apply IH; exact H|].
  destruct (read_i32 s') as [[sid ?]|]; [|auto with lev].
  destruct (schemeIdToBlockId sid); [|apply IH; auto with lev]. destruct (zget _ ex); auto with lev.
Qed.

Ltac bindl L := eapply post_bind; [apply L; auto with lev|].
Ltac lopen := match goal with |- post _ (match ?x with Some _ => _ | None => _ end) => destruct x as [[? ?]|]; [|solve [repeat lsplit]] end.

Lemma v2VerifySigner_lev E maxSdk ex s cds r : lev r -> post (fun x => lev (snd x)) (v2VerifySigner E maxSdk ex s cds r).
Proof.
  intros H. unfold v2VerifySigner. do 2 lopen. bindl parseSignatures_lev. intros [[ctx r1] sok] P1. cbn [fst snd] in P1.
  destruct (negb sok); [exact P1|]. lopen. bindl parsePublicKey_lev. intros [r2 kok] P2. cbn [fst snd] in P2.
  destruct (negb kok); [exact P2|]. do 2 lopen.
  match goal with |- context [parseCertificates E ?a ?b ?c] => pose proof (parseCertificates_lev E a b c P2) as P3; destruct (parseCertificates E a b c) as [r3 mc] end.
  cbn [fst] in P3. destruct mc; [|exact P3]. bindl parseDigests_lev. intros [[cds' r4] dok] P4. cbn [fst snd] in P4.
  destruct (negb dok); [exact P4|]. lopen. destruct (lpItems _) as [items ok]. cbn [post snd]. apply v2Attributes_lev. exact P4.
Qed.
Lemma v2Signers_lev E maxSdk ex items ok : forall cds r, lev r -> post (fun x => lev (snd (fst x))) (v2Signers E maxSdk ex items ok cds r).
Proof.
  induction items as [|s items IH]; intros cds r H; cbn [v2Signers]; [repeat lsplit|].
  bindl v2VerifySigner_lev. intros [cds' r'] P. cbn [snd] in P. apply IH. exact P.
Qed.
Lemma v2ParseSigners_lev E maxSdk ex b cds r : lev r -> post (fun x => lev (snd x)) (v2ParseSigners E maxSdk ex b cds r).
Proof.
  intros H. unfold v2ParseSigners. lopen. destruct (lpItems _) as [items ok]. bindl v2Signers_lev.
  intros [[cds' r'] good] P. cbn [fst snd] in P. repeat lsplit.
Qed.

Lemma v3Attributes_lev E cfg mc items ok : forall lin found r, lok lin -> lev r ->
  post (fun x => lok (fst (fst (fst x))) /\ lev (snd (fst x))) (v3Attributes E cfg mc items ok lin found r).
Proof.
  induction items as [|s items IH]; intros lin found r L H; cbn [v3Attributes]; [destruct ok; cbn [post fst snd]; auto with lev|].
  destruct (read_u32 s) as [[id s']|]; [|repeat lsplit].
  destruct (id =? attrV3ProofOfRotation).
  { apply post_any. intros [[|n ns]|]; [apply IH; assumption| |repeat lsplit]. cbn zeta.
    destruct (subLineageLen _ mc); apply IH; try reflexivity; repeat lsplit. }
  destruct (id =? attrV3MinSdkVersion).
  { destruct (SupportsSigV31 _); [|apply IH; auto with lev].
    destruct (read_i32 s') as [[? ?]|]; [apply IH; [exact L|repeat lsplit]|repeat lsplit]. }
  destruct (id =? _); apply IH; try exact L; repeat lsplit.
Qed.

Definition sig_ok (s : v3signer) : Prop := lok (vs_lineage s).
Definition sigo_ok (s : option v3signer) : Prop := match s with Some s => sig_ok s | None => True end.
Lemma v3VerifySigner_lev E cfg s cds r : lev r ->
  post (fun x => sigo_ok (fst (fst x)) /\ lev (snd x)) (v3VerifySigner E cfg s cds r).
Proof.
  assert (N : forall a b, sigo_ok (Some (mkV3Signer None a b))) by (intros; exact I).
  assert (N0 : sigo_ok None) by exact I.
  intros H. unfold v3VerifySigner. do 3 lopen. cbn zeta.
  match goal with |- context [if ?b then addError r ?m else r] => set (r0 := if b then addError r m else r); assert (H0 : lev r0) by (unfold r0; repeat lsplit); clearbody r0 end.
  lopen. bindl parseSignatures_lev. intros [[ctx r1] sok] P1. cbn [fst snd] in P1.
  destruct (negb sok); [split; [exact I|exact P1]|]. lopen. bindl parsePublicKey_lev. intros [r2 kok] P2. cbn [fst snd] in P2.
  destruct (negb kok); [split; [exact I|exact P2]|]. do 4 lopen. cbn zeta.
  match goal with |- context [parseCertificates E ?a ?b ?c] =>
    assert (P3 : lev (fst (parseCertificates E a b c))) by (apply parseCertificates_lev; repeat lsplit);
    destruct (parseCertificates E a b c) as [r5 mcert] end.
  cbn [fst] in P3. destruct mcert; [|split; [exact I|exact P3]]. bindl parseDigests_lev. intros [[cds' r6] dok] P4. cbn [fst snd] in P4.
  destruct (negb dok); [split; [exact I|exact P4]|]. lopen. destruct (lpItems _) as [items ok].
  eapply post_bind; [apply v3Attributes_lev; [exact I|exact P4]|].
  intros [[[lin found] r7] good] [P5 P6]. cbn [fst snd] in P5, P6. cbn zeta.
  destruct (negb good); [split; [exact P5|exact P6]|]. destruct (_ && _); (split; [exact P5|exact P6]).
Qed.
Lemma v3Signers_lev E cfg items ok : forall sigs cds r, Forall sig_ok sigs -> lev r ->
  post (fun x => Forall sig_ok (fst (fst x)) /\ lev (snd x)) (v3Signers E cfg items ok sigs cds r).
Proof.
  induction items as [|s items IH]; intros sigs cds r F H; cbn [v3Signers]; [destruct ok; cbn [post fst snd]; auto with lev|].
  bindl v3VerifySigner_lev. intros [[info cds'] r'] [P P']. cbn [fst snd] in P, P'. apply IH; [|exact P'].
  apply Forall_app. split; [exact F|]. destruct info; [constructor; [exact P|constructor]|constructor].
Qed.
Lemma v3ParseSigners_lev E cfg b cds r : lev r ->
  post (fun x => Forall sig_ok (fst (fst x)) /\ lev (snd x)) (v3ParseSigners E cfg b cds r).
Proof.
  intros H. unfold v3ParseSigners. destruct (getLengthPrefixedSlice b) as [[? ?]|]; [|split; [constructor|exact H]].
  destruct (lpItems _) as [items ok]. apply v3Signers_lev; [constructor|exact H].
Qed.
Lemma v31ParseSigners_lev E maxSdk ex b cds r : lev r ->
  post (fun x => Forall sig_ok (s31_signers (fst (fst (fst x)))) /\ Forall sig_ok (s31_v3signers (fst (fst (fst x))))
                 /\ lev (snd (fst x)) /\ lev_opt (snd x)) (v31ParseSigners E maxSdk ex b cds r).
Proof.
  intros H. unfold v31ParseSigners. bindl v3ParseSigners_lev. intros [[s31 cds31] r1] [F P]. cbn [fst snd] in F, P. cbn zeta.
  destruct (zget _ ex); [|cbn [post fst snd lev_opt s31_signers s31_v3signers]; auto with lev].
  bindl v3ParseSigners_lev. intros [[s3 cds3] r3] [F3 P3]. cbn [fst snd] in F3, P3. cbn [post fst snd lev_opt s31_signers s31_v3signers]. auto.
Qed.

Lemma v3RangeLoop_lev sigs : forall a b c l r, Forall sig_ok sigs -> Forall (fun x => lok (Some x)) l -> lev r ->
  Forall (fun x => lok (Some x)) (snd (fst (v3RangeLoop sigs a b c l r))) /\ lev (snd (v3RangeLoop sigs a b c l r)).
Proof.
  induction sigs as [|s sigs IH]; intros a b c l r F L H; cbn [v3RangeLoop]; [split; assumption|].
  apply Forall_cons_iff in F as [Fs F].
  destruct (_ && _); [cbn [fst snd]; auto with lev|]. cbn zeta. unfold sig_ok in Fs. destruct (vs_lineage s) as [x|]; [|apply IH; assumption].
  destruct (_ <? _); [cbn [fst snd]; auto with lev|]. apply IH; [assumption| |assumption].
  apply Forall_app. split; [exact L|constructor; [exact Fs|constructor]].
Qed.
Lemma consolidate_lev ls : Forall (fun x => lok (Some x)) ls ->
  post (fun x => match x with inl l => lok l | inr _ => True end) (consolidateLineages ls).
Proof.
  intros F. unfold consolidateLineages. destruct ls as [|l0 ls]; [exact I|]. cbn zeta.
  destruct (nthZ _ _) as [l|] eqn:N; [|exact I]. apply post_any. intros [|]; [|exact I]. cbn [post].
  unfold nthZ in N. destruct (_ <? 0); [discriminate|]. apply nth_error_In in N. rewrite Forall_forall in F. exact (F _ N).
Qed.
Lemma v3Finalize_lev srt cfg sigs a b r : (forall l, Permutation (srt l) l) -> Forall sig_ok sigs -> lev r ->
  post lev (v3FinalizeWith srt cfg sigs a b r).
Proof.
  intros Hs F H. unfold v3FinalizeWith. cbn zeta.
  assert (F' : Forall sig_ok (srt sigs)) by (eapply Permutation_Forall; [apply Permutation_sym, Hs|exact F]).
  pose proof (v3RangeLoop_lev (srt sigs) 0 0 0 [] r F' (Forall_nil _) H) as [Pl P].
  destruct (v3RangeLoop (srt sigs) 0 0 0 [] r) as [[[fm lm] lins] r1]. cbn [fst snd] in Pl, P.
  match goal with |- context [if ?b then addError r1 ?m else r1] => set (r2 := if b then addError r1 m else r1); assert (H2 : lev r2) by (unfold r2; repeat lsplit); clearbody r2 end.
  destruct (signingLineage r2); [exact H2|]. eapply post_bind; [exact (consolidate_lev _ Pl)|]. intros [l|[]] Q; cbn [post]; [exact Q|exact I].
Qed.
Lemma v31Finalize_lev srt maxSdk st a b r ex : (forall l, Permutation (srt l) l) ->
  Forall sig_ok (s31_signers st) -> Forall sig_ok (s31_v3signers st) -> lev r -> lev_opt ex ->
  post (fun x => lev (fst x) /\ lev_opt (snd x)) (v31FinalizeWith srt maxSdk st a b r ex).
Proof.
  intros Hs F31 F3 H Hx. unfold v31FinalizeWith. cbn zeta. eapply post_bind; [apply v3Finalize_lev; assumption|]. intros r1 P.
  destruct ex as [r3|]; [|cbn; auto].
  eapply post_bind; [apply v3Finalize_lev; assumption|]. intros r3' P3. cbn [post fst snd lev_opt]. auto with lev.
Qed.
Lemma verifyIntegrity_lev E file ei off keys exp r : lev r -> post (fun x => lev (fst x)) (verifyIntegrity E file ei off keys exp r).
Proof.
  intros H. unfold verifyIntegrity. cbn zeta. apply post_any. intros eocd. apply post_any. intros [m|]; [|repeat lsplit].
  cbn [post fst]. revert r H. induction keys as [|k keys IH]; intros r H; [exact H|]. cbn [fold_left]. apply IH. repeat lsplit.
Qed.

Definition st_ok (st : scheme_state) : Prop :=
  match st with StV2 => True | StV3 l => Forall sig_ok l | StV31 s => Forall sig_ok (s31_signers s) /\ Forall sig_ok (s31_v3signers s) end.
Lemma extractCertsScheme_lev E id maxSdk b r : lev_res r ->
  post (fun x => st_ok (fst (fst x)) /\ lev_res (snd x)) (extractCertsScheme E id maxSdk b r).
Proof.
  intros [H Hx]. unfold extractCertsScheme. destruct (id =? schemeIdV31).
  - bindl v31ParseSigners_lev. intros [[[st cds] c] extra] (F1 & F2 & P1 & P2). cbn [fst snd] in *. cbn [post fst snd]. split; [split; assumption|].
    split; [exact P1|]. cbn [v_extraResult3]. destruct extra; [exact P2|exact Hx].
  - destruct (id =? schemeIdV3).
    + bindl v3ParseSigners_lev. intros [[sigs cds] c] [F P]. cbn [fst snd] in F, P. split; [exact F|split; [exact P|exact Hx]].
    + bindl v2ParseSigners_lev. intros [cds c] P. cbn [snd] in P. split; [exact I|split; [exact P|exact Hx]].
Qed.

Section Top.
  Variables (E : env) (S : sched).
  Hypothesis HS : sched_ok S.
  Lemma verifyScheme_lev k file s id b a z r : lev_res r ->
    post (fun x => lev_res (snd x)) (verifyScheme E S k file s id b a z r).
  Proof.
    intros H. unfold verifyScheme. bindl extractCertsScheme_lev. intros [[st cds] r1] [Fs P]. cbn [fst snd] in Fs, P. destruct P as [P Px].
    destruct (certs (v_core r1)); [split; [apply lev_add; exact P|exact Px]|].
    destruct cds; [split; [apply lev_add; exact P|exact Px]|].
    bindl verifyIntegrity_lev. intros [c good] Pc. cbn [fst] in Pc. cbn zeta. destruct (negb good); [split; [exact Pc|exact Px]|].
    apply post_bind with (P := lev_res); [|intros r3 Hr3; exact Hr3].
    unfold finalizeScheme. destruct st.
    - split; [exact Pc|exact Px].
    - eapply post_bind; [apply v3Finalize_lev; [intro; apply (srt_perm S HS)|exact Fs|exact Pc]|]. intros c' Pc'. split; [exact Pc'|exact Px].
    - destruct Fs as [F1 F2].
      eapply post_bind; [apply v31Finalize_lev; [intro; apply (srt_perm S HS)|exact F1|exact F2|exact Pc|exact Px]|]. intros [c' ex'] [P1 P2]. split; [exact P1|exact P2].
  Qed.
  Lemma pickAndVerify_lev k file s blocks a z r : lev_res r -> post (fun x => lev_res (snd x)) (pickAndVerify E S k file s blocks a z r).
  Proof.
    intros [H Hx]. unfold pickAndVerify. destruct (negb _); [split; assumption|]. destruct (pickScheme blocks) as [id [b|]].
    - apply verifyScheme_lev. split; assumption.
    - split; assumption.
  Qed.
  Lemma entriesLoop_lev fuel maxSdk : forall pairs st, lev_res (en_res st) ->
    post (fun x => lev_res (en_res (fst x))) (entriesLoop E fuel maxSdk pairs st).
  Proof.
    induction fuel as [|fuel IH]; intros [|p ps] st H; cbn [entriesLoop]; try exact H.
    destruct (nextEntry _) as [|id payload eof rest]; [exact H|].
    apply post_bind with (P := fun r => match r with Some st' => lev_res (en_res st') | None => True end).
    - unfold handleEntry. cbn zeta. destruct H as [H Hx].
      destruct (_ || _); [destruct eof; [exact I|]; cbn [post en_res]; destruct (_ || _); split; assumption|].
      destruct (id =? _); [split; assumption|]. destruct (id =? _).
      { destruct eof; [exact I|]. apply post_any. intros [f [e|]]; (split; [exact H|exact Hx]). }
      destruct (id =? _); (destruct eof; [exact I|split; [exact H|exact Hx]]).
    - intros [st'|] Q; [apply IH; exact Q|exact H].
  Qed.
  Lemma verifySigningBlock_lev file a z zp : post (fun x => match vr_res x with Some r => lev_res r | None => True end)
    (verifySigningBlock E S file a z zp).
  Proof.
    unfold verifySigningBlock. destruct (newSigningBlock file) as [magic|]; [|exact I].
    assert (L0 : lev_res vres0) by (split; exact I).
    assert (Fr : forall st s, lev_res (en_res st) -> post lev_res (applyFrosting E file st s)).
    { intros st s L. unfold applyFrosting. destruct (en_frosting st); [|exact L]. destruct (v_frosting (en_res st)) as [fr|]; [|exact L].
      destruct s; [|exact L]. destruct (fr_error fr); [exact L|]. apply post_any. intros e. exact L. }
    apply post_bind with (P := fun fr => match fr with FindErr st _ => lev_res (en_res st) | FindOk st _ => lev_res (en_res st) end).
    - unfold findSignatureBlocks. cbn zeta. destruct (findEocd file); try exact L0. destruct (isZip64 _ _); [exact L0|].
      destruct (findApkSigningBlock _ _); try exact L0. cbn zeta.
      eapply post_bind; [apply entriesLoop_lev; exact L0|]. intros [st [|]] Q; exact Q.
    - intros [st s|st s] L.
      + eapply post_bind; [apply Fr; exact L|]. intros res Q. exact Q.
      + eapply post_bind; [apply Fr; exact L|]. intros res Q.
        eapply post_bind; [apply pickAndVerify_lev; exact Q|]. intros [cds res1] Q1. cbn [snd] in Q1.
        apply post_bind with (P := fun x : digests * vresult => lev_res (snd x)).
        * unfold fallback. destruct (_ && _); [|exact Q1]. cbn zeta. destruct Q1 as [Q1 Q1x]. apply pickAndVerify_lev. split; assumption.
        * intros [cds2 res2] [Q2 Q2x]. cbn [snd] in Q2, Q2x. apply post_any. intros stamp. split; [exact Q2|exact Q2x].
  Qed.
End Top.

Lemma level_cases a : isSupported a = true -> getMinSdkVersion a <= 28 \/ a = 0x0101.
Proof.
  intros H. destruct (Z.eq_dec a 0x0101) as [->|N]; [right; reflexivity|left].
  unfold getMinSdkVersion.
  match goal with |- (if ?b then _ else _) <= _ => destruct b eqn:Q1 end; [vm_compute; discriminate|].
  match goal with |- (if ?b then _ else _) <= _ => destruct b eqn:Q2 end; [vm_compute; discriminate|].
  exfalso. unfold isSupported, zmem in *. cbn [existsb] in *. 
  repeat match goal with H : _ || _ = false |- _ => apply orb_false_iff in H as [? H] end.
  repeat (apply orb_true_iff in H as [H|H]); try congruence; try discriminate.
  apply Z.eqb_eq in H. contradiction.
Qed.
Lemma level_fold ns : forall m, m = 28 \/ m = 2147483647 ->
  let f := fold_left (fun m n => if isSupported (ln_algo n) && (m <? getMinSdkVersion (ln_algo n)) then getMinSdkVersion (ln_algo n) else m) ns m in
  (f = 2147483647 <-> m = 2147483647 \/ exists n, In n ns /\ ln_algo n = 0x0101) /\ (f = 28 \/ f = 2147483647).
Proof.
  induction ns as [|n ns IH]; intros m Hm; cbn [fold_left].
  - cbn zeta. split; [|exact Hm]. split; [auto|]. intros [H|(n & [] & _)]. exact H.
  - match goal with |- context [fold_left _ ns ?x] => set (m' := x) end.
    assert (Q : (m' = 28 \/ m' = 2147483647) /\ (m' = 2147483647 <-> m = 2147483647 \/ ln_algo n = 0x0101)).
    { unfold m'. destruct (Z.eq_dec (ln_algo n) 0x0101) as [E|E].
      - rewrite E. change (isSupported 0x0101) with true. change (getMinSdkVersion 0x0101) with 2147483647. cbn [andb].
        destruct (Z.ltb_spec m 2147483647); split; try tauto; lia.
      - destruct (isSupported (ln_algo n)) eqn:Q; cbn [andb]; [|tauto]. destruct (level_cases _ Q) as [L|L]; [|contradiction].
        destruct (Z.ltb_spec m (getMinSdkVersion (ln_algo n))); [lia|]. tauto. }
    destruct Q as [Q1 Q2]. clearbody m'. destruct (IH m' Q1) as [A B]. split; [|exact B].
    cbn zeta in A. rewrite A, Q2. split.
    + intros [[H|H]|(x & I & H)]; [left; exact H|right; exists n; split; [left; reflexivity|exact H]|right; exists x; split; [right; exact I|exact H]].
    + intros [H|(x & [<-|I] & H)]; [left; left; exact H|left; right; exact H|right; exists x; auto].
Qed.
Lemma level_value ns : (lineageCalculateMinSdkVersion ns = 2147483647 <-> exists n, In n ns /\ ln_algo n = 0x0101) /\
  (lineageCalculateMinSdkVersion ns = 28 \/ lineageCalculateMinSdkVersion ns = 2147483647).
Proof.
  destruct (level_fold ns 28 (or_introl eq_refl)) as [A B]. split; [|exact B]. unfold lineageCalculateMinSdkVersion. rewrite A.
  split; [intros [H|H]; [discriminate|exact H]|auto].
Qed.
