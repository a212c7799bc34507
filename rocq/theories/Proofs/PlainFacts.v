(** The scheme parsers never add a "signing block not found" error. *)
From Coq Require Import String Lia.
From Verif.Model Require Import Bytes Env ApiLevel Utils SigBlock Result Signer SchemeV2 SchemeV3 Digest Verify.
From Verif.Proofs Require Import BytesFacts.

Definition plain (c : core) : Prop := forall m, ~ In (ErrNotFound m) (errors c).
Definition post {A} (P : A -> Prop) (o : outcome A) : Prop := match o with Ret a => P a | Panic _ => True end.
Lemma post_bind {A B} (o : outcome A) (f : A -> outcome B) (P : A -> Prop) (Q : B -> Prop) :
  post P o -> (forall a, P a -> post Q (f a)) -> post Q (obind o f).
Proof. destruct o; [intros H F; exact (F _ H)|intros; exact I]. Qed.
Lemma post_any {A B} (o : outcome A) (f : A -> outcome B) (Q : B -> Prop) :
  (forall a, post Q (f a)) -> post Q (obind o f).
Proof. destruct o; [intros F; exact (F _)|intros; exact I]. Qed.
Lemma post_ret {A} (P : A -> Prop) o a : post P o -> o = Ret a -> P a.
Proof. intros H ->. exact H. Qed.

Lemma plain_add c e : plain c -> plain (addError c e).
Proof. intros H m C. unfold addError in C. cbn in C. apply in_app_or in C as [C|[C|[]]]; [exact (H m C)|discriminate]. Qed.
Lemma plain_warn c e : plain c -> plain (addWarning c e).
Proof. exact (fun H => H). Qed.
Lemma plain_mk c a b w : plain c -> plain (mkCore a b w (errors c)).
Proof. exact (fun H => H). Qed.
Lemma plain_none a b w : plain (mkCore a b w []).
Proof. intros m []. Qed.
Lemma plain_app a b w c d : plain c -> plain d -> plain (mkCore a b w (errors c ++ errors d)).
Proof. intros H H' m C. cbn in C. apply in_app_or in C as [C|C]; [exact (H m C)|exact (H' m C)]. Qed.
Lemma plain_core0 : plain core0.
Proof. intros m []. Qed.
Global Hint Resolve plain_add plain_warn plain_mk plain_none plain_app plain_core0 : plain.

Ltac psplit :=
  match goal with
  | |- post _ (Ret _) => cbn [post fst snd]; auto with plain
  | |- post _ (Panic _) => exact I
  | |- post _ (if ?b then _ else _) => destruct b
  | |- post _ (match ?x with _ => _ end) => destruct x
  | |- plain (if ?b then _ else _) => destruct b
  | |- plain (addError _ _) => apply plain_add
  | |- plain (addWarning _ _) => apply plain_warn
  | |- plain _ => solve [auto with plain]
  end.

Lemma parseSignaturesLoop_plain items ok : forall c r, plain r ->
  post (fun x => plain (snd (fst x))) (parseSignaturesLoop items ok c r).
Proof.
  induction items as [|s items IH]; intros c r H; cbn [parseSignaturesLoop]; [repeat psplit|].
  destruct (zlen s <? 8); [repeat psplit|]. destruct (read_i32 s) as [[algo s']|]; [|repeat psplit]. cbn zeta.
  destruct (negb (isSupported algo)); [apply IH; auto with plain|]. apply post_any. intros [|].
  - destruct (getLengthPrefixedSlice s') as [[? ?]|]; [apply IH; exact H|repeat psplit].
  - apply IH. exact H.
Qed.
Lemma parseSignatures_plain s r : plain r -> post (fun x => plain (snd (fst x))) (parseSignatures s r).
Proof.
  intros H. unfold parseSignatures. destruct (lpItems s) as [items ok].
  eapply post_bind; [apply parseSignaturesLoop_plain; exact H|]. intros [[c r1] good] P. cbn [fst snd] in P. repeat psplit.
Qed.
Lemma parsePublicKey_plain E c k d r : plain r -> post (fun x => plain (fst x)) (parsePublicKey E c k d r).
Proof.
  intros H. unfold parsePublicKey. destruct (e_pkix_andr E k); [|repeat psplit]. apply post_any. intros [|]; repeat psplit.
Qed.
Lemma parseCertificatesLoop_plain E items ok : forall chain r, plain r ->
  plain (snd (fst (parseCertificatesLoop E items ok chain r))).
Proof.
  induction items as [|s items IH]; intros chain r H; cbn [parseCertificatesLoop].
  - destruct ok; cbn [fst snd]; auto with plain.
  - destruct (e_cert_andr E s); [|cbn [fst snd]; auto with plain].
    unfold certAppend. destruct chain; apply IH; exact H.
Qed.
Lemma parseCertificates_plain E s k r : plain r -> plain (fst (parseCertificates E s k r)).
Proof.
  intros H. unfold parseCertificates. destruct (lpItems s) as [items ok].
  pose proof (parseCertificatesLoop_plain E items ok [] r H) as P.
  destruct (parseCertificatesLoop E items ok [] r) as [[chain r1] good]. cbn [fst snd] in P.
  destruct (negb good); [exact P|]. destruct chain; [cbn [fst]; auto with plain|].
  destruct (bytes_eqb _ _); cbn [fst]; auto with plain.
Qed.
Lemma parseDigestsLoop_plain items ok best : forall cd algos r, plain r ->
  plain (snd (fst (parseDigestsLoop items ok best cd algos r))).
Proof.
  induction items as [|s items IH]; intros cd algos r H; cbn [parseDigestsLoop].
  - destruct ok; cbn [fst snd]; auto with plain.
  - destruct (zlen s <? 8); [cbn [fst snd]; auto with plain|]. destruct (read_i32 s) as [[algo s']|]; [|exact H]. cbn zeta.
    destruct (algo =? best); [|apply IH; exact H].
    destruct (getLengthPrefixedSlice s') as [[? ?]|]; [apply IH; exact H|cbn [fst snd]; auto with plain].
Qed.
Lemma parseDigests_plain s c cds r : plain r -> post (fun x => plain (snd (fst x))) (parseDigests s c cds r).
Proof.
  intros H. unfold parseDigests. destruct (lpItems s) as [items ok].
  pose proof (parseDigestsLoop_plain items ok (bestAlgo c) None [] r H) as P.
  destruct (parseDigestsLoop items ok (bestAlgo c) None [] r) as [[[cd algos] r1] good]. cbn [fst snd] in P.
  destruct (negb good); [exact P|]. destruct (negb _); [repeat psplit|]. apply post_any. intros a. cbn zeta.
  destruct (zget a cds); [|exact P]. destruct (bytes_eqb _ _); [exact P|repeat psplit].
Qed.

Lemma v2Attributes_plain items ok maxSdk ex : forall r, plain r -> plain (v2Attributes items ok maxSdk ex r).
Proof.
  induction items as [|s items IH]; intros r H; cbn [v2Attributes]; [destruct ok; auto with plain|].
  destruct (read_u32 s) as [[id s']|]; [|auto with plain].
  destruct (id =? _); [|apply IH; auto with plain]. destruct (negb _); [apply IH; exact H|].
  destruct (read_i32 s') as [[sid ?]|]; [|auto with plain].
  destruct (schemeIdToBlockId sid); [|apply IH; auto with plain]. destruct (zget _ ex); auto with plain.
Qed.

Ltac bindp L := eapply post_bind; [apply L; auto with plain|].
Ltac popen := match goal with |- post _ (match ?x with Some _ => _ | None => _ end) => destruct x as [[? ?]|]; [|solve [repeat psplit]] end.

Lemma v2VerifySigner_plain E maxSdk ex s cds r : plain r -> post (fun x => plain (snd x)) (v2VerifySigner E maxSdk ex s cds r).
Proof.
  intros H. unfold v2VerifySigner. do 2 popen. bindp parseSignatures_plain. intros [[ctx r1] sok] P1. cbn [fst snd] in P1.
  destruct (negb sok); [exact P1|]. popen. bindp parsePublicKey_plain. intros [r2 kok] P2. cbn [fst snd] in P2.
  destruct (negb kok); [exact P2|]. do 2 popen.
  match goal with |- context [parseCertificates E ?a ?b ?c] => pose proof (parseCertificates_plain E a b c P2) as P3; destruct (parseCertificates E a b c) as [r3 mc] end.
  cbn [fst] in P3. destruct mc; [|exact P3]. bindp parseDigests_plain. intros [[cds' r4] dok] P4. cbn [fst snd] in P4.
  destruct (negb dok); [exact P4|]. popen. destruct (lpItems _) as [items ok]. cbn [post snd]. apply v2Attributes_plain. exact P4.
Qed.
Lemma v2Signers_plain E maxSdk ex items ok : forall cds r, plain r -> post (fun x => plain (snd (fst x))) (v2Signers E maxSdk ex items ok cds r).
Proof.
  induction items as [|s items IH]; intros cds r H; cbn [v2Signers]; [repeat psplit|].
  bindp v2VerifySigner_plain. intros [cds' r'] P. cbn [snd] in P. apply IH. exact P.
Qed.
Lemma v2ParseSigners_plain E maxSdk ex b cds r : plain r -> post (fun x => plain (snd x)) (v2ParseSigners E maxSdk ex b cds r).
Proof.
  intros H. unfold v2ParseSigners. popen. destruct (lpItems _) as [items ok]. bindp v2Signers_plain.
  intros [[cds' r'] good] P. cbn [fst snd] in P. repeat psplit.
Qed.

Lemma v3Attributes_plain E cfg mc items ok : forall lin found r, plain r ->
  post (fun x => plain (snd (fst x))) (v3Attributes E cfg mc items ok lin found r).
Proof.
  induction items as [|s items IH]; intros lin found r H; cbn [v3Attributes]; [destruct ok; cbn [post fst snd]; auto with plain|].
  destruct (read_u32 s) as [[id s']|]; [|repeat psplit].
  destruct (id =? attrV3ProofOfRotation).
  { apply post_any. intros [[|n ns]|]; [apply IH; exact H| |repeat psplit]. cbn zeta.
    destruct (subLineageLen _ mc); apply IH; repeat psplit. }
  destruct (id =? attrV3MinSdkVersion).
  { destruct (SupportsSigV31 _); [|apply IH; auto with plain].
    destruct (read_i32 s') as [[? ?]|]; [apply IH; repeat psplit|repeat psplit]. }
  destruct (id =? _); apply IH; repeat psplit.
Qed.
Lemma v3VerifySigner_plain E cfg s cds r : plain r -> post (fun x => plain (snd x)) (v3VerifySigner E cfg s cds r).
Proof.
  intros H. unfold v3VerifySigner. do 3 popen. cbn zeta.
  match goal with |- context [if ?b then addError r ?m else r] => set (r0 := if b then addError r m else r); assert (H0 : plain r0) by (unfold r0; repeat psplit); clearbody r0 end.
  popen. bindp parseSignatures_plain. intros [[ctx r1] sok] P1. cbn [fst snd] in P1.
  destruct (negb sok); [exact P1|]. popen. bindp parsePublicKey_plain. intros [r2 kok] P2. cbn [fst snd] in P2.
  destruct (negb kok); [exact P2|]. do 4 popen. cbn zeta.
  match goal with |- context [parseCertificates E ?a ?b ?c] =>
    assert (P3 : plain (fst (parseCertificates E a b c))) by (apply parseCertificates_plain; repeat psplit);
    destruct (parseCertificates E a b c) as [r5 mcert] end.
  cbn [fst] in P3. destruct mcert; [|exact P3]. bindp parseDigests_plain. intros [[cds' r6] dok] P4. cbn [fst snd] in P4.
  destruct (negb dok); [exact P4|]. popen. destruct (lpItems _) as [items ok].
  bindp v3Attributes_plain. intros [[[lin found] r7] good] P5. cbn [fst snd] in P5. cbn zeta. repeat psplit.
Qed.
Lemma v3Signers_plain E cfg items ok : forall sigs cds r, plain r -> post (fun x => plain (snd x)) (v3Signers E cfg items ok sigs cds r).
Proof.
  induction items as [|s items IH]; intros sigs cds r H; cbn [v3Signers]; [destruct ok; cbn [post snd]; auto with plain|].
  bindp v3VerifySigner_plain. intros [[info cds'] r'] P. cbn [snd] in P. apply IH. exact P.
Qed.
Lemma v3ParseSigners_plain E cfg b cds r : plain r -> post (fun x => plain (snd x)) (v3ParseSigners E cfg b cds r).
Proof.
  intros H. unfold v3ParseSigners. popen. destruct (lpItems _) as [items ok]. apply v3Signers_plain. exact H.
Qed.
Definition plain_opt (o : option core) : Prop := match o with Some c => plain c | None => True end.
Lemma v31ParseSigners_plain E maxSdk ex b cds r : plain r ->
  post (fun x => plain (snd (fst x)) /\ plain_opt (snd x)) (v31ParseSigners E maxSdk ex b cds r).
Proof.
  intros H. unfold v31ParseSigners. bindp v3ParseSigners_plain. intros [[s31 cds31] r1] P. cbn [snd] in P. cbn zeta.
  destruct (zget _ ex); [|cbn [post fst snd plain_opt]; auto with plain].
  bindp v3ParseSigners_plain. intros [[s3 cds3] r3] P3. cbn [snd] in P3. cbn [post fst snd plain_opt]. auto.
Qed.

Lemma v3RangeLoop_plain sigs : forall a b c l r, plain r -> plain (snd (v3RangeLoop sigs a b c l r)).
Proof.
  induction sigs as [|s sigs IH]; intros a b c l r H; cbn [v3RangeLoop]; [exact H|].
  destruct (_ && _); [cbn [snd]; auto with plain|]. cbn zeta. destruct (vs_lineage s); [|apply IH; exact H].
  destruct (_ <? _); [cbn [snd]; auto with plain|apply IH; exact H].
Qed.
Lemma v3Finalize_plain srt cfg sigs a b r : plain r -> post plain (v3FinalizeWith srt cfg sigs a b r).
Proof.
  intros H. unfold v3FinalizeWith. cbn zeta. pose proof (v3RangeLoop_plain (srt sigs) 0 0 0 [] r H) as P.
  destruct (v3RangeLoop (srt sigs) 0 0 0 [] r) as [[[fm lm] lins] r1]. cbn [snd] in P.
  match goal with |- context [if ?b then addError r1 ?m else r1] => set (r2 := if b then addError r1 m else r1); assert (H2 : plain r2) by (unfold r2; repeat psplit); clearbody r2 end.
  destruct (signingLineage r2); [exact H2|]. apply post_any. intros [l|[]]; cbn [post]; [exact H2|].
  apply plain_add. exact H2.
Qed.
Lemma v31Finalize_plain srt maxSdk st a b r ex : plain r -> plain_opt ex ->
  post (fun x => plain (fst x) /\ plain_opt (snd x)) (v31FinalizeWith srt maxSdk st a b r ex).
Proof.
  intros H Hx. unfold v31FinalizeWith. cbn zeta. bindp v3Finalize_plain. intros r1 P. destruct ex as [r3|]; [|cbn; auto].
  bindp v3Finalize_plain. intros r3' P3. cbn [post fst snd plain_opt]. auto with plain.
Qed.
Lemma verifyIntegrity_plain E file ei off keys exp r : plain r -> post (fun x => plain (fst x)) (verifyIntegrity E file ei off keys exp r).
Proof.
  intros H. unfold verifyIntegrity. cbn zeta. apply post_any. intros eocd. apply post_any. intros [m|]; [|repeat psplit].
  cbn [post fst]. revert r H. induction keys as [|k keys IH]; intros r H; [exact H|]. cbn [fold_left]. apply IH. repeat psplit.
Qed.

Definition plain_res (r : vresult) : Prop := plain (v_core r) /\ plain_opt (v_extraResult3 r).
Lemma extractCertsScheme_plain E id maxSdk b r : plain_res r ->
  post (fun x => plain_res (snd x)) (extractCertsScheme E id maxSdk b r).
Proof.
  intros [H Hx]. unfold extractCertsScheme. destruct (id =? schemeIdV31).
  - bindp v31ParseSigners_plain. intros [[[st cds] c] extra] [P1 P2]. cbn [fst snd] in *. cbn [post snd]. split; [exact P1|].
    cbn [v_extraResult3]. destruct extra; [exact P2|exact Hx].
  - destruct (id =? schemeIdV3).
    + bindp v3ParseSigners_plain. intros [[sigs cds] c] P. cbn [snd] in P. split; [exact P|exact Hx].
    + bindp v2ParseSigners_plain. intros [cds c] P. cbn [snd] in P. split; [exact P|exact Hx].
Qed.
Lemma verifyScheme_plain E S k file s id b a z r : plain_res r ->
  post (fun x => plain_res (snd x)) (verifyScheme E S k file s id b a z r).
Proof.
  intros H. unfold verifyScheme. bindp extractCertsScheme_plain. intros [[st cds] r1] P. cbn [snd] in P. destruct P as [P Px].
  destruct (certs (v_core r1)); [split; [apply plain_add; exact P|exact Px]|].
  destruct cds; [split; [apply plain_add; exact P|exact Px]|].
  bindp verifyIntegrity_plain. intros [c good] Pc. cbn [fst] in Pc. cbn zeta. destruct (negb good); [split; [exact Pc|exact Px]|].
  apply post_bind with (P := plain_res); [|intros r3 Hr3; exact Hr3].
  unfold finalizeScheme. destruct st.
  - split; [exact Pc|exact Px].
  - bindp v3Finalize_plain. intros c' Pc'. split; [exact Pc'|exact Px].
  - eapply post_bind; [apply v31Finalize_plain; [exact Pc|exact Px]|]. intros [c' ex'] [P1 P2]. split; [exact P1|exact P2].
Qed.

(** a block was found: no "not found" error *)
Lemma pickAndVerify_plain E S k file s blocks a z r : SupportsSigV2 z = true -> snd (pickScheme blocks) <> None -> plain_res r ->
  post (fun x => plain_res (snd x)) (pickAndVerify E S k file s blocks a z r).
Proof.
  intros Hz Hb H. unfold pickAndVerify. rewrite Hz. cbn [negb]. destruct (pickScheme blocks) as [id [b|]]; [|destruct Hb; reflexivity].
  apply verifyScheme_plain. exact H.
Qed.
