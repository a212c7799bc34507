(** When the APK Signing Block makes the verifier panic *)
From Coq Require Import String.
From Coq Require Import Lia Permutation.
From Verif.Model Require Import Bytes Env ApiLevel Utils SigBlock Result Signer SchemeV2 SchemeV3 DataSource Digest Frosting SourceStamp Verify.
From Verif.Spec Require Import Encoding ApkLayout Algorithms Digests Entries Nondet Frosting Panics.
From Verif.Proofs Require Import BytesFacts UtilsFacts SigBlockFacts SignerFacts CollectFacts RangeFacts IntegrityFacts EntriesFacts ApkFacts FrostingFacts.

(** Either panics, and then [P], or returns a value with [Q]. *)
Definition safe {A} (P : Prop) (m : outcome A) (Q : A -> Prop) : Prop := match m with Ret a => Q a | Panic _ => P end.
Definition any {A} (_ : A) : Prop := True.
Lemma safe_bind {A B} P (m : outcome A) (f : A -> outcome B) Q Q' :
  safe P m Q' -> (forall a, m = Ret a -> Q' a -> safe P (f a) Q) -> safe P (x <- m ;; f x) Q.
Proof. destruct m; cbn; auto. Qed.
Lemma safe_panic {A} P (m : outcome A) Q q : safe P m Q -> m = Panic q -> P.
Proof. intros H ->. exact H. Qed.
Lemma safe_weaken {A} (P P' : Prop) (m : outcome A) (Q Q' : A -> Prop) : (P -> P') -> (forall a, Q a -> Q' a) -> safe P m Q -> safe P' m Q'.
Proof. destruct m; cbn; auto. Qed.
Lemma safe_ret {A} P (m : outcome A) : (exists a, m = Ret a) -> safe P m any.
Proof. now intros [a ->]. Qed.

Lemma within_refl a : within a a.
Proof. exists [], []. now rewrite app_nil_r. Qed.
Lemma within_trans a b c : within a b -> within b c -> within a c.
Proof. intros (x & y & ->) (u & v & ->). exists (u ++ x), (y ++ v). now rewrite !app_assoc. Qed.
Lemma within_nil a : within [] a.
Proof. exists [], a. reflexivity. Qed.
Lemma within_l a b c : within (a ++ b) c -> within a c.
Proof. intros (u & v & ->). exists u, (b ++ v). now rewrite !app_assoc. Qed.
Lemma within_r a b c : within (a ++ b) c -> within b c.
Proof. intros (u & v & ->). exists (u ++ a), v. now rewrite !app_assoc. Qed.
Lemma within_takeZ n a : within (takeZ n a) a.
Proof. exists [], (dropZ n a). cbn. symmetry. apply take_drop. Qed.
Lemma within_dropZ n a : within (dropZ n a) a.
Proof. exists (takeZ n a), []. rewrite app_nil_r. symmetry. apply take_drop. Qed.

Lemma within_lp b x r w : within b w -> getLengthPrefixedSlice b = Some (x, r) -> within x w /\ within r w.
Proof.
  intros W H. apply getLP_inv in H as [-> _]. unfold lp in W. rewrite <- app_assoc in W.
  split; [eapply within_l, within_r, W | eapply within_r, within_r, W].
Qed.
Lemma within_i32 b z r w : within b w -> read_i32 b = Some (z, r) -> within (le32 z) w /\ within r w.
Proof. intros W H. apply read_i32_inv in H as [-> _]. split; [eapply within_l, W | eapply within_r, W]. Qed.
Lemma within_u32 b z r w : within b w -> read_u32 b = Some (z, r) -> within (le32 z) w /\ within r w.
Proof. intros W H. apply read_u32_inv in H as [-> _]. split; [eapply within_l, W | eapply within_r, W]. Qed.
Lemma within_i64 b z r w : within b w -> read_i64 b = Some (z, r) -> within r w.
Proof. intros W H. apply read_i64_inv in H as ->. eapply within_r, W. Qed.
Lemma within_lps xs w : within (lps xs) w -> Forall (fun x => within x w) xs.
Proof.
  induction xs as [|x xs IH]; intro W; constructor.
  - unfold lps in W. cbn [flat_map] in W. apply within_l in W. unfold lp in W. eapply within_r, W.
  - apply IH. unfold lps in *. cbn [flat_map] in W. eapply within_r, W.
Qed.
Lemma within_items b xs ok w : within b w -> lpItems b = (xs, ok) -> Forall (fun x => within x w) xs.
Proof.
  intros W H. destruct ok.
  - apply lpItems_inv in H as [-> _]. now apply within_lps.
  - apply lpItems_false in H as (tail & -> & _). apply within_lps. eapply within_l, W.
Qed.

Section WithEnv.
  Variable E : env.
  Hypothesis HS : hash_sizes_ok E.

  Lemma verifySignature_safe key algo data sig : safe (unusable E key algo sig) (verifySignature E key algo data sig) any.
  Proof using HS.
    unfold verifySignature.
    assert (RSA : forall f : bytes -> bool, In algo [0x0101; 0x0102; 0x0103; 0x0104; 0x0421] ->
      safe (unusable E key algo sig) (match key with KRsa k _ => Ret (f k) | _ => Panic PTypeAssertion end) any).
    { intros f I. destruct key; cbn; [exact Logic.I | apply WantsRsa; [assumption | discriminate]..]. }
    destruct (Z.eqb_spec algo SigRsaPssWithSha256) as [->|_]; [apply RSA; cbn; tauto|].
    destruct (Z.eqb_spec algo SigRsaPssWithSha512) as [->|_]; [apply RSA; cbn; tauto|].
    destruct (zmem algo [SigRsaPkcs1V15WithSha256; SigVerityRsaPkcs1V15WithSha256]) eqn:M.
    { apply zmem_in in M. apply RSA. cbn in *. tauto. }
    destruct (Z.eqb_spec algo SigRsaPkcs1V15WithSha512) as [->|_]; [apply RSA; cbn; tauto|]. clear RSA M.
    destruct (zmem algo [SigEcdsaWithSha256; SigEcdsaWithSha512; SigDsaWithSha256; SigVerityEcdsaWithSha256; SigVerityDsaWithSha256]) eqn:M; [|exact I].
    apply zmem_in in M. destruct (e_asn1_ints E sig) as [l|] eqn:A; [|exact I].
    assert (Short : forall t, match l with _ :: _ :: _ => False | _ => True end -> safe (zlen l < 2) (@Panic bool t) any).
    { intros t Hl. destruct l as [|a [|b l]]; [reflexivity | reflexivity | destruct Hl]. }
    destruct (zmem algo [SigDsaWithSha256; SigVerityDsaWithSha256]) eqn:D.
    - apply zmem_in in D. assert (D' : In algo [0x0301; 0x0425]) by (cbn in *; tauto).
      destruct key as [? ?|k q|?|?]; try (apply (WantsDsa E _ _ _ l D' A); left; discriminate).
      assert (H32 : algo =? SigEcdsaWithSha512 = false).
      { apply Z.eqb_neq. intros ->. cbn in D. intuition discriminate. }
      rewrite H32, HS. cbn [digest_octets]. destruct (Z.ltb_spec 32 (q / 8)).
      { apply (WantsDsa E _ _ _ l D' A). right. right. exists k, q. auto. }
      destruct l as [|a [|b l]]; [apply (WantsDsa E _ _ _ _ D' A); right; left; reflexivity .. | exact I].
    - assert (D' : In algo [0x0201; 0x0202; 0x0423]).
      { assert (~ In algo [SigDsaWithSha256; SigVerityDsaWithSha256]) by (rewrite <- zmem_in; congruence). cbn in *. tauto. }
      destruct key as [? ?|k q|k|?]; try (apply (WantsEcdsa E _ _ _ l D' A); left; discriminate).
      destruct l as [|a [|b l]]; [apply (WantsEcdsa E _ _ _ _ D' A); right; reflexivity .. | exact I].
  Qed.

  Variable w : bytes.
  Notation P := (bad_signature E w).

  Lemma verify_in key algo data sig : key_in E w key -> within (le32 algo) w -> within sig w -> safe P (verifySignature E key algo data sig) any.
  Proof using HS.
    intros K A S. eapply safe_weaken; [|intros a Q; exact Q | apply verifySignature_safe].
    intro U. exists key, algo, sig. auto.
  Qed.

  Lemma getDigestType_safe a : isSupported a = true -> exists k, getDigestType a = Ret (kind_id k).
  Proof. intro H. apply isSupported_iff, supported_kind in H as [k K]. exists k. now apply has_kind_type. Qed.
  Lemma compareAlgos_safe a b : isSupported a = true -> isSupported b = true -> exists d, compareAlgos a b = Ret d.
  Proof.
    intros A B. apply getDigestType_safe in A as [k A]. apply getDigestType_safe in B as [k' B].
    unfold compareAlgos. rewrite A, B. cbn [obind]. destruct k, k'; eexists; reflexivity.
  Qed.

  Definition ctx_ok (c : sctx) : Prop := bestAlgo c = -1 \/ (isSupported (bestAlgo c) = true /\ within (le32 (bestAlgo c)) w /\ within (bestAlgoSignature c) w).

  Lemma parseSignaturesLoop_safe items ok : forall c r, Forall (fun x => within x w) items -> ctx_ok c ->
    safe P (parseSignaturesLoop items ok c r) (fun '(c', _, good) => good = true -> ctx_ok c').
  Proof.
    induction items as [|x items IH]; intros c r F C.
    - cbn. destruct ok; cbn; [auto | discriminate].
    - inversion F as [|? ? Wx Fx]; subst. cbn [parseSignaturesLoop].
      destruct (zlen x <? 8); [cbn; discriminate|].
      destruct (read_i32 x) as [[algo rest]|] eqn:R; [|cbn; discriminate].
      apply (within_i32 _ _ _ _ Wx) in R as [Wa Wr]. cbn [bestAlgo].
      destruct (isSupported algo) eqn:S; cbn [negb].
      2:{ apply IH; [assumption|]. destruct C as [C|C]; [now left | now right]. }
      eapply (safe_bind P _ _ _ any).
      { apply safe_ret. destruct (Z.eqb_spec (bestAlgo c) (-1)) as [|N]; [eauto|].
        destruct C as [C|(C & _)]; [contradiction|]. destruct (compareAlgos_safe algo (bestAlgo c) S C) as [d ->]. eexists; reflexivity. }
      intros better _ _. destruct better.
      + destruct (getLengthPrefixedSlice rest) as [[sb rr]|] eqn:G; [|cbn; discriminate].
        apply (within_lp _ _ _ _ Wr) in G as [Wsb _]. apply IH; [assumption|]. right. cbn. auto.
      + apply IH; [assumption|]. destruct C as [C|C]; [now left | now right].
  Qed.

  Lemma parseSignatures_safe b r : within b w ->
    safe P (parseSignatures b r) (fun '(c, _, good) => good = true -> isSupported (bestAlgo c) = true /\ within (le32 (bestAlgo c)) w /\ within (bestAlgoSignature c) w).
  Proof.
    intro W. unfold parseSignatures. destruct (lpItems b) as [items ok] eqn:L. pose proof (within_items _ _ _ _ W L) as F.
    eapply safe_bind; [apply parseSignaturesLoop_safe; [exact F | left; reflexivity]|].
    intros [[c r1] good] _ Q. destruct good; cbn [negb]; [|cbn; discriminate]. specialize (Q eq_refl).
    destruct (Z.eqb_spec (bestAlgo c) (-1)) as [|N]; [cbn; discriminate|]. destruct Q as [Q|Q]; [contradiction|]. cbn. auto.
  Qed.

  Lemma parsePublicKey_safe c pk data r : within pk w -> within (le32 (bestAlgo c)) w -> within (bestAlgoSignature c) w ->
    safe P (parsePublicKey E c pk data r) any.
  Proof using HS.
    intros W A S. unfold parsePublicKey. destruct (e_pkix_andr E pk) as [key|] eqn:K; [|exact I].
    eapply safe_bind; [apply verify_in; [exists pk; auto | assumption..]|]. intros [] _ _; exact I.
  Qed.

  Definition digs_ok (m : digests) : Prop := NoDup (map fst m) /\ forall a, In a (map fst m) -> exists k, a = kind_id k.
  Lemma digs_nil : digs_ok [].
  Proof. split; [constructor | intros a []]. Qed.
  Lemma digs_set k d m : digs_ok m -> digs_ok (zset (kind_id k) d m).
  Proof.
    intros [N K]. split; [now apply mset_nodup|]. intros a Ha.
    destruct (in_dec Z.eq_dec (kind_id k) (map fst m)) as [I|I].
    - rewrite mset_keys in Ha by assumption. auto.
    - rewrite mset_keys_new in Ha by assumption. apply in_app_or in Ha as [Ha|[<-|[]]]; eauto.
  Qed.

  Lemma parseDigests_safe b c cds r : isSupported (bestAlgo c) = true -> digs_ok cds ->
    safe P (parseDigests b c cds r) (fun '(cds', _, _) => digs_ok cds').
  Proof.
    intros S D. unfold parseDigests. destruct (lpItems b) as [items ok]. destruct (parseDigestsLoop items ok (bestAlgo c) None [] r) as [[[cd algos] r1] good].
    destruct good; cbn [negb]; [|exact D]. destruct (zlist_eqb algos (signaturesAlgos c)); cbn [negb]; [|exact D].
    apply getDigestType_safe in S as [k ->]. cbn [obind].
    destruct (zget (kind_id k) cds); [destruct (bytes_eqb _ _)|]; cbn; now apply digs_set.
  Qed.

  Lemma v2VerifySigner_safe maxSdk extra b cds r : within b w -> digs_ok cds ->
    safe P (v2VerifySigner E maxSdk extra b cds r) (fun '(cds', _) => digs_ok cds').
  Proof using HS.
    intros W D. unfold v2VerifySigner.
    destruct (getLengthPrefixedSlice b) as [[sd sb1]|] eqn:G1; [|exact D]. apply (within_lp _ _ _ _ W) in G1 as [W1 W2].
    destruct (getLengthPrefixedSlice sb1) as [[ss sb2]|] eqn:G2; [|exact D]. apply (within_lp _ _ _ _ W2) in G2 as [W3 W4].
    eapply safe_bind; [apply (parseSignatures_safe ss r W3)|]. intros [[c r1] [|]] _ Q; cbn [negb]; [|exact D].
    destruct (Q eq_refl) as (S & A & B).
    destruct (getLengthPrefixedSlice sb2) as [[pk sb3]|] eqn:G3; [|exact D]. apply (within_lp _ _ _ _ W4) in G3 as [W5 _].
    eapply safe_bind; [apply (parsePublicKey_safe c pk sd r1 W5 A B)|]. intros [r2 [|]] _ _; cbn [negb]; [|exact D].
    destruct (getLengthPrefixedSlice sd) as [[ds sd1]|]; [|exact D].
    destruct (getLengthPrefixedSlice sd1) as [[cs sd2]|]; [|exact D].
    destruct (parseCertificates E cs pk r2) as [r3 [main|]]; [|exact D].
    eapply safe_bind; [apply (parseDigests_safe ds c cds r3 S D)|]. intros [[cds' r4] [|]] _ D'; cbn [negb]; [|exact D'].
    destruct (getLengthPrefixedSlice sd2) as [[at_ ?]|]; [|exact D']. destruct (lpItems at_). exact D'.
  Qed.

  Lemma v2Signers_safe maxSdk extra items ok : forall cds r, Forall (fun x => within x w) items -> digs_ok cds ->
    safe P (v2Signers E maxSdk extra items ok cds r) (fun '(cds', _, _) => digs_ok cds').
  Proof using HS.
    induction items as [|x items IH]; intros cds r F D.
    - cbn. destruct ok; exact D.
    - inversion F; subst. cbn [v2Signers]. eapply safe_bind; [apply v2VerifySigner_safe; assumption|]. intros [cds' r'] _ D'. now apply IH.
  Qed.

  Lemma v2ParseSigners_safe maxSdk extra b cds r : within b w -> digs_ok cds ->
    safe P (v2ParseSigners E maxSdk extra b cds r) (fun '(cds', _) => digs_ok cds').
  Proof using HS.
    intros W D. unfold v2ParseSigners. destruct (getLengthPrefixedSlice b) as [[s ?]|] eqn:G; [|exact D].
    apply (within_lp _ _ _ _ W) in G as [W1 _]. destruct (lpItems s) as [items ok] eqn:L.
    eapply safe_bind; [apply v2Signers_safe; [eapply within_items; eassumption | assumption]|].
    intros [[cds' r'] [|]] _ D'; cbn [negb]; [destruct (maxApkSigners <? _)|]; exact D'.
  Qed.

  (** lineages *)
  Definition last_ok (last : option (cert * Z)) : Prop := match last with None => True | Some (c, a) => key_in E w (c_key c) /\ within (le32 a) w end.

  Lemma lineageNode_safe b last hist : within b w -> last_ok last ->
    safe P (lineageNode E b last hist) (fun n => match n with None => True | Some n => last_ok (Some (ln_cert n, ln_algo n)) end).
  Proof using HS.
    intros W L. unfold lineageNode.
    destruct (getLengthPrefixedSlice b) as [[sd nb1]|] eqn:G1; [|exact I]. apply (within_lp _ _ _ _ W) in G1 as [W1 W2].
    destruct (read_i32 nb1) as [[fl nb2]|] eqn:G2; [|exact I]. apply (within_i32 _ _ _ _ W2) in G2 as [_ W3].
    destruct (read_i32 nb2) as [[al nb3]|] eqn:G3; [|exact I]. apply (within_i32 _ _ _ _ W3) in G3 as [Wa W4].
    destruct (getLengthPrefixedSlice nb3) as [[sg ?]|] eqn:G4; [|exact I]. apply (within_lp _ _ _ _ W4) in G4 as [W5 _].
    apply (safe_bind P _ _ _ any).
    { destruct last as [[c a]|]; [destruct L; now apply verify_in | exact I]. }
    intros [|] _ _; cbn [negb]; [|exact I].
    destruct (getLengthPrefixedSlice sd) as [[ec sd1]|] eqn:G5; [|exact I]. apply (within_lp _ _ _ _ W1) in G5 as [W6 _].
    destruct (read_i32 sd1) as [[ssa ?]|]; [|exact I].
    destruct (match last with None => false | Some (_, a) => negb (a =? ssa) end); [exact I|].
    destruct (e_cert_std E ec) as [c|] eqn:K; [|exact I]. destruct (existsb _ hist); [exact I|]. cbn. split; [|assumption].
    exists ec. split; [assumption|]. right. exists c. auto.
  Qed.
  Lemma lineageLoop_safe items ok : forall last hist res, Forall (fun x => within x w) items -> last_ok last ->
    safe P (lineageLoop E items ok last hist res) any.
  Proof using HS.
    induction items as [|x items IH]; intros last hist res F L; [exact I|]. inversion F; subst. cbn [lineageLoop].
    eapply safe_bind; [apply lineageNode_safe; [eassumption | exact L]|]. intros [n|] _ Q; [|exact I]. now apply IH.
  Qed.
  Lemma readLineage_safe b : within b w -> safe P (readSigningCertificateLineage E b) any.
  Proof using HS.
    intro W. unfold readSigningCertificateLineage. destruct b as [|x b]; [exact I|].
    destruct (read_i32 (x :: b)) as [[v rest]|] eqn:G; [|exact I]. apply (within_i32 _ _ _ _ W) in G as [_ W1].
    destruct (negb (v =? lineageVersionFirst)); [exact I|]. destruct (lpItems rest) as [items ok] eqn:L.
    apply lineageLoop_safe; [eapply within_items; eassumption | exact I].
  Qed.
  Lemma v3Attributes_safe cfg main items ok : forall lin found r, Forall (fun x => within x w) items ->
    safe P (v3Attributes E cfg main items ok lin found r) any.
  Proof using HS.
    induction items as [|x items IH]; intros lin found r F; [destruct ok; exact I|]. inversion F; subst. cbn [v3Attributes].
    destruct (read_u32 x) as [[id rest]|] eqn:G; [|exact I]. eapply within_u32 in G as [_ W1]; [|eassumption].
    destruct (id =? attrV3ProofOfRotation).
    { eapply safe_bind; [apply (readLineage_safe rest W1)|]. intros [[|n ns]|] _ _; [now apply IH | | exact I].
      destruct (subLineageLen (n :: ns) main); now apply IH. }
    destruct (id =? attrV3MinSdkVersion).
    { destruct (SupportsSigV31 (cfg_maxSdk cfg)); [|now apply IH]. destruct (read_i32 rest) as [[? ?]|]; [now apply IH | exact I]. }
    destruct (id =? attrV3RotationOnDev); now apply IH.
  Qed.

  Lemma v3VerifySigner_safe cfg b cds r : within b w -> digs_ok cds ->
    safe P (v3VerifySigner E cfg b cds r) (fun '(_, cds', _) => digs_ok cds').
  Proof using HS.
    intros W D. unfold v3VerifySigner.
    destruct (getLengthPrefixedSlice b) as [[sd sb1]|] eqn:G1; [|exact D]. apply (within_lp _ _ _ _ W) in G1 as [W1 W2].
    destruct (read_i32 sb1) as [[mn sb2]|] eqn:G2; [|exact D]. apply (within_i32 _ _ _ _ W2) in G2 as [_ W3].
    destruct (read_i32 sb2) as [[mx sb3]|] eqn:G3; [|exact D]. apply (within_i32 _ _ _ _ W3) in G3 as [_ W4]. cbv zeta.
    match goal with |- context [parseSignatures _ ?r] => set (r0 := r) end. clearbody r0.
    destruct (getLengthPrefixedSlice sb3) as [[ss sb4]|] eqn:G4; [|exact D]. apply (within_lp _ _ _ _ W4) in G4 as [W5 W6].
    eapply safe_bind; [apply (parseSignatures_safe ss r0 W5)|]. intros [[c r1] [|]] _ Q; cbn [negb]; [|exact D].
    destruct (Q eq_refl) as (S & A & B).
    destruct (getLengthPrefixedSlice sb4) as [[pk ?]|] eqn:G5; [|exact D]. apply (within_lp _ _ _ _ W6) in G5 as [W7 _].
    eapply safe_bind; [apply (parsePublicKey_safe c pk sd r1 W7 A B)|]. intros [r2 [|]] _ _; cbn [negb]; [|exact D].
    destruct (getLengthPrefixedSlice sd) as [[ds sd1]|] eqn:G6; [|exact D]. apply (within_lp _ _ _ _ W1) in G6 as [_ V1].
    destruct (getLengthPrefixedSlice sd1) as [[cs sd2]|] eqn:G7; [|exact D]. apply (within_lp _ _ _ _ V1) in G7 as [_ V2].
    destruct (read_i32 sd2) as [[smn sd3]|] eqn:G8; [|exact D]. apply (within_i32 _ _ _ _ V2) in G8 as [_ V3].
    destruct (read_i32 sd3) as [[smx sd4]|] eqn:G9; [|exact D]. apply (within_i32 _ _ _ _ V3) in G9 as [_ V4].
    match goal with |- context [parseCertificates E cs pk ?r] => set (r4 := r) end. clearbody r4.
    destruct (parseCertificates E cs pk r4) as [r5 [main|]]; [|exact D].
    eapply safe_bind; [apply (parseDigests_safe ds c cds r5 S D)|]. intros [[cds' r6] [|]] _ D'; cbn [negb]; [|exact D'].
    destruct (getLengthPrefixedSlice sd4) as [[at_ ?]|] eqn:G10; [|exact D']. apply (within_lp _ _ _ _ V4) in G10 as [V5 _].
    destruct (lpItems at_) as [items ok] eqn:L.
    eapply safe_bind; [apply v3Attributes_safe; eapply within_items; eassumption|].
    intros [[[lin found] r7] [|]] _ _; cbn [negb]; [destruct (negb _ && negb _)|]; exact D'.
  Qed.
  Lemma v3Signers_safe cfg items ok : forall sigs cds r, Forall (fun x => within x w) items -> digs_ok cds ->
    safe P (v3Signers E cfg items ok sigs cds r) (fun '(_, cds', _) => digs_ok cds').
  Proof using HS.
    induction items as [|x items IH]; intros sigs cds r F D; [exact D|]. inversion F; subst. cbn [v3Signers].
    eapply safe_bind; [apply v3VerifySigner_safe; assumption|]. intros [[info cds'] r'] _ D'. now apply IH.
  Qed.
  Lemma v3ParseSigners_safe cfg b cds r : within b w -> digs_ok cds ->
    safe P (v3ParseSigners E cfg b cds r) (fun '(_, cds', _) => digs_ok cds').
  Proof using HS.
    intros W D. unfold v3ParseSigners. destruct (getLengthPrefixedSlice b) as [[s ?]|] eqn:G; [|exact D].
    apply (within_lp _ _ _ _ W) in G as [W1 _]. destruct (lpItems s) as [items ok] eqn:L.
    apply v3Signers_safe; [eapply within_items; eassumption | assumption].
  Qed.

  (** source stamp *)
  Definition sigs_ok (m : list (Z * bytes)) : Prop := Forall (fun kv => isSupported (fst kv) = true /\ within (le32 (fst kv)) w /\ within (snd kv) w) m.
  Lemma mset_Forall {V} (Q : Z * V -> Prop) k v m : Q (k, v) -> Forall Q m -> Forall Q (zset k v m).
  Proof.
    intros H F. induction F as [|[k' v'] m Hk F IH]; cbn; [auto|]. destruct (k =? k'); constructor; auto.
  Qed.
  Lemma mget_Forall {V} (Q : Z * V -> Prop) k v m : Forall Q m -> zget k m = Some v -> Q (k, v).
  Proof.
    intros F. induction F as [|[k' v'] m Hk F IH]; cbn; [discriminate|]. destruct (Z.eqb_spec k k') as [->|]; [|auto]. intro H. injection H as <-. exact Hk.
  Qed.
  Lemma stampReadSigs_ok items ok : forall m s m' s', Forall (fun x => within x w) items -> sigs_ok m ->
    stampReadSigs items ok m s = (Some m', s') -> sigs_ok m'.
  Proof.
    induction items as [|x items IH]; intros m s m' s' F M.
    - cbn. destruct ok; [|discriminate]. intro H. now injection H as <- _.
    - inversion F; subst. cbn [stampReadSigs]. destruct (read_i32 x) as [[a rest]|] eqn:G; [|discriminate].
      eapply within_i32 in G as [Wa Wr]; [|eassumption]. destruct (isSupported a) eqn:S; cbn [negb]; [|apply IH; assumption].
      destruct (getLengthPrefixedSlice rest) as [[sb ?]|] eqn:G2; [|discriminate]. apply (within_lp _ _ _ _ Wr) in G2 as [Ws _].
      apply IH; [assumption|]. apply mset_Forall; auto.
  Qed.
  Lemma stampCandidates_safe sigs maxSdk : forall cand mp, sigs_ok sigs -> sigs_ok (map snd cand) ->
    safe P (stampCandidates sigs maxSdk cand mp) (fun '(cand', _) => sigs_ok (map snd cand')).
  Proof.
    induction sigs as [|[a c] sigs IH]; intros cand mp F C; [exact C|]. inversion F as [|? ? Ha Fs]; subst. cbn [stampCandidates].
    destruct (maxSdk <? getMinSdkVersionJca a); [now apply IH|]. unfold sigs_ok in C. rewrite Forall_map in C.
    apply (safe_bind P _ _ _ any).
    - destruct (zget (getMinSdkVersionJca a) cand) as [[a' d']|] eqn:Z; [|exact I].
      pose proof (mget_Forall _ _ _ _ C Z) as (S & _). destruct Ha as [Sa _]. cbn in S, Sa. destruct (compareAlgos_safe a a' Sa S) as [d ->]. exact I.
    - intros better _ _. apply IH; [assumption|]. unfold sigs_ok. rewrite Forall_map. destruct better; [|assumption]. apply mset_Forall; assumption.
  Qed.
  Lemma stampVerifyAll_safe key data l : forall s, key_in E w key -> sigs_ok l -> safe P (stampVerifyAll E key data l s) any.
  Proof using HS.
    induction l as [|[a sg] l IH]; intros s K F; [exact I|]. inversion F as [|? ? (_ & Wa & Ws) Fs]; subst. cbn [stampVerifyAll].
    eapply safe_bind; [apply verify_in; assumption|]. intros [|] _ _; [now apply IH | exact I].
  Qed.
  Variable S : sched.
  Hypothesis SO : sched_ok S.
  Lemma ord_Forall {A} (Q : A -> Prop) i k l : Forall Q l -> Forall Q (ord S A i k l).
  Proof using SO. intro F. eapply Permutation_Forall; [|exact F]. apply Permutation_sym. apply SO. Qed.
  Lemma filter_safe k minSdk maxSdk sigs s : sigs_ok sigs ->
    safe P (filterSignaturesToVerify S k minSdk maxSdk sigs s) (fun '(l, _) => sigs_ok l).
  Proof using SO.
    intro F. unfold filterSignaturesToVerify. eapply safe_bind; [apply stampCandidates_safe; [apply ord_Forall; exact F | constructor]|].
    intros [cand mp] _ C. destruct cand as [|c0 cand]; [constructor|]. destruct (minSdk <? mp); [constructor|]. cbn [safe].
    unfold sigs_ok in C. rewrite Forall_map in C. apply (ord_Forall _ 11 k) in C. revert C. generalize (ord S _ 11 k (c0 :: cand)). intros l.
    assert (H : forall m, sigs_ok m -> Forall (fun kv : Z * (Z * bytes) => isSupported (fst (snd kv)) = true /\ within (le32 (fst (snd kv))) w /\ within (snd (snd kv)) w) l ->
      sigs_ok (fold_left (fun m kv => zset (fst (snd kv)) (snd (snd kv)) m) l m)).
    { induction l as [|x l IH]; intros m M Fl; [exact M|]. inversion Fl; subst. cbn [fold_left]. apply IH; [|assumption]. now apply mset_Forall. }
    intro Fl. apply H; [constructor | assumption].
  Qed.
  Lemma stampVerifySignature_safe k minSdk maxSdk data c b s : key_in E w (c_key c) -> within b w ->
    safe P (stampVerifySignature E S k minSdk maxSdk data c b s) any.
  Proof using HS SO.
    intros K W. unfold stampVerifySignature. destruct (lpItems b) as [items ok] eqn:L.
    destruct (stampReadSigs items ok [] s) as [m s1] eqn:R. destruct m as [[|x m]|]; [exact I | | exact I].
    apply stampReadSigs_ok in R; [|eapply within_items; eassumption | constructor].
    eapply safe_bind; [apply filter_safe; exact R|]. intros [[|y l] s2] _ F; [exact I|]. apply stampVerifyAll_safe; [assumption|]. now apply ord_Forall.
  Qed.
  Lemma stampLineageNode_safe b last hist : within b w -> last_ok last ->
    safe P (stampLineageNode E b last hist) (fun n => match n with None => True | Some n => last_ok (Some (ln_cert n, ln_algo n)) end).
  Proof using HS.
    intros W L. unfold stampLineageNode.
    destruct (getLengthPrefixedSlice b) as [[sd nb1]|] eqn:G1; [|exact I]. apply (within_lp _ _ _ _ W) in G1 as [W1 W2].
    destruct (read_i32 nb1) as [[fl nb2]|] eqn:G2; [|exact I]. apply (within_i32 _ _ _ _ W2) in G2 as [_ W3].
    destruct (read_i32 nb2) as [[al nb3]|] eqn:G3; [|exact I]. apply (within_i32 _ _ _ _ W3) in G3 as [Wa W4].
    destruct (getLengthPrefixedSlice nb3) as [[sg ?]|] eqn:G4; [|exact I]. apply (within_lp _ _ _ _ W4) in G4 as [W5 _].
    apply (safe_bind P _ _ _ any).
    { destruct last as [[c a]|]; [destruct L; now apply verify_in | exact I]. }
    intros [|] _ _; cbn [negb]; [|exact I].
    destruct (getLengthPrefixedSlice sd) as [[ec sd1]|] eqn:G5; [|exact I]. apply (within_lp _ _ _ _ W1) in G5 as [W6 _].
    destruct (read_i32 sd1) as [[ssa ?]|]; [|exact I].
    destruct (match last with None => false | Some (_, a) => negb (a =? ssa) end); [exact I|].
    destruct (e_cert_andr E ec) as [c|] eqn:K; [|exact I]. destruct (existsb _ hist); [exact I|]. cbn. split; [|assumption].
    exists ec. split; [assumption|]. right. exists c. auto.
  Qed.
  Lemma stampLineageLoop_safe items ok : forall last hist res, Forall (fun x => within x w) items -> last_ok last ->
    safe P (stampLineageLoop E items ok last hist res) any.
  Proof using HS.
    induction items as [|x items IH]; intros last hist res F L; [exact I|]. inversion F; subst. cbn [stampLineageLoop].
    eapply safe_bind; [apply stampLineageNode_safe; [eassumption | exact L]|]. intros [n|] _ Q; [|exact I]. now apply IH.
  Qed.
  Lemma parseStampCertLineage_safe b s : within b w -> safe P (parseStampCertLineage E b s) any.
  Proof using HS.
    intro W. unfold parseStampCertLineage.
    destruct (read_i32 b) as [[v rest]|] eqn:G; [|exact I]. apply (within_i32 _ _ _ _ W) in G as [_ W1].
    destruct (negb (v =? 1)); [exact I|]. destruct (lpItems rest) as [items ok] eqn:L.
    eapply safe_bind; [apply stampLineageLoop_safe; [eapply within_items; eassumption | exact I]|]. intros [?|] _ _; exact I.
  Qed.
  Lemma stampAttrLoop_safe c items ok : forall s, Forall (fun x => within x w) items -> safe P (stampAttrLoop E c items ok s) any.
  Proof using HS.
    induction items as [|x items IH]; intros s F; [destruct ok; exact I|]. inversion F; subst. cbn [stampAttrLoop].
    destruct (read_u32 x) as [[id rest]|] eqn:G; [|exact I]. eapply within_u32 in G as [_ W1]; [|eassumption].
    destruct (id =? sourceStampAttrProofOfRotation).
    { eapply safe_bind; [apply (parseStampCertLineage_safe rest s W1)|]. intros [[|n ns] s1] _ _; [exact I|].
      destruct (cert_equal c _); [now apply IH | exact I]. }
    destruct (id =? sourceStampAttrTime); [|now apply IH]. destruct (read_i64 rest) as [[? ?]|]; [now apply IH | exact I].
  Qed.
  Lemma stampSchemes_within items ok needed : forall found s f' s', Forall (fun x => within x w) items ->
    match found with Some b => within b w | None => True end -> stampSchemes items ok needed found s = (Some f', s') ->
    match f' with Some b => within b w | None => True end.
  Proof.
    induction items as [|x items IH]; intros found s f' s' F Q.
    - cbn. destruct ok; [|discriminate]. intro H. injection H as <- _. exact Q.
    - inversion F; subst. cbn [stampSchemes]. destruct (read_i32 x) as [[a rest]|] eqn:G; [|discriminate].
      eapply within_i32 in G as [_ Wr]; [|eassumption].
      destruct (getLengthPrefixedSlice rest) as [[sb ?]|] eqn:G2; [|discriminate]. apply (within_lp _ _ _ _ Wr) in G2 as [Ws _].
      apply IH; [assumption|]. destruct (a =? needed); assumption.
  Qed.
  Lemma stamp_safe id minSdk maxSdk z block cds : match block with Some b => within b w | None => True end ->
    safe P (verifySourceV2Stamp E S id minSdk maxSdk z block cds) any.
  Proof using HS SO.
    intro W. unfold verifySourceV2Stamp. destruct block as [b|]; [|destruct (sget _ _); exact I].
    destruct (getLengthPrefixedSlice b) as [[sb ?]|] eqn:G1; [|exact I]. apply (within_lp _ _ _ _ W) in G1 as [W1 _].
    destruct (getLengthPrefixedSlice sb) as [[ec sb1]|] eqn:G2; [|exact I]. apply (within_lp _ _ _ _ W1) in G2 as [W2 W3].
    destruct (e_cert_andr E ec) as [c|] eqn:K; [|exact I].
    assert (Kin : key_in E w (c_key c)) by (exists ec; split; [assumption | right; exists c; auto]).
    destruct (sget sourceStampZipEntryName (z_map z)) as [entry|]; [|exact I].
    match goal with |- context [let '(_, _) := ?x in _] => destruct x as [cds1 s1] end.
    destruct (zf_readall entry sourceStampHashSizeLimit) as [h|]; [|exact I].
    destruct (sourceStampHashSizeLimit <=? zlen h); [exact I|]. destruct (negb (bytes_eqb _ h)); [exact I|].
    destruct (getLengthPrefixedSlice sb1) as [[sss sb2]|] eqn:G3; [|exact I]. apply (within_lp _ _ _ _ W3) in G3 as [W4 W5].
    destruct (lpItems sss) as [items ok] eqn:L. destruct (stampSchemes items ok _ None s1) as [found s2] eqn:SS.
    destruct found as [[sigb|]|]; [|exact I..].
    apply stampSchemes_within in SS; [|exact (within_items _ _ _ _ W4 L) | exact I].
    eapply safe_bind; [apply stampVerifySignature_safe; assumption|]. intros [[|] s3] _ _; cbn [negb]; [|exact I].
    destruct sb2 as [|x sb2]; [exact I|]. destruct (getLengthPrefixedSlice (x :: sb2)) as [[ad sb3]|] eqn:G4; [|exact I].
    apply (within_lp _ _ _ _ W5) in G4 as [W6 W7].
    destruct (getLengthPrefixedSlice sb3) as [[as_ ?]|] eqn:G5; [|exact I]. apply (within_lp _ _ _ _ W7) in G5 as [W8 _].
    eapply safe_bind; [apply stampVerifySignature_safe; assumption|]. intros [[|] s4] _ _; cbn [negb]; [|exact I].
    apply (safe_bind P _ _ _ any); [|intros [? ?] _ _; exact I].
    unfold parseStampAttributes. destruct (getLengthPrefixedSlice ad) as [[at_ ?]|] eqn:G6; [|exact I]. apply (within_lp _ _ _ _ W6) in G6 as [W9 _].
    destruct (lpItems at_) as [items' ok'] eqn:L'. apply stampAttrLoop_safe. eapply within_items; eassumption.
  Qed.
End WithEnv.

Lemma safe_and {A} P (m : outcome A) (Q Q' : A -> Prop) : safe P m Q -> (forall a, m = Ret a -> Q' a) -> safe P m (fun a => Q a /\ Q' a).
Proof. destruct m; cbn; auto. Qed.
Lemma mdel_Forall {V} (Q : Z * V -> Prop) k m : Forall Q m -> Forall Q (zdel k m).
Proof. intros F. induction F as [|[k' v'] m Hk F IH]; cbn; [constructor|]. destruct (k =? k'); [assumption | constructor; assumption]. Qed.

(** frosting *)
Lemma frostingLoop_safe E fuel : forall data off pm ps psz limit pos idx, 0 <= pos ->
  safe (bad_frosting data) (frostingLoop E fuel data off pm ps psz limit pos idx) any.
Proof.
  induction fuel as [|fuel IH]; intros data off pm ps psz limit pos idx H0; [exact I|]. cbn [frostingLoop].
  destruct (limit <=? pos); [exact I|]. destruct (readInt32 data pos) as [[nk p1]|] eqn:R1; [|exact I].
  apply readInt32_bound in R1; [|assumption]. cbv zeta.
  destruct (Z.ltb_spec limit (wrap32 (nk + wrap32 p1))); [exact I|]. destruct (Z.leb_spec (wrap32 (nk + wrap32 p1)) 0); [exact I|]. cbn [orb].
  destruct (readInt32 data p1) as [[dis p2]|] eqn:R2; [|exact I].
  pose proof (readInt32_bound data p1 dis p2 ltac:(lia) R2). apply readInt32_inv in R2 as (fl & V1 & D1 & P1); [|lia].
  destruct (_ <? p2); [exact I|]. destruct (Z.eqb_spec dis 0) as [->|]; cbn [negb]; [|apply IH; lia].
  destruct (readInt32 data p2) as [[ki p3]|] eqn:R3; [|exact I].
  apply readInt32_inv in R3 as (ix & V2 & D2 & P2); [|lia].
  destruct (Z.leb_spec (zlen frostingPublicKeys) ki) as [|Lk]; [exact I|]. destruct (negb _); [exact I|].
  destruct (rdRead data p3 32); [|exact I]. destruct (readArrayItem data (off + pm) idx); [|exact I]. destruct (rdRead data off _) as [sd|]; [|exact I].
  destruct (Z.ltb_spec ki 0).
  { exists fl, ix, ki. split; [|auto]. rewrite D2 in D1. rewrite app_assoc in D1. apply (within_trans _ (dropZ p1 data)); [|apply within_dropZ].
    rewrite D1. exists [], (dropZ p3 data). reflexivity. }
  destruct (nth_error frostingPublicKeys (Z.to_nat ki)) as [key|] eqn:N.
  - destruct (frostingVerifySignature E sd _ key) as [u [e|]]; [exact I|]. destruct (rdRead data ps psz); exact I.
  - apply nth_error_None in N. unfold zlen in Lk. cbn in N, Lk. lia.
Qed.
Lemma frostingParse_safe E data : safe (bad_frosting data) (frostingParse E data) any.
Proof.
  unfold frostingParse. destruct (readInt32 data 0) as [[pm off]|] eqn:R0; [|exact I]. apply readInt32_bound in R0; [|lia].
  destruct (_ || _); [exact I|]. destruct (readInt32 data off) as [[psz ps]|] eqn:R1; [|exact I]. apply readInt32_bound in R1; [|lia].
  destruct (Z.leb_spec psz 0); [exact I|]. cbn [orb]. destruct (_ || _); [exact I|].
  destruct (readInt32 data (ps + psz)) as [[ms p]|] eqn:R2; [|exact I]. apply readInt32_bound in R2; [|lia].
  destruct (_ || _); [exact I|]. apply frostingLoop_safe. lia.
Qed.

Section Call.
  Variable E : env.
  Hypothesis HS : hash_sizes_ok E.
  Variable S : sched.
  Hypothesis SO : sched_ok S.
  Variable file : bytes.
  Notation P := (bad_block E file).
  Notation ent := (fun e : Z * bytes => signing_entry file (fst e) (snd e)).

  Lemma bad_sig_block id p : In id [0x7109871a; 0xf05368c0; 0x1b93ad61; 0x6dff800d] -> signing_entry file id p -> bad_signature E p -> P.
  Proof. intros. left. exists id, p. auto. Qed.

  Definition st_ok (st : entries_state) : Prop := Forall ent (en_blocks st) /\ Forall ent (v_extraBlocks (en_res st)).

  Lemma handleEntry_safe maxSdk id p eof st : signing_entry file id p -> st_ok st ->
    safe P (handleEntry E maxSdk id p eof st) (fun r => match r with Some st' => st_ok st' | None => True end).
  Proof.
    intros He [B X]. unfold handleEntry.
    destruct ((id =? blockIdSchemeV2) || (id =? blockIdSchemeV3) || (id =? blockIdSchemeV31)).
    { destruct eof; [exact I|]. cbv zeta. cbn [safe]. split; cbn [en_blocks en_res].
      - destruct (_ || _); [now apply mset_Forall | assumption].
      - destruct (_ || _); cbn [v_extraBlocks]; [now apply mset_Forall | assumption]. }
    destruct (id =? blockIdVerityPadding); [now split|].
    destruct (Z.eqb_spec id blockIdFrosting) as [->|].
    { destruct eof; [exact I|]. eapply safe_bind.
      - eapply safe_weaken; [|intros a Q; exact Q | apply frostingParse_safe]. intro BF. right. exists p. auto.
      - intros [f fe] _ _. split; assumption. }
    destruct (id =? blockIdSourceStampV2); (destruct eof; [exact I|]); (split; [|]); cbn [en_blocks en_res v_extraBlocks]; try assumption; now apply mset_Forall.
  Qed.

  Lemma entriesLoop_safe maxSdk before pairs0 cd rec : apk file before pairs0 cd rec -> forall fuel pairs done st,
    pairs0 = enc_entries done ++ pairs -> Forall entry_fits done -> st_ok st ->
    safe P (entriesLoop E fuel maxSdk pairs st) (fun '(st', _) => st_ok st').
  Proof.
    intros A. induction fuel as [|fuel IH]; intros pairs done st Ep F Ok.
    - destruct pairs; exact Ok.
    - destruct pairs as [|b pairs]; [exact Ok|]. cbn [entriesLoop]. set (ps := b :: pairs) in *.
      destruct (nextEntry ps) as [|id p eof rest] eqn:N; [exact Ok|]. apply nextEntry_inv in N as (Eps & Fe & _).
      assert (Ed : pairs0 = enc_entries (done ++ [(id, p)]) ++ rest).
      { rewrite Ep, Eps. unfold enc_entries. rewrite flat_map_app. cbn [flat_map]. now rewrite app_nil_r, <- app_assoc. }
      assert (Fd : Forall entry_fits (done ++ [(id, p)])) by (apply Forall_app; auto).
      eapply safe_bind; [apply handleEntry_safe; [|exact Ok]|].
      + exists before, pairs0, cd, rec, (done ++ [(id, p)]), rest. split; [exact A|]. split; [exact Ed|]. split; [exact Fd|]. apply in_or_app. right. now left.
      + intros [st'|] _ Q; [|exact Ok]. now apply (IH rest (done ++ [(id, p)])).
  Qed.

  Definition find_ok (fr : find_result) : Prop :=
    match fr with
    | FindErr st None => v_frosting (en_res st) = None
    | FindErr st (Some s) | FindOk st s => st_ok st /\ exists before pairs cd rec, apk file before pairs cd rec /\ s = sblock_of before pairs cd rec
    end.
  Lemma find_safe maxSdk : safe P (findSignatureBlocks E file maxSdk) find_ok.
  Proof.
    unfold findSignatureBlocks. destruct (findEocd file) as [ei| | | |] eqn:F; try reflexivity.
    destruct (isZip64 file (ei_eocdOffset ei)) eqn:Z; [reflexivity|].
    destruct (findApkSigningBlock file (ei_centralDirOffset ei)) as [blk off| |] eqn:B; try reflexivity.
    pose proof B as B'. apply findApkSigningBlock_iff in B' as (pairs & -> & _). rewrite signing_block_pairs.
    destruct (proj1 (find_apk file ei pairs off) (conj F (conj Z B))) as (before & cd & rec & A & -> & ->).
    eapply safe_bind; [eapply entriesLoop_safe with (done := []); [exact A | reflexivity | constructor | split; constructor]|].
    intros [st [|]] _ Ok; (split; [exact Ok|]); exists before, pairs, cd, rec; split; auto.
  Qed.

  Lemma frostingVerifyApk_safe f v2 before pairs cd rec : apk file before pairs cd rec ->
    exists e, frostingVerifyApk E f file (zlen before) v2 (zlen (before ++ signing_block pairs)) (zlen cd) rec = Ret e.
  Proof.
    intro A. pose proof (apk_bounds _ _ _ _ _ A) as (B1 & B2 & [B3 B4] & B5). unfold frostingVerifyApk.
    destruct (hashFileSection file 0 _); [|eauto]. destruct (hashFileSection file _ _); [|eauto].
    destruct (patched_exists rec (zlen before)) as (rec' & Pa & _ & Cp); [lia|]. change eocdCentralDirOffsetOffset with 16. rewrite Cp. cbn [obind].
    destruct (bytes_eqb _ _); eauto.
  Qed.
  Lemma applyFrosting_safe st s : match s with None => True | Some s => exists before pairs cd rec, apk file before pairs cd rec /\ s = sblock_of before pairs cd rec end ->
    safe P (applyFrosting E file st s) (fun res => v_extraBlocks res = v_extraBlocks (en_res st)).
  Proof.
    intro Hs. unfold applyFrosting. destruct (en_frosting st); [|reflexivity]. destruct (v_frosting (en_res st)) as [fr|]; [|reflexivity].
    destruct s as [s|]; [|reflexivity]. destruct (fr_error fr); [reflexivity|]. destruct Hs as (before & pairs & cd & rec & A & ->).
    unfold sblock_of. cbn [sb_offset sb_eocd ei_centralDirOffset ei_centralDirSize ei_eocd].
    match goal with |- context [frostingVerifyApk E ?f file _ ?v _ _ _] => destruct (frostingVerifyApk_safe f v _ _ _ _ A) as [e ->] end. reflexivity.
  Qed.

  Lemma v3Finalize_ret srt cfg sigs a b r : exists r', v3FinalizeWith srt cfg sigs a b r = Ret r'.
  Proof.
    unfold v3FinalizeWith. cbv zeta. destruct (v3RangeLoop _ _ _ _ _ _) as [[[f m] ls] r1].
    match goal with |- context [signingLineage ?x] => destruct (signingLineage x) end; [eauto|].
    destruct (consolidate_spec ls) as ([l|u] & -> & _); cbn; eauto.
  Qed.
  Lemma finalizeScheme_ret st a b res : exists r, finalizeScheme S st a b res = Ret r /\ v_extraBlocks r = v_extraBlocks res.
  Proof.
    destruct st as [|sigs|st]; cbn [finalizeScheme]; [eauto | |].
    - match goal with |- context [v3FinalizeWith ?s ?c ?g ?x ?y ?z] => destruct (v3Finalize_ret s c g x y z) as [r ->] end. cbn. eauto.
    - unfold v31FinalizeWith. cbv zeta.
      match goal with |- context [v3FinalizeWith ?s ?c ?g ?x ?y ?z] => destruct (v3Finalize_ret s c g x y z) as [r ->] end. cbn [obind].
      destruct (v_extraResult3 res); [|cbn; eauto].
      match goal with |- context [v3FinalizeWith ?s ?c ?g ?x ?y ?z] => destruct (v3Finalize_ret s c g x y z) as [r' ->] end. cbn. eauto.
  Qed.

  Lemma fold_digs l : forall m, digs_ok l -> digs_ok m -> digs_ok (fold_left (fun m (kv : Z * bytes) => zset (fst kv) (snd kv) m) l m).
  Proof.
    induction l as [|[k v] l IH]; intros m [N K] M; [exact M|]. cbn [fold_left]. apply IH.
    - inversion N; subst. split; [assumption|]. intros a Ha. apply K. now right.
    - destruct (K k) as [kd ->]; [now left|]. now apply digs_set.
  Qed.

  Lemma extractCertsScheme_safe sid maxSdk b res : (sid = schemeIdV31 /\ signing_entry file blockIdSchemeV31 b \/ sid = schemeIdV3 /\ signing_entry file blockIdSchemeV3 b \/
       sid = schemeIdV2 /\ signing_entry file blockIdSchemeV2 b) -> Forall ent (v_extraBlocks res) ->
    safe P (extractCertsScheme E sid maxSdk b res) (fun '(_, cds, res') => digs_ok cds /\ v_extraBlocks res' = v_extraBlocks res).
  Proof using HS.
    intros Hb X.
    assert (P3 : forall b cfg cds r id, In id [0x7109871a; 0xf05368c0; 0x1b93ad61; 0x6dff800d] -> signing_entry file id b -> digs_ok cds ->
              safe P (v3ParseSigners E cfg b cds r) (fun '(_, cds', _) => digs_ok cds')).
    { intros b0 cfg cds r id Hi He D. eapply safe_weaken; [|intros a Q; exact Q | apply (v3ParseSigners_safe E HS b0); [apply within_refl | exact D]].
      now apply (bad_sig_block id). }
    unfold extractCertsScheme. destruct Hb as [[-> He]|[[-> He]|[-> He]]].
    - cbn [Z.eqb schemeIdV31 Pos.eqb]. unfold v31ParseSigners.
      apply (safe_bind P _ _ _ (fun '(_, cds, _, _) => digs_ok cds)).
      + eapply safe_bind; [apply (P3 _ _ _ _ blockIdSchemeV31); [cbn; tauto | exact He | apply digs_nil]|].
        intros [[sigs cds31] r1] _ D. cbv zeta. destruct (zget blockIdSchemeV3 (v_extraBlocks res)) as [b3|] eqn:Z3.
        * eapply safe_bind; [apply (P3 _ _ _ _ blockIdSchemeV3); [cbn; tauto | exact (mget_Forall _ _ _ _ X Z3) | apply digs_nil]|].
          intros [[s3 cds3] r3] _ D3. exact D3.
        * apply fold_digs; [assumption | apply digs_nil].
      + intros [[[st cds] c] extra] _ D. split; [exact D | reflexivity].
    - cbn [Z.eqb schemeIdV31 schemeIdV3 Pos.eqb].
      eapply safe_bind; [apply (P3 _ _ _ _ blockIdSchemeV3); [cbn; tauto | exact He | apply digs_nil]|]. intros [[s cds] c] _ D. split; [exact D | reflexivity].
    - cbn [Z.eqb schemeIdV31 schemeIdV3 schemeIdV2 Pos.eqb].
      eapply safe_bind; [eapply safe_weaken; [|intros a Q; exact Q | apply (v2ParseSigners_safe E HS b); [apply within_refl | apply digs_nil]]|].
      + apply (bad_sig_block blockIdSchemeV2); [cbn; tauto | assumption].
      + intros [cds c] _ D. split; [exact D | reflexivity].
  Qed.

  Lemma verifyScheme_safe k before pairs cd rec sid b minSdk maxSdk res : apk file before pairs cd rec ->
    (sid = schemeIdV31 /\ signing_entry file blockIdSchemeV31 b \/ sid = schemeIdV3 /\ signing_entry file blockIdSchemeV3 b \/
       sid = schemeIdV2 /\ signing_entry file blockIdSchemeV2 b) -> Forall ent (v_extraBlocks res) ->
    safe P (verifyScheme E S k file (sblock_of before pairs cd rec) sid b minSdk maxSdk res) (fun '(_, res') => v_extraBlocks res' = v_extraBlocks res).
  Proof using HS SO.
    intros A Hb X. unfold verifyScheme. eapply safe_bind; [now apply extractCertsScheme_safe|]. intros [[st cds] res1] _ [D Q].
    destruct (certs (v_core res1)); [exact Q|]. destruct cds as [|c0 cds]; [exact Q|]. set (m := c0 :: cds) in *.
    destruct (protected_exists _ _ _ _ _ A) as (sections & Pr).
    destruct (verifyIntegrity_spec E HS _ _ _ _ _ _ (ord S _ 1 k (map fst m)) m (v_core res1) A Pr (proj1 D) (ord_perm S SO _ _ _ _)) as (e & good & V & _).
    { discriminate. }
    { intros a d Ha. apply (proj2 D). apply zget_key. eauto. }
    unfold sblock_of. cbn [sb_eocd sb_offset]. rewrite V. cbn [obind]. destruct good; cbn [negb]; [|exact Q].
    match goal with |- context [finalizeScheme S st minSdk maxSdk ?r] => destruct (finalizeScheme_ret st minSdk maxSdk r) as (r' & -> & Qr) end.
    cbn [obind safe]. rewrite Qr. exact Q.
  Qed.

  Lemma pickAndVerify_safe k before pairs cd rec blocks minSdk maxSdk res : apk file before pairs cd rec -> Forall ent blocks -> Forall ent (v_extraBlocks res) ->
    safe P (pickAndVerify E S k file (sblock_of before pairs cd rec) blocks minSdk maxSdk res) (fun '(_, res') => v_extraBlocks res' = v_extraBlocks res).
  Proof using HS SO.
    intros A B X. unfold pickAndVerify. destruct (negb (SupportsSigV2 maxSdk)); [reflexivity|]. unfold pickScheme.
    destruct (zget blockIdSchemeV31 blocks) as [b|] eqn:Z31.
    { apply (verifyScheme_safe k before pairs cd rec schemeIdV31 b minSdk maxSdk (setScheme res schemeIdV31)); auto. left. split; [reflexivity|]. exact (mget_Forall _ _ _ _ B Z31). }
    destruct (zget blockIdSchemeV3 blocks) as [b|] eqn:Z3.
    { apply (verifyScheme_safe k before pairs cd rec schemeIdV3 b minSdk maxSdk (setScheme res schemeIdV3)); auto. right. left. split; [reflexivity|]. exact (mget_Forall _ _ _ _ B Z3). }
    destruct (zget blockIdSchemeV2 blocks) as [b|] eqn:Z2.
    { apply (verifyScheme_safe k before pairs cd rec schemeIdV2 b minSdk maxSdk (setScheme res schemeIdV2)); auto. right. right. split; [reflexivity|]. exact (mget_Forall _ _ _ _ B Z2). }
    reflexivity.
  Qed.

  Lemma fallback_safe before pairs cd rec blocks minSdk maxSdk cds res : apk file before pairs cd rec -> Forall ent blocks -> Forall ent (v_extraBlocks res) ->
    safe P (fallback E S file (sblock_of before pairs cd rec) blocks minSdk maxSdk cds res) any.
  Proof using HS SO.
    intros A B X. unfold fallback. destruct (_ && _ && _ && _); [|exact I].
    eapply safe_weaken; [intro H; exact H | intros; exact I |]. apply pickAndVerify_safe; [assumption | now apply mdel_Forall|]. cbn [v_extraBlocks].
    destruct (zget blockIdSchemeV3 blocks) as [b|] eqn:Z3; [apply mset_Forall; [exact (mget_Forall _ _ _ _ B Z3) | assumption] | now apply mdel_Forall].
  Qed.

  Theorem verifySigningBlock_safe minSdk maxSdk z : safe P (verifySigningBlock E S file minSdk maxSdk z) any.
  Proof using HS SO.
    unfold verifySigningBlock. destruct (newSigningBlock file); [|exact I]. eapply safe_bind; [apply find_safe|].
    intros [st s|st s] _ Ok.
    - eapply safe_bind; [apply applyFrosting_safe; destruct s; [apply Ok | exact I]|]. intros; exact I.
    - destruct Ok as ([B X] & before & pairs & cd & rec & A & ->).
      eapply safe_bind; [apply applyFrosting_safe; exists before, pairs, cd, rec; auto|]. intros res _ Q.
      eapply safe_bind; [apply (pickAndVerify_safe 0 before pairs cd rec (en_blocks st) minSdk maxSdk res); rewrite ?Q; assumption|]. intros [cds res1] _ Q1.
      eapply safe_bind; [apply fallback_safe; [assumption | assumption | rewrite Q1, Q; assumption]|]. intros [cds2 res2] _ _.
      eapply safe_bind; [|intros; exact I]. destruct (zget blockIdSourceStampV2 (en_blocks st)) as [b|] eqn:Zs.
      + eapply safe_weaken; [|intros a Qa; exact Qa | apply (stamp_safe E HS b S SO); apply within_refl].
        apply (bad_sig_block blockIdSourceStampV2); [cbn; tauto|]. exact (mget_Forall _ _ _ _ B Zs).
      + unfold verifySourceV2Stamp. destruct (sget _ _); exact I.
  Qed.

  Theorem extractCertsReader_safe minSdk maxSdk : safe P (extractCertsReader E file minSdk maxSdk) any.
  Proof using HS.
    unfold extractCertsReader. destruct (newSigningBlock file); [|exact I]. eapply safe_bind; [apply find_safe|].
    intros [st s|st s] _ Ok; [exact I|]. destruct Ok as ([B X] & _). unfold pickScheme.
    assert (H : forall id b, (id = schemeIdV31 /\ signing_entry file blockIdSchemeV31 b \/ id = schemeIdV3 /\ signing_entry file blockIdSchemeV3 b \/
       id = schemeIdV2 /\ signing_entry file blockIdSchemeV2 b) -> safe P ('(_, _, res) <- extractCertsScheme E id maxSdk b (setScheme (en_res st) id) ;;
                Ret (certs (v_core res), getLastError (v_core res))) any).
    { intros id b Hb. eapply safe_bind; [apply extractCertsScheme_safe; [exact Hb | exact X]|]. intros [[? ?] ?] _ _. exact I. }
    destruct (zget blockIdSchemeV31 (en_blocks st)) as [b|] eqn:Z31; [apply H; left; split; [reflexivity|]; exact (mget_Forall _ _ _ _ B Z31)|].
    destruct (zget blockIdSchemeV3 (en_blocks st)) as [b|] eqn:Z3; [apply H; right; left; split; [reflexivity|]; exact (mget_Forall _ _ _ _ B Z3)|].
    destruct (zget blockIdSchemeV2 (en_blocks st)) as [b|] eqn:Z2; [apply H; right; right; split; [reflexivity|]; exact (mget_Forall _ _ _ _ B Z2)|].
    exact I.
  Qed.
End Call.
