(** When the JAR signature makes the verifier panic *)
From Coq Require Import String.
From Coq Require Import Lia Permutation.
From Verif.Model Require Import Bytes Env ApiLevel GoStrings Manifest PkixName SchemeV1.
From Verif.Spec Require Import Encoding Digests Nondet JarManifest JarSigned Panics.
From Verif.Proofs Require Import BytesFacts GoStringsFacts ManifestPanic V1SigFacts V1FilesFacts PanicBlock.

Lemma sset_Forall {V} (Q : bytes * V -> Prop) k v m : Q (k, v) -> Forall Q m -> Forall Q (sset k v m).
Proof. intros H F. induction F as [|[k' v'] m Hk F IH]; cbn; [auto|]. destruct (bytes_eqb k k'); constructor; auto. Qed.
Lemma sdel_Forall {V} (Q : bytes * V -> Prop) k m : Forall Q m -> Forall Q (sdel k m).
Proof. intros F. induction F as [|[k' v'] m Hk F IH]; cbn; [constructor|]. destruct (bytes_eqb k k'); [assumption | constructor; assumption]. Qed.
Lemma sget_Forall {V} (Q : bytes * V -> Prop) k v m : Forall Q m -> sget k m = Some v -> Q (k, v).
Proof.
  intros F H. apply (BytesFacts.mget_in bytes_eqb bytes_eqb_eq) in H. rewrite Forall_forall in F. exact (F _ H).
Qed.

Section WithEnv.
  Variable E : env.
  Variable S : sched.
  Hypothesis SO : sched_ok S.
  Variable apk : zip.
  Notation P := (bad_jar E apk).

  Lemma parseManifest_safe f wc : manifest_file apk f -> safe P (parseManifest f wc) any.
  Proof.
    intro M. unfold parseManifest. destruct (zf_open_ok f); [|exact I].
    assert (H : forall l, incl l (zf_streams f) -> safe P (parseStreams wc l) any); [|apply H; apply incl_refl].
    induction l as [|[d|] l IH]; intro Hi; cbn [parseStreams]; [exact I | | apply IH; eapply incl_cons_inv; exact Hi].
    eapply safe_bind.
    - instantiate (1 := any). destruct (parseBytes wc d) as [r|q] eqn:Q; [exact I|]. apply parseBytes_panic in Q.
      apply (BadManifest E apk f d M); [apply Hi; now left | exact Q].
    - intros [m|e] _ _; [exact I|]. apply IH. eapply incl_cons_inv; exact Hi.
  Qed.

  Lemma ext_no_slash ext : In ext [s2b ".RSA"; s2b ".DSA"; s2b ".EC"; s2b ".SF"] -> exists e, ext = "."%byte :: e /\ ~ In "/"%byte e /\ ~ In "."%byte e.
  Proof.
    intro H. repeat (destruct H as [<-|H]; [eexists; split; [reflexivity|]; split; intro Hi; repeat (destruct Hi as [Hi|Hi]; [discriminate|]); destruct Hi|]). destruct H.
  Qed.

  Definition sigs0_ok (m : list (bytes * v1sig0)) : Prop :=
    Forall (fun kv => forall p, s0_cert (snd kv) = Some p -> exists f raw, block_file apk f /\ In (Some raw) (zf_streams f) /\ e_pkcs7 E raw = Ret (Some p)) m.

  Lemma scanFiles_safe l : forall man blocks sfs, incl l (z_ordered apk) -> Forall (block_file apk) blocks -> Forall (fun kv => manifest_file apk (snd kv)) sfs ->
    safe P (scanFiles l man blocks sfs) (fun r => match r with None => True | Some (_, bs, ss) => Forall (block_file apk) bs /\ Forall (fun kv => manifest_file apk (snd kv)) ss end).
  Proof.
    induction l as [|f l IH]; intros man blocks sfs Hi B F; [split; assumption|]. cbn [scanFiles].
    assert (Hf : In f (z_ordered apk)) by (apply Hi; now left).
    assert (Hl : incl l (z_ordered apk)) by (eapply incl_cons_inv; exact Hi).
    destruct (hasPrefix (zf_name f) metaInf) eqn:Hp; cbn [negb]; [|now apply IH].
    apply hasPrefix_iff in Hp as [nm Hn].
    destruct (bytes_eqb (zf_name f) (s2b "META-INF/MANIFEST.MF")) eqn:Hm.
    { apply bytes_eqb_eq in Hm. destruct man; [exact I|].
      eapply safe_bind; [apply parseManifest_safe; split; [assumption | now left]|]. intros [m|] _ _; [now apply IH | exact I]. }
    assert (Sx : forall ext, In ext [s2b ".RSA"; s2b ".DSA"; s2b ".EC"; s2b ".SF"] -> hasSuffix (zf_name f) ext = true -> exists x, zf_name f = s2b "META-INF/" ++ x ++ ext).
    { intros ext He Hs. apply hasSuffix_iff in Hs as [r Hr]. rewrite Hn in Hr. change metaInf with (s2b "META-INF/") in *.
      assert (L : zlen ext <= zlen nm).
      { destruct (ext_no_slash ext He) as (e & -> & Ns & _). destruct (Z_le_gt_dec (zlen ("."%byte :: e)) (zlen nm)) as [|G]; [assumption|]. exfalso.
        assert (Hin : In "/"%byte ("."%byte :: e)).
        { assert (Q : dropZ (zlen r) (s2b "META-INF/" ++ nm) = "."%byte :: e) by (rewrite Hr; now apply dropZ_app).
          rewrite <- Q. assert (Lr : zlen r <= 8).
          { apply (f_equal (@zlen byte)) in Hr. rewrite !zlen_app in Hr. change (zlen (s2b "META-INF/")) with 9 in Hr. lia. }
          pose proof (zlen_nonneg r).
          assert (D : zlen r = 0 \/ zlen r = 1 \/ zlen r = 2 \/ zlen r = 3 \/ zlen r = 4 \/ zlen r = 5 \/ zlen r = 6 \/ zlen r = 7 \/ zlen r = 8) by lia.
          repeat (destruct D as [D|D]; [rewrite D; cbn; intuition|]). rewrite D. cbn. intuition. }
        destruct Hin as [Hin|Hin]; [discriminate | now apply Ns]. }
      exists (takeZ (zlen nm - zlen ext) nm). rewrite Hn. f_equal.
      rewrite <- (take_drop (zlen nm - zlen ext) nm) at 1. f_equal.
      rewrite <- (dropZ_app r ext (zlen r)) at 2 by reflexivity. rewrite <- Hr.
      apply (f_equal (@zlen byte)) in Hr. rewrite !zlen_app in Hr.
      rewrite !dropZ_skipn. rewrite skipn_app. pose proof (zlen_nonneg nm). pose proof (zlen_nonneg ext).
      rewrite (skipn_all2 (s2b "META-INF/")) by (unfold zlen in *; lia). cbn [app]. f_equal. unfold zlen in *. lia. }
    destruct (hasSuffix (zf_name f) (s2b ".RSA") || hasSuffix (zf_name f) (s2b ".DSA") || hasSuffix (zf_name f) (s2b ".EC")) eqn:Hb.
    { apply IH; [assumption | | assumption]. apply Forall_app. split; [assumption|]. constructor; [|constructor]. split; [assumption|].
      apply orb_prop in Hb as [Hb|Hb]; [apply orb_prop in Hb as [Hb|Hb]|]; (apply Sx in Hb as [x Hx]; [|cbn; tauto]); exists x; [exists (s2b ".RSA") | exists (s2b ".DSA") | exists (s2b ".EC")]; cbn; auto. }
    destruct (hasSuffix (zf_name f) (s2b ".SF")) eqn:Hs; [|now apply IH].
    apply IH; [assumption | assumption|]. destruct (sget (zf_name f) sfs); [assumption|]. apply sset_Forall; [|assumption]. split; [assumption|]. right. apply (Sx (s2b ".SF")); [cbn; tauto | assumption].
  Qed.

  Lemma signaturePrefix_safe base e : ~ In "/"%byte e -> ~ In "."%byte e -> exists p, signaturePrefix (base ++ "."%byte :: e) = Ret p.
  Proof. intros A B. rewrite signaturePrefix_ext by assumption. eauto. Qed.

  Lemma block_name f : block_file apk f -> exists base e, zf_name f = base ++ "."%byte :: e /\ ~ In "/"%byte e /\ ~ In "."%byte e.
  Proof.
    intros (_ & x & ext & He & ->). destruct (ext_no_slash ext) as (e & -> & A & B); [cbn in *; tauto|]. exists (s2b "META-INF/" ++ x), e. split; [now rewrite app_assoc|]. auto.
  Qed.

  Lemma sget_sig0 k m s p : sigs0_ok m -> (match sget k m with Some s => s | None => emptySig0 end) = s -> s0_cert s = Some p ->
    exists f raw, block_file apk f /\ In (Some raw) (zf_streams f) /\ e_pkcs7 E raw = Ret (Some p).
  Proof.
    intros F H Hp. destruct (sget k m) as [s'|] eqn:G; subst s; [|discriminate]. exact (sget_Forall _ _ _ _ F G p Hp).
  Qed.

  Lemma addSignatureBlock_safe f sigs : block_file apk f -> sigs0_ok sigs ->
    safe P (addSignatureBlock E f sigs) (fun r => match r with None => True | Some s => sigs0_ok s end).
  Proof.
    intros B F. unfold addSignatureBlock. destruct (zf_open_ok f); cbn [negb]; [|exact I].
    apply (safe_bind P _ _ _ (fun r => match r with None => True | Some p => exists raw, In (Some raw) (zf_streams f) /\ e_pkcs7 E raw = Ret (Some p) end)).
    - assert (H : forall l, incl l (zf_streams f) -> safe P (parseBlockStreams E l) (fun r => match r with None => True | Some p => exists raw, In (Some raw) (zf_streams f) /\ e_pkcs7 E raw = Ret (Some p) end));
        [|apply H; apply incl_refl].
      induction l as [|[d|] l IH]; intro Hi; cbn [parseBlockStreams]; [exact I | | apply IH; eapply incl_cons_inv; exact Hi].
      destruct (e_pkcs7 E d) as [[p|]|q] eqn:Q; cbn [obind safe].
      + exists d. split; [apply Hi; now left | assumption].
      + apply IH. eapply incl_cons_inv; exact Hi.
      + apply (BadBlock E apk f d q B); [apply Hi; now left | assumption].
    - intros [p|] _ Hp; [|exact I]. destruct (block_name f B) as (base & e & -> & N1 & N2).
      destruct (signaturePrefix_safe base e N1 N2) as [pre ->]. cbn [obind safe]. apply sset_Forall; [|exact F].
      cbn [snd s0_cert]. intros p' Hp'. injection Hp' as <-. destruct Hp as (raw & Hi & Hr). exists f, raw. auto.
  Qed.
  Lemma addSignatureFile_safe base f sigs : manifest_file apk f -> sigs0_ok sigs ->
    safe P (addSignatureFile (base ++ s2b ".SF") f sigs) (fun '(s, _) => sigs0_ok s).
  Proof.
    intros M F. unfold addSignatureFile.
    destruct (ext_no_slash (s2b ".SF")) as (e & He & N1 & N2); [cbn; tauto|]. rewrite He.
    destruct (signaturePrefix_safe base e N1 N2) as [pre ->]. cbn [obind].
    eapply safe_bind; [now apply parseManifest_safe|]. intros m _ _. cbn [safe]. apply sset_Forall; [|exact F]. cbn [snd s0_cert].
    intros p Hp. eapply sget_sig0; [exact F | reflexivity | exact Hp].
  Qed.
  Lemma blocksLoop_safe l : forall sfs sigs, Forall (block_file apk) l -> Forall (fun kv => manifest_file apk (snd kv)) sfs -> sigs0_ok sigs ->
    safe P (blocksLoop E l sfs sigs) (fun r => match r with None => True | Some s => sigs0_ok s end).
  Proof.
    induction l as [|f l IH]; intros sfs sigs B F G; [exact G|]. inversion B as [|? ? Bf Bl]; subst. cbn [blocksLoop].
    destruct (cutLast (zf_name f) "."%byte) as [[base e]|] eqn:C.
    2:{ exfalso. destruct (block_name f Bf) as (base & e & Hn & _). apply cutLast_none in C. apply C. rewrite Hn. apply in_or_app. right. now left. }
    cbv zeta. destruct (sget (base ++ s2b ".SF") sfs) as [sf|] eqn:Sf; [|now apply IH].
    eapply safe_bind; [now apply addSignatureBlock_safe|]. intros [sigs'|] _ Q; [|exact I].
    eapply safe_bind; [apply addSignatureFile_safe; [exact (sget_Forall _ _ _ _ F Sf) | exact Q]|]. intros [sigs'' ok] _ Q2.
    apply IH; [assumption | destruct ok; [now apply sdel_Forall | assumption] | assumption].
  Qed.

  Definition sigs_ok (m : list (bytes * v1sig)) : Prop :=
    Forall (fun kv => exists f raw, block_file apk f /\ In (Some raw) (zf_streams f) /\ e_pkcs7 E raw = Ret (Some (sg_p7 (snd kv)))) m.
  Lemma newSchemeV1_safe : safe P (newSchemeV1 E apk) (fun r => match r with None => True | Some p => sigs_ok (v1_sigs p) end).
  Proof.
    unfold newSchemeV1. eapply safe_bind; [apply scanFiles_safe; [apply incl_refl | constructor | constructor]|].
    intros [[[man blocks] sfs]|] _ Q; [|exact I]. destruct Q as [B F].
    eapply safe_bind; [apply blocksLoop_safe; [exact B | exact F | constructor]|]. intros [sigs|] _ G; [|exact I].
    destruct man as [m|]; [|exact I].
    assert (H : sigs_ok (prepSigs sigs)).
    { clear -G. induction G as [|[k s] l Hk Gl IH]; [constructor|]. unfold prepSigs in *. cbn [flat_map]. apply Forall_app. split; [|exact IH].
      cbn [fst snd] in *. destruct (s0_cert s) as [c|] eqn:C; [|constructor]. destruct (s0_manifest s); [|constructor]. constructor; [|constructor]. cbn. auto. }
    destruct (prepSigs sigs); [exact I | exact H].
  Qed.

  Lemma checkSignature_safe c algo signed sg : safe (In algo [7; 8; 65536] /\ forall k q, c_key c <> KDsa k q) (checkSignature E c algo signed sg) any.
  Proof.
    unfold checkSignature. destruct (algo =? aMD5WithRSA); [exact I|]. destruct (algo =? aSHA224WithRSA); [exact I|].
    destruct ((algo =? aDSAWithSHA1) || (algo =? aDSAWithSHA224) || (algo =? aDSAWithSHA256)) eqn:D.
    - assert (Ha : In algo [7; 8; 65536]).
      { apply orb_prop in D as [D|D]; [apply orb_prop in D as [D|D]|]; apply Z.eqb_eq in D; subst algo; cbn; tauto. }
      destruct (c_key c); try exact I; (split; [exact Ha | discriminate]).
    - destruct (algo =? aECDSAWithSHA224); exact I.
  Qed.

  Lemma verifySigner_safe sig info maxSdk : (exists f raw, block_file apk f /\ In (Some raw) (zf_streams f) /\ e_pkcs7 E raw = Ret (Some (sg_p7 sig))) ->
    In info (p7_signers (sg_p7 sig)) -> safe P (verifySigner E S sig info maxSdk) any.
  Proof.
    intros (f & raw & Bf & Hr & Hp) Hi. unfold verifySigner. destruct (ps_issuer info) as [iss|]; [|exact I]. cbv zeta.
    destruct (find _ (p7_certs (sg_p7 sig))) as [c|] eqn:Fd; [|exact I]. apply find_some in Fd as [Hc Hs]. apply andb_prop in Hs as [Hs _]. apply Z.eqb_eq in Hs.
    assert (BS : block_signer E apk info c) by (exists f, raw, (sg_p7 sig); repeat (split; [assumption|]); congruence).
    destruct (c_unhandled_critical c); [exact I|].
    destruct (mget oidpair_eqb (ps_digest_alg info, ps_enc_alg info) oidToAlgo) as [algo|] eqn:L.
    2:{ apply (UnknownAlgorithm E apk info c BS). intros algo Ha. apply algo_lookup in Ha. congruence. }
    apply algo_lookup in L.
    assert (Fin : forall data, safe P (r <- checkSignature E c algo data (ps_enc_digest info) ;; Ret (match r with Some e => SContinue e | None => SVerified c end)) any).
    { intro data. eapply safe_bind; [|intros; exact I]. eapply safe_weaken; [|intros a Q; exact Q | apply checkSignature_safe].
      intros [A B]. now apply (DsaWithoutDsaKey E apk info c algo BS). }
    destruct (ps_auth_attrs info) as [|a0 attrs]; [apply Fin|].
    match goal with |- context [match ?x with Some s => Ret s | None => _ end] => destruct x end; [exact I|].
    destruct (unmarshalSignedAttribute (e_asn1_octets E) _ _); [|exact I]. destruct (getHashForOID _); [|exact I].
    destruct (negb _); [exact I|]. destruct (e_marshal_attrs E _); [apply Fin | exact I].
  Qed.

  Lemma verifySignature_safe sig minSdk maxSdk : (exists f raw, block_file apk f /\ In (Some raw) (zf_streams f) /\ e_pkcs7 E raw = Ret (Some (sg_p7 sig))) ->
    safe P (SchemeV1.verifySignature E S sig minSdk maxSdk) any.
  Proof.
    intro Hp. unfold SchemeV1.verifySignature. destruct (p7_signers (sg_p7 sig)) as [|s0 ss] eqn:Q; [exact I|]. cbv zeta.
    assert (H : forall l first, incl l (p7_signers (sg_p7 sig)) -> safe P (signersLoop E S sig l maxSdk first) any).
    { induction l as [|i l IH]; intros first Hi; [exact I|]. cbn [signersLoop].
      eapply safe_bind; [apply verifySigner_safe; [exact Hp | apply Hi; now left]|]. intros [ch e|e|c] _ _; [exact I | |]; apply IH; eapply incl_cons_inv; exact Hi. }
    eapply safe_bind; [apply H|intros; exact I]. rewrite Q. destruct (minSdk <? V7_0_Nougat); [|apply incl_refl]. intros x [<-|[]]. now left.
  Qed.

  Lemma verifyManifestEntry_safe (P0 : Prop) at_ suffix minSdk maxSdk v : (forall hash h, safe P0 (v hash h) any) ->
    safe P0 (verifyManifestEntry E at_ suffix minSdk maxSdk v) any.
  Proof.
    intro H. unfold verifyManifestEntry. destruct (getDigestsToVerify E at_ suffix minSdk maxSdk) as [|a l]; [exact I|].
    generalize (a :: l). clear a l. induction l as [|a l IH]; [exact I|]. cbn [checkDigests].
    destruct (e_base64 E _); [|exact I]. destruct (digestHasher a); [|exact I]. eapply safe_bind; [apply H|]. intros [?|] _ _; [exact I | exact IH].
  Qed.

  Lemma verifySignatureFile_safe man k sig hv minSdk maxSdk : safe P (verifySignatureFile E S man k sig hv minSdk maxSdk) any.
  Proof.
    unfold verifySignatureFile. cbv zeta. match goal with |- context [if ?b then Ret (VReturn _) else _] => destruct b end; [exact I|].
    destruct (negb _); [exact I|]. apply (safe_bind P _ _ _ any).
    { destruct (_ && _); [|exact I]. apply verifyManifestEntry_safe. intros; exact I. }
    intros [[|m]|] _ _; try exact I;
      (eapply safe_bind; [apply verifyManifestEntry_safe; intros; exact I|]; intros err _ _; apply (safe_bind P _ _ _ any); [|intros; exact I];
       destruct err as [e|]; [|exact I]; generalize (Some e); generalize (ord S (bytes * attrs) 21%nat k (m_entries (sg_sm sig))); intro l;
       induction l as [|[n at_] l IH]; intro o; [exact I|]; cbn [entriesCheck];
       (eapply safe_bind; [apply verifyManifestEntry_safe; intros hash h; unfold checkChunk; destruct (sget n (m_chunks man)); exact I|]);
       intros [?|] _ _; [exact I | apply IH]).
  Qed.

  Lemma verifyLoop_safe man hv minSdk maxSdk l : forall k st, sigs_ok l -> safe P (verifyLoop E S man hv minSdk maxSdk k l st) any.
  Proof.
    induction l as [|[n sig] l IH]; intros k st F; [exact I|]. inversion F as [|? ? Hs Fl]; subst. cbn [verifyLoop].
    eapply safe_bind; [apply verifySignature_safe; exact Hs|]. intros [ch [e|]] _ _; [now apply IH|].
    eapply safe_bind; [apply verifySignatureFile_safe|]. intros [e| |[e|]] _ _; [exact I | now apply IH..].
  Qed.

  Lemma requiredLoop_safe man valid minSdk maxSdk req : (forall n at_, sget n (m_entries man) = Some at_ -> exists f, sget n (z_map apk) = Some f) ->
    forall k chains set, safe P (requiredLoop E S man valid (z_map apk) minSdk maxSdk k req chains set) any.
  Proof.
    intro H. induction req as [|path req IH]; intros k chains set; [exact I|]. cbn [requiredLoop].
    destruct (sget path (m_entries man)) as [at_|] eqn:G; [|exact I]. destruct (H _ _ G) as [f ->].
    eapply safe_bind; [apply verifyManifestEntry_safe; intros; exact I|]. intros [?|] _ _; [exact I|]. cbv zeta.
    destruct (map _ _); [exact I|]. destruct (negb set); [apply IH|]. destruct (negb _); [exact I | apply IH].
  Qed.

  Lemma verifyV1_safe p hv minSdk maxSdk : sigs_ok (v1_sigs p) -> safe P (verifyV1 E S p apk hv minSdk maxSdk) any.
  Proof using SO.
    intro F. unfold verifyV1. eapply safe_bind; [apply verifyLoop_safe; apply (ord_Forall S SO); exact F|]. intros [st [e|]] _ _; [exact I|].
    destruct (vp_valid st) as [|v vs]; [exact I|]. destruct (negb _); [exact I|]. destruct (maxApkSigners <? _); [exact I|].
    unfold verifyMainManifest. destruct (forallb _ _) eqn:A; cbn [negb]; [|exact I]. apply requiredLoop_safe.
    intros n at_ G. apply (BytesFacts.mget_in bytes_eqb bytes_eqb_eq) in G. rewrite forallb_forall in A.
    specialize (A (n, at_)). cbn [fst] in A. destruct (sget n (z_map apk)) as [f|]; [eauto|]. discriminate A.
    eapply Permutation_in; [apply Permutation_sym; apply SO | exact G].
  Qed.

  Theorem verifySchemeV1_safe hv minSdk maxSdk : safe P (verifySchemeV1 E S apk hv minSdk maxSdk) any.
  Proof using SO.
    unfold verifySchemeV1. eapply safe_bind; [apply newSchemeV1_safe|]. intros [p|] _ Q; [now apply verifyV1_safe | exact I].
  Qed.
  Theorem extractCertsSchemeV1_safe minSdk maxSdk : safe P (extractCertsSchemeV1 E S apk minSdk maxSdk) any.
  Proof using SO.
    unfold extractCertsSchemeV1. eapply safe_bind; [apply newSchemeV1_safe|]. intros [p|] _ Q; [|exact I].
    apply (ord_Forall S SO _ 25 0%nat) in Q.
    apply (safe_bind P _ _ _ any); [|intros [? ?] _ _; exact I].
    revert Q. generalize (ord S _ 25%nat 0%nat (v1_sigs p)). intros l Q. generalize (@nil chain), O.
    induction Q as [|[n sig] l Hs Ql IH]; intros ch n0; [exact I|]. cbn [extractLoop].
    eapply safe_bind; [apply verifySignature_safe; exact Hs|]. intros [c e] _ _. apply IH.
  Qed.
End WithEnv.
