(** Signature files: which ones bind the manifest, which ones declare scheme v2 *)
From Coq Require Import String.
From Coq Require Import Lia.
From Verif.Model Require Import Bytes Env ApiLevel GoStrings Manifest PkixName SchemeV1.
From Verif.Spec Require Import JarSigned Nondet.
From Verif.Proofs Require Import BytesFacts ManifestFacts GoStringsFacts V1DigestFacts V1SigFacts V1VerifyFacts.

(** ** X-Android-APK-Signed *)
Lemma white_space_iff r : In r white_space <-> In r spaceRunes.
Proof.
  assert (H1 : forallb (fun r => existsb (bytes_eqb r) spaceRunes) white_space = true) by (vm_compute; reflexivity).
  assert (H2 : forallb (fun r => existsb (bytes_eqb r) white_space) spaceRunes = true) by (vm_compute; reflexivity).
  rewrite forallb_forall in H1, H2. split; intros H.
  - specialize (H1 r H). apply existsb_exists in H1 as (x & Hx & He). apply bytes_eqb_eq in He as ->. exact Hx.
  - specialize (H2 r H). apply existsb_exists in H2 as (x & Hx & He). apply bytes_eqb_eq in He as ->. exact Hx.
Qed.
Lemma blank_iff s : blank s <-> space_word s.
Proof.
  unfold blank, space_word. split; intros (l & H & ->); exists l; (split; [|reflexivity]); apply Forall_forall; intros x Hx;
    rewrite Forall_forall in H; apply white_space_iff, H, Hx.
Qed.

Lemma digits_lower s : forall a, forallb isDigit s = true -> 0 <= a -> a <= fold_left (fun a c => 10 * a + (b2z c - 48)) s a.
Proof.
  induction s as [|c t IH]; intros a Hd Ha; [cbn; lia|]. cbn [forallb fold_left] in *. apply andb_true_iff in Hd as [Hc Ht].
  unfold isDigit in Hc. specialize (IH (10 * a + (b2z c - 48)) Ht). lia.
Qed.
Lemma digits_two s : forallb isDigit s = true -> digitsValue s = 2 -> exists n, s = repeat "0"%byte n ++ ["2"%byte].
Proof.
  unfold digitsValue. induction s as [|c t IH]; intros Hd Hv; [discriminate|].
  cbn [forallb fold_left] in *. apply andb_true_iff in Hd as [Hc Ht]. unfold isDigit in Hc.
  destruct (Z.eq_dec (b2z c) 48) as [H0|H0].
  - rewrite H0 in Hv. destruct (IH Ht Hv) as [n ->]. exists (S n). cbn [repeat app].
    assert (c = "0"%byte) as -> by (apply b2z_inj; rewrite H0; reflexivity). reflexivity.
  - destruct t as [|c' t].
    + cbn [fold_left] in Hv. exists 0%nat. cbn [repeat app]. f_equal. apply b2z_inj. change (b2z "2"%byte) with 50. lia.
    + exfalso. cbn [fold_left forallb] in *. apply andb_true_iff in Ht as [Hc' Ht]. unfold isDigit in Hc'.
      pose proof (digits_lower t (10 * (10 * 0 + (b2z c - 48)) + (b2z c' - 48)) Ht). lia.
Qed.
Lemma digits_two_value n : digitsValue (repeat "0"%byte n ++ ["2"%byte]) = 2.
Proof. unfold digitsValue. induction n as [|n IH]; [reflexivity|]. cbn [repeat app fold_left]. exact IH. Qed.
Lemma digits_two_digits n : forallb isDigit (repeat "0"%byte n ++ ["2"%byte]) = true.
Proof. induction n as [|n IH]; [reflexivity|]. cbn [repeat app forallb]. exact IH. Qed.
Lemma parseUint_two s : parseUint s = Some 2 <-> exists n, s = repeat "0"%byte n ++ ["2"%byte].
Proof.
  unfold parseUint. split.
  - destruct s as [|c t]; [discriminate|]. destruct (forallb isDigit (c :: t)) eqn:E; [|discriminate]. intros H. apply digits_two; [exact E|congruence].
  - intros [n ->]. rewrite digits_two_digits, digits_two_value. destruct (repeat "0"%byte n ++ ["2"%byte]) eqn:En; [|reflexivity].
    destruct n; discriminate.
Qed.
Lemma parseUint_nonneg s v : parseUint s = Some v -> 0 <= v.
Proof.
  unfold parseUint. destruct s as [|c t]; [discriminate|]. destruct (forallb isDigit (c :: t)) eqn:E; [|discriminate].
  intros H. assert (v = digitsValue (c :: t)) as -> by congruence. unfold digitsValue. apply digits_lower; [exact E|lia].
Qed.
Lemma parseInt32_two s : parseInt32 s = Some 2 <-> exists sign n, s = sign ++ repeat "0"%byte n ++ ["2"%byte] /\ (sign = [] \/ sign = ["+"%byte]).
Proof.
  unfold parseInt32. destruct s as [|c t].
  - split; [discriminate|]. intros (sign & n & H & _). destruct sign; [destruct n; discriminate|discriminate].
  - destruct (byte_eqb c "-"%byte) eqn:Em.
    + apply byte_eqb_eq in Em as ->. split.
      * destruct (parseUint t) as [v|] eqn:Ev; [|discriminate]. apply parseUint_nonneg in Ev. destruct (2147483648 <? v); [discriminate|].
        intros H. assert (- v = 2) by congruence. lia.
      * intros (sign & n & H & [->| ->]); [destruct n; discriminate|discriminate].
    + destruct (byte_eqb c "+"%byte) eqn:Ep.
      * apply byte_eqb_eq in Ep as ->. split.
        -- destruct (parseUint t) as [v|] eqn:Ev; [|discriminate]. destruct (2147483647 <? v); [discriminate|]. intros H.
           assert (v = 2) as -> by congruence. apply parseUint_two in Ev as [n ->]. exists ["+"%byte], n. auto.
        -- intros (sign & n & H & [->| ->]); [destruct n; discriminate|]. cbn [app] in H.
           assert (t = repeat "0"%byte n ++ ["2"%byte]) as Ht by congruence. rewrite (proj2 (parseUint_two t)) by eauto. reflexivity.
      * split.
        -- destruct (parseUint (c :: t)) as [v|] eqn:Ev; [|discriminate]. destruct (2147483647 <? v); [discriminate|]. intros H.
           assert (v = 2) as -> by congruence. apply parseUint_two in Ev as [n Hn]. exists [], n. auto.
        -- intros (sign & n & H & [->| ->]).
           ++ cbn [app] in H. rewrite H. rewrite (proj2 (parseUint_two _)) by eauto. reflexivity.
           ++ cbn [app] in H. assert (c = "+"%byte) by congruence. subst c. discriminate.
Qed.

Lemma space_word_not w b : space_word w -> forallb (fun r => negb (existsb (byte_eqb b) r)) spaceRunes = true -> ~ In b w.
Proof.
  intros (l & H & ->) Hb Hin. apply in_concat in Hin as (r & Hr & Hi). rewrite Forall_forall in H. rewrite forallb_forall in Hb.
  specialize (Hb r (H r Hr)). apply negb_true_iff in Hb.
  assert (existsb (byte_eqb b) r = true) by (apply existsb_exists; exists b; split; [exact Hi|apply byte_eqb_refl]). congruence.
Qed.
Lemma two_no_space_ends sign n : sign = [] \/ sign = ["+"%byte] -> no_space_ends (sign ++ repeat "0"%byte n ++ ["2"%byte]).
Proof.
  intros Hs w Hw.
  assert (G : forallb (fun w => match w with b :: _ => negb (existsb (byte_eqb b) ["+"%byte; "0"%byte; "2"%byte]) | [] => false end
                                && negb (byte_eqb (last w x00) "2"%byte)) spaceRunes = true) by (vm_compute; reflexivity).
  rewrite forallb_forall in G. specialize (G w Hw). apply andb_true_iff in G as [G1 G2]. apply negb_true_iff in G2.
  destruct w as [|b w]; [discriminate|]. apply negb_true_iff in G1. split; intros r Hr.
  - assert (Hb : In b ["+"%byte; "0"%byte; "2"%byte]).
    { destruct Hs as [->| ->].
      - destruct n as [|n]; cbn [app repeat] in Hr; assert (b = "2"%byte \/ b = "0"%byte) as [->| ->] by (first [left; congruence|right; congruence]); cbn; auto.
      - cbn [app] in Hr. assert (b = "+"%byte) as -> by congruence. left. reflexivity. }
    assert (existsb (byte_eqb b) ["+"%byte; "0"%byte; "2"%byte] = true); [|congruence].
    apply existsb_exists. exists b. split; [exact Hb|apply byte_eqb_refl].
  - assert (Hl : last (sign ++ repeat "0"%byte n ++ ["2"%byte]) x00 = last (r ++ b :: w) x00) by (rewrite Hr; reflexivity).
    rewrite !app_assoc, last_last in Hl.
    assert (Hl2 : last (r ++ b :: w) x00 = last (b :: w) x00).
    { clear. induction r as [|x r IH]; [reflexivity|]. cbn [app]. rewrite <- IH. destruct (r ++ b :: w) eqn:E; [destruct r; discriminate|reflexivity]. }
    rewrite Hl2 in Hl. rewrite <- Hl in G2. rewrite byte_eqb_refl in G2. discriminate.
Qed.
Lemma item_two_iff tok : item_two tok <-> exists id, match trimSpace tok with [] => None | t => parseInt32 t end = Some id /\ id = 2.
Proof.
  split.
  - intros (w1 & sign & n & w2 & -> & H1 & H2 & Hs). exists 2. split; [|reflexivity].
    set (core := sign ++ repeat "0"%byte n ++ ["2"%byte]).
    assert (Hc : core <> []) by (unfold core; destruct sign; [destruct n; discriminate|discriminate]).
    replace (w1 ++ sign ++ repeat "0"%byte n ++ ["2"%byte] ++ w2) with (w1 ++ core ++ w2)
      by (unfold core; rewrite <- !app_assoc; reflexivity).
    rewrite trimSpace_exact; [|apply blank_iff; exact H1|apply blank_iff; exact H2|apply two_no_space_ends; exact Hs|exact Hc].
    assert (Hp : parseInt32 core = Some 2) by (apply parseInt32_two; exists sign, n; auto).
    destruct core; [congruence|exact Hp].
  - intros (id & H & ->). destruct (trimSpace_spec tok) as (w1 & w2 & Ht & H1 & H2).
    destruct (trimSpace tok) as [|c t]; [discriminate|].
    apply parseInt32_two in H as (sign & n & Hc & Hs). exists w1, sign, n, w2.
    split; [rewrite Ht, Hc, <- !app_assoc; reflexivity|]. split; [apply blank_iff; exact H1|]. split; [apply blank_iff; exact H2|exact Hs].
Qed.
Lemma item_two_no_comma tok : item_two tok -> ~ In ","%byte tok.
Proof.
  intros (w1 & sign & n & w2 & -> & H1 & H2 & Hs) Hin. apply blank_iff in H1, H2.
  assert (G : forallb (fun r => negb (existsb (byte_eqb ","%byte) r)) spaceRunes = true) by (vm_compute; reflexivity).
  apply in_app_or in Hin as [Hi|Hi]; [exact (space_word_not _ _ H1 G Hi)|].
  apply in_app_or in Hi as [Hi|Hi]; [destruct Hs as [->| ->]; [destruct Hi|destruct Hi as [Hi|[]]; discriminate]|].
  apply in_app_or in Hi as [Hi|Hi]; [apply repeat_spec in Hi; discriminate|].
  apply in_app_or in Hi as [Hi|Hi]; [destruct Hi as [Hi|[]]; discriminate|]. exact (space_word_not _ _ H2 G Hi).
Qed.
Lemma namesScheme2_iff l : namesScheme2 l = true <-> lists_two l.
Proof.
  unfold namesScheme2. rewrite existsb_exists. unfold lists_two. split.
  - intros (tok & Hin & Ht). apply in_splitByte in Hin as (a & b & -> & Hno & Ha & Hb). exists a, tok, b.
    split; [reflexivity|]. split; [|auto]. apply item_two_iff. cbv zeta in Ht. destruct (trimSpace tok) as [|c t]; [discriminate|].
    destruct (parseInt32 (c :: t)) as [id|]; [|discriminate]. apply Z.eqb_eq in Ht. eauto.
  - intros (a & tok & b & -> & Ht & Ha & Hb). exists tok. split.
    + apply in_splitByte. exists a, b. split; [reflexivity|]. split; [exact (item_two_no_comma _ Ht)|auto].
    + apply item_two_iff in Ht as (id & H & ->). cbv zeta. destruct (trimSpace tok) as [|c t]; [discriminate|]. rewrite H. reflexivity.
Qed.

Lemma signtool_iff sm : usesSigntool sm = true <-> signtool sm.
Proof.
  unfold usesSigntool, signtool. rewrite contains_iff. unfold mstr. change attrCreatedBy with (s2b "created-by").
  destruct (sget (s2b "created-by") (m_main sm)) as [v|].
  - split; [intros (a & b & H); exists v, a, b; auto|]. intros (v' & a & b & H & ->). exists a, b. congruence.
  - split; [intros (a & b & H)|intros (v' & a & b & H & _); discriminate].
    exfalso. destruct a; discriminate.
Qed.
Lemma signtool_false sm : usesSigntool sm = false <-> ~ signtool sm.
Proof. rewrite <- signtool_iff. destruct (usesSigntool sm); split; congruence. Qed.
Lemma hasVersion_iff sm : hasVersion sm = true <-> exists v, sget (s2b "signature-version") (m_main sm) = Some v.
Proof. apply mhas_true. Qed.

Section Binds.
  Variable E : env.
  Variables (man : manifest) (minSdk maxSdk : Z).

  Lemma cmpHash_ok data m hash h : cmpHash E data hash h m = Ret None <-> of_bytes E data hash h.
  Proof.
    unfold cmpHash, of_bytes. destruct (bytes_eqb hash (e_hash E h data)) eqn:Eb.
    - apply bytes_eqb_eq in Eb. split; [intros _; exact Eb|reflexivity].
    - apply bytes_eqb_neq in Eb. split; [discriminate|congruence].
  Qed.
  Lemma section_bytes_iff sm chunk data :
    section_bytes sm chunk data <-> data = if usesSigntool sm && endsWithTwoLF chunk then takeZ (zlen chunk - 1) chunk else chunk.
  Proof.
    unfold section_bytes. destruct (usesSigntool sm) eqn:Es; cbn [andb].
    - apply signtool_iff in Es. unfold endsWithTwoLF. destruct (hasSuffix chunk [x0a; x0a]) eqn:Eh.
      + apply hasSuffix_iff in Eh as [p ->]. replace (p ++ [x0a; x0a]) with ((p ++ [x0a]) ++ [x0a]) by (rewrite <- app_assoc; reflexivity).
        rewrite takeZ_app by (rewrite (zlen_app (p ++ [x0a])); change (zlen [x0a]) with 1; lia).
        split.
        * intros [[_ [H|H]]|[_ (q & Hq & ->)]]; [contradiction|exfalso; apply (H p); rewrite <- app_assoc; reflexivity|].
          rewrite <- app_assoc in Hq. cbn [app] in Hq. apply app_inv_tail in Hq. subst q. reflexivity.
        * intros ->. right. split; [exact Es|]. exists p. rewrite <- app_assoc. auto.
      + rewrite hasSuffix_false in Eh. split.
        * intros [[H _]|[_ (p & Hp & _)]]; [exact H|]. destruct (Eh p Hp).
        * intros ->. left. auto.
    - apply signtool_false in Es. split.
      + intros [[H _]|[H _]]; [exact H|contradiction].
      + intros ->. left. auto.
  Qed.

  Lemma wholeCheck_iff sm : passes (wholeCheck E man minSdk maxSdk sm) = true <-> whole_manifest_bound E sm man minSdk maxSdk.
  Proof.
    rewrite passes_iff. unfold wholeCheck, whole_manifest_bound.
    rewrite (verifyManifestEntry_iff E _ _ _ (of_bytes E (m_rawData man))) by (intros; apply cmpHash_ok).
    destruct (usesSigntool sm) eqn:Es.
    - apply signtool_iff in Es. split.
      + intros H. exists (s2b "-digest"). auto.
      + intros (suffix & [[_ ->]|[Hn _]] & H); [exact H|contradiction].
    - apply signtool_false in Es. split.
      + intros H. exists (s2b "-digest-manifest"). auto.
      + intros (suffix & [[Hn _]|[_ ->]] & H); [contradiction|exact H].
  Qed.
  Lemma entryCheck_iff sm name entry : passes (entryCheck E man minSdk maxSdk sm (name, entry)) = true <->
    exists chunk data, sget name (m_chunks man) = Some chunk /\ section_bytes sm chunk data /\
      digests_ok E entry (s2b "-digest") minSdk maxSdk (of_bytes E data).
  Proof.
    rewrite passes_iff. unfold entryCheck. cbn [fst snd].
    destruct (sget name (m_chunks man)) as [chunk|] eqn:Ec.
    - set (data := if usesSigntool sm && endsWithTwoLF chunk then takeZ (zlen chunk - 1) chunk else chunk).
      rewrite (verifyManifestEntry_iff E _ _ _ (of_bytes E data)).
      + split.
        * intros H. exists chunk, data. split; [reflexivity|]. split; [apply section_bytes_iff; reflexivity|exact H].
        * intros (chunk' & data' & Hc & Hs & H). assert (chunk' = chunk) as -> by congruence. apply section_bytes_iff in Hs. fold data in Hs.
          subst data'. exact H.
      + intros hash h. unfold checkChunk. rewrite Ec. apply cmpHash_ok.
    - split; [|intros (c & d & H & _); discriminate].
      rewrite (verifyManifestEntry_iff E _ _ _ (fun _ _ => False)).
      + intros [(a & Ha) H]. destruct (H a Ha) as (h & v & d & _ & _ & _ & []).
      + intros hash h. unfold checkChunk. rewrite Ec. split; [discriminate|intros []].
  Qed.
  Lemma mainCheck_bound sm : mainBad E man minSdk maxSdk sm = false -> main_attributes_bound E sm man minSdk maxSdk.
  Proof.
    unfold mainBad, main_attributes_bound. intros H Hend Hns Hknown algo Hsel. unfold mainCheck in H.
    apply signtool_false in Hns. rewrite Hns in H. destruct (Z.ltb_spec 0 (m_mainEnd sm)) as [_|]; [|lia]. cbn [andb negb] in H.
    set (cb := fun hash h => cmpHash E (takeZ (m_mainEnd man) (m_rawData man)) hash h "Invalid manifest main attributes hash!") in H.
    assert (Hcb : forall hash h, cb hash h = Ret None <-> of_bytes E (takeZ (m_mainEnd man) (m_rawData man)) hash h) by (intros; apply cmpHash_ok).
    destruct (verifyManifestEntry_ret E minSdk maxSdk (m_main sm) attrDigestMainAttrSuffix cb) as [r Hr].
    { intros. eexists. reflexivity. }
    rewrite Hr in H. destruct r as [[|m]|]; [|discriminate|].
    - exfalso. unfold verifyManifestEntry in Hr.
      destruct (getDigestsToVerify E (m_main sm) attrDigestMainAttrSuffix minSdk maxSdk) as [|a0 t] eqn:Eg.
      { apply getDigests_iff in Hsel. change (s2b "-digest-manifest-main-attributes") with attrDigestMainAttrSuffix in Hsel. rewrite Eg in Hsel. destruct Hsel. }
      apply checkDigests_unknown in Hr as (a & Ha & Hno).
      + destruct (Hknown a) as [h Hh]; [|exact (Hno h Hh)].
        apply getDigests_iff. change (s2b "-digest-manifest-main-attributes") with attrDigestMainAttrSuffix. rewrite Eg. exact Ha.
      + intros a Ha. apply (selected_has E _ _ minSdk maxSdk). apply getDigests_iff. rewrite Eg. exact Ha.
      + intros hash h. unfold cb, cmpHash. destruct (bytes_eqb _ _); congruence.
    - apply (verifyManifestEntry_iff E _ _ _ _ Hcb) in Hr as [_ Hr]. exact (Hr algo Hsel).
  Qed.

  (** A valid signature file binds the manifest. *)
  Lemma validSf_binds hv sm : NoDup (map fst (m_entries sm)) -> stops E man hv minSdk maxSdk sm = false -> validSf E man minSdk maxSdk sm = true ->
    binds E sm man minSdk maxSdk.
  Proof.
    intros Hnd Hst Hv. unfold stops in Hst. apply orb_false_iff in Hst as [_ Hst]. unfold validSf in Hv. apply andb_true_iff in Hv as [Hver Hv].
    rewrite Hver in Hst. cbn [andb] in Hst. split; [apply hasVersion_iff; exact Hver|]. split; [apply mainCheck_bound; exact Hst|].
    apply orb_true_iff in Hv as [Hv|Hv]; [left; apply wholeCheck_iff; exact Hv|]. right.
    apply andb_true_iff in Hv as [Hne Hall]. rewrite forallb_forall in Hall. split.
    - intros Hn. rewrite Hn in Hne. discriminate.
    - intros name entry Hs. apply entryCheck_iff. apply Hall. apply (mget_in _ bytes_eqb_eq). exact Hs.
  Qed.
  (** ... and conversely. *)
  Lemma binds_valid sm : NoDup (map fst (m_entries sm)) -> binds E sm man minSdk maxSdk -> validSf E man minSdk maxSdk sm = true.
  Proof.
    intros Hnd (Hver & _ & Hb). unfold validSf. apply hasVersion_iff in Hver. rewrite Hver. cbn [andb]. apply orb_true_iff.
    destruct Hb as [Hb|[Hne Hb]]; [left; apply wholeCheck_iff; exact Hb|right]. apply andb_true_iff. split.
    - destruct (m_entries sm); [congruence|reflexivity].
    - apply forallb_forall. intros [name entry] Hin. apply entryCheck_iff. apply Hb. apply (in_mget _ bytes_eqb_eq); assumption.
  Qed.
  Lemma downgrades_iff hv sm : downgrades hv maxSdk sm = true <-> hv = false /\ 24 <= maxSdk /\ declares_v2 sm.
  Proof.
    unfold downgrades, declares_v2. change attrAndroidApkSigned with (s2b "x-android-apk-signed").
    destruct (sget (s2b "x-android-apk-signed") (m_main sm)) as [l|].
    - rewrite !andb_true_iff, negb_true_iff, namesScheme2_iff. unfold SupportsSigV2, V7_0_Nougat. rewrite Z.leb_le.
      split; [intros [[H1 H2] H3]; split; [exact H1|]; split; [exact H2|]; exists l; auto|].
      intros (H1 & H2 & l' & Hl & H3). assert (l' = l) as -> by congruence. auto.
    - split; [discriminate|]. intros (_ & _ & l & H & _). discriminate.
  Qed.
End Binds.
