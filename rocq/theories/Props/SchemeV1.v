(** C15 (v1), C27-C31, C49, C50, C54, C55: JAR signatures (APK Signature Scheme v1). *)
From Coq Require Import String Lia Permutation.
From Verif.Model Require Import Bytes Env ApiLevel GoStrings Manifest PkixName SchemeV1.
From Verif.Spec Require Import JarSigned HonestJar Nondet.
From Verif.Proofs Require Import BytesFacts ManifestFacts GoStringsFacts V1DigestFacts V1SigFacts V1VerifyFacts V1MainFacts V1BindFacts
  V1FilesFacts V1ScanFacts V1SoundFacts V1HonestFacts.
From Verif.Examples Require Import Toy ToyApk ToyJar.
From Verif.Props Require Import Stamp.

(** C28.  If v1 verification succeeds, the APK has one main manifest, all of whose sections name ZIP entries, and a
    non-empty list of signatures - pairs of a PKCS#7 block file and a signature file - each of which verifies with the
    key of its chain's first certificate and binds the manifest, such that every regular file outside META-INF/ (other
    than AndroidManifest.xml) has a manifest section whose selected digests all match the file's content, is listed in
    at least one of these signature files, and is signed by the same set of chains as all others: the reported one. *)
Theorem C28_v1_soundness : forall E S apk hasSigningBlock minSdk maxSdk chains, sched_ok S ->
  verifySchemeV1 E S apk hasSigningBlock minSdk maxSdk = Ret (chains, None) ->
  exists man signatures,
    main_manifest apk man /\
    (forall name entry, sget name (m_entries man) = Some entry -> exists f, sget name (z_map apk) = Some f) /\
    signatures <> [] /\ Forall (jar_signature E S apk man minSdk maxSdk) signatures /\
    forall path f, covered_file apk path f ->
      (exists entry, sget path (m_entries man) = Some entry /\ digests_ok E entry (s2b "-digest") minSdk maxSdk (of_file E f)) /\
      filter (lists_file path) signatures <> [] /\
      same_chains chains (map snd (filter (lists_file path) signatures)).
Proof.
  intros E S apk hv minSdk maxSdk chains HS H. destruct (v1_sound E S apk hv minSdk maxSdk chains HS H) as (p & man & sigs & _ & Hpm & Hsucc & Hman & Hne & _ & HF & Hreq).
  exists man, sigs. split; [exact Hman|]. split.
  { intros name entry Hn. rewrite <- Hpm in Hn. apply (vs_exist _ _ _ _ _ _ _ _ Hsucc). apply (mget_in _ bytes_eqb_eq) in Hn.
    apply (in_map fst) in Hn. exact Hn. }
  split; [exact Hne|]. split; [exact HF|]. intros path f ((Hg & Hd) & Hx & Hm).
  destruct (Hreq path) as ((entry & He & Hc) & Hl & Hs); [apply (requiredFiles_1 _ _ f); assumption|].
  split; [|split; assumption]. exists entry. split; [exact He|]. apply (fileCheck_iff E minSdk maxSdk (z_map apk) path entry f Hg). exact Hc.
Qed.
Print Assumptions C28_v1_soundness.

Example C28_nonvacuous : sched_ok toy_sched /\
  (exists ch, verifySchemeV1 jar_env toy_sched good_jar false 10 33 = Ret ([ch], None) /\ zlen ch = 2) /\
  (exists f, covered_file good_jar (s2b "a.txt") f).
Proof.
  split; [exact toy_sched_ok|]. split; [eexists; split; [vm_compute; reflexivity|reflexivity]|].
  eexists. split; [split; [vm_compute; reflexivity|reflexivity]|]. split; [discriminate|]. intros x H. discriminate.
Qed.
(** Changing the covered file is noticed. *)
Example C28_tampered : exists chains e,
  verifySchemeV1 jar_env toy_sched (jar mf sf (jsign "K"%byte sf) the_manifest_xml (s2b "hallo")) false 10 33 = Ret (chains, Some e).
Proof. eexists _, _. vm_compute. reflexivity. Qed.

(** C29 is false: AndroidManifest.xml is not among the files whose digest is checked.  Two APKs that differ
    only in the content of AndroidManifest.xml, whose digest is in MANIFEST.MF and in the signature file's whole-manifest
    digest, are both accepted with the same certificates. *)
Theorem C29_refuted : exists E S other chains,
  sched_ok S /\ other <> the_manifest_xml /\
  verifySchemeV1 E S (jar mf sf (jsign "K"%byte sf) the_manifest_xml a_txt) false 10 33 = Ret (chains, None) /\
  verifySchemeV1 E S (jar mf sf (jsign "K"%byte sf) other a_txt) false 10 33 = Ret (chains, None) /\
  (exists man entry, parseBytes true mf = Ret (inl man) /\ sget (s2b "AndroidManifest.xml") (m_entries man) = Some entry /\
     digests_ok E entry (s2b "-digest") 10 33 (of_bytes E the_manifest_xml) /\
     ~ digests_ok E entry (s2b "-digest") 10 33 (of_bytes E other)).
Proof.
  exists jar_env, toy_sched, (s2b "<evil/>"). eexists. split; [exact toy_sched_ok|]. split; [discriminate|].
  split; [vm_compute; reflexivity|]. split; [vm_compute; reflexivity|].
  eexists _, _. split; [vm_compute; reflexivity|]. split; [vm_compute; reflexivity|]. split.
  - apply (verifyManifestEntry_iff jar_env _ _ _ _ (fun hash h => cmpHash_ok jar_env the_manifest_xml ""%string hash h)). vm_compute. reflexivity.
  - intros C. apply (verifyManifestEntry_iff jar_env _ _ _ _ (fun hash h => cmpHash_ok jar_env (s2b "<evil/>") ""%string hash h)) in C. vm_compute in C. discriminate C.
Qed.
Print Assumptions C29_refuted.

(** What does hold: an accepted APK has a regular file AndroidManifest.xml or BundleConfig.pb, or an
    AndroidManifest.xml entry that looks like a directory and has a matching digest. *)
Theorem C29_present_partial : forall E S apk hasSigningBlock minSdk maxSdk chains, sched_ok S -> NoDup (map fst (z_map apk)) ->
  verifySchemeV1 E S apk hasSigningBlock minSdk maxSdk = Ret (chains, None) ->
  (exists f, regular_file apk (s2b "AndroidManifest.xml") f) \/ (exists f, regular_file apk (s2b "BundleConfig.pb") f) \/
  exists f man entry, sget (s2b "AndroidManifest.xml") (z_map apk) = Some f /\ zf_isdir f = true /\ main_manifest apk man /\
    sget (s2b "AndroidManifest.xml") (m_entries man) = Some entry /\ digests_ok E entry (s2b "-digest") minSdk maxSdk (of_file E f).
Proof.
  intros E S apk hv minSdk maxSdk chains HS Hnd H.
  destruct (v1_sound E S apk hv minSdk maxSdk chains HS H) as (p & man & sigs & _ & Hpm & Hsucc & Hman & _ & _ & _ & Hreq).
  destruct (sget (s2b "AndroidManifest.xml") (z_map apk)) as [f|] eqn:Ef.
  - destruct (zf_isdir f) eqn:Ed; [|left; exists f; split; assumption].
    destruct (sget (s2b "BundleConfig.pb") (z_map apk)) as [g|] eqn:Eg; [destruct (zf_isdir g) eqn:Edg; [|right; left; exists g; split; assumption]|].
    + right. right. destruct (Hreq (s2b "AndroidManifest.xml")) as ((entry & He & Hc) & _).
      { apply requiredFiles_2. intros q h Hq Hin. apply (in_mget _ bytes_eqb_eq _ _ _ Hnd) in Hin. destruct Hq as [-> | ->]; congruence. }
      exists f, man, entry. split; [reflexivity|]. split; [exact Ed|]. split; [exact Hman|]. split; [exact He|]. apply (fileCheck_iff E minSdk maxSdk _ _ entry f Ef). exact Hc.
    + right. right. destruct (Hreq (s2b "AndroidManifest.xml")) as ((entry & He & Hc) & _).
      { apply requiredFiles_2. intros q h Hq Hin. apply (in_mget _ bytes_eqb_eq _ _ _ Hnd) in Hin. destruct Hq as [-> | ->]; congruence. }
      exists f, man, entry. split; [reflexivity|]. split; [exact Ed|]. split; [exact Hman|]. split; [exact He|]. apply (fileCheck_iff E minSdk maxSdk _ _ entry f Ef). exact Hc.
  - destruct (sget (s2b "BundleConfig.pb") (z_map apk)) as [g|] eqn:Eg; [destruct (zf_isdir g) eqn:Edg; [|right; left; exists g; split; assumption]|].
    + exfalso. destruct (Hreq (s2b "AndroidManifest.xml")) as ((entry & He & Hc) & _).
      { apply requiredFiles_2. intros q h Hq Hin. apply (in_mget _ bytes_eqb_eq _ _ _ Hnd) in Hin. destruct Hq as [-> | ->]; congruence. }
      rewrite <- Hpm in He. apply (mget_in _ bytes_eqb_eq) in He. apply (in_map fst) in He.
      destruct (vs_exist _ _ _ _ _ _ _ _ Hsucc _ He) as [f Hf]. cbn [fst] in Hf. congruence.
    + exfalso. destruct (Hreq (s2b "AndroidManifest.xml")) as ((entry & He & Hc) & _).
      { apply requiredFiles_2. intros q h Hq Hin. apply (in_mget _ bytes_eqb_eq _ _ _ Hnd) in Hin. destruct Hq as [-> | ->]; congruence. }
      rewrite <- Hpm in He. apply (mget_in _ bytes_eqb_eq) in He. apply (in_map fst) in He.
      destruct (vs_exist _ _ _ _ _ _ _ _ Hsucc _ He) as [f Hf]. cbn [fst] in Hf. congruence.
Qed.
Print Assumptions C29_present_partial.
Example C29_partial_nonvacuous : NoDup (map fst (z_map good_jar)) /\ exists f, regular_file good_jar (s2b "AndroidManifest.xml") f.
Proof.
  split; [vm_compute; repeat (constructor; [intros C; repeat (destruct C as [C|C]; [discriminate C|]); destruct C|]); constructor|].
  eexists. split; [vm_compute; reflexivity|reflexivity].
Qed.

(** C30.  For two schedules of map iteration (Go's sort being deterministic), v1 verification succeeds under both or under
    neither, and reports the same set of chains. *)
Theorem C30_order_independent : forall E S S' apk hasSigningBlock minSdk maxSdk, sched_ok S -> sched_ok S' -> same_sort S S' ->
  ((exists chains, verifySchemeV1 E S apk hasSigningBlock minSdk maxSdk = Ret (chains, None)) <->
   (exists chains', verifySchemeV1 E S' apk hasSigningBlock minSdk maxSdk = Ret (chains', None))) /\
  forall chains chains', verifySchemeV1 E S apk hasSigningBlock minSdk maxSdk = Ret (chains, None) ->
    verifySchemeV1 E S' apk hasSigningBlock minSdk maxSdk = Ret (chains', None) -> same_chains chains chains'.
Proof.
  intros E S S' apk hv minSdk maxSdk HS HS' Hss.
  assert (G : forall T T' ch, sched_ok T -> sched_ok T' -> same_sort T T' -> verifySchemeV1 E T apk hv minSdk maxSdk = Ret (ch, None) ->
    exists ch', verifySchemeV1 E T' apk hv minSdk maxSdk = Ret (ch', None) /\ same_chains ch ch').
  { intros T T' ch HT HT' Hs H. unfold verifySchemeV1 in *. destruct (newSchemeV1 E apk) as [[p|]|] eqn:En; cbn [obind] in *; [|discriminate|discriminate].
    destruct (newSchemeV1_spec E apk p En) as (_ & Hnd & _).
    pose proof (verifyV1_sound E T p apk hv minSdk maxSdk ch HT Hnd H) as Hsucc. pose proof (v1_success_sched E T T' p apk hv minSdk maxSdk ch Hs Hsucc) as Hsucc'.
    destruct (verifyV1_complete E T' p apk hv minSdk maxSdk ch HT' Hnd Hsucc') as [ch' H']. exists ch'. split; [exact H'|].
    exact (v1_success_chains E T' p apk hv minSdk maxSdk ch ch' Hsucc' (verifyV1_sound E T' p apk hv minSdk maxSdk ch' HT' Hnd H')). }
  assert (Hss' : same_sort S' S) by (intros A less l; symmetry; apply Hss).
  split.
  - split; intros [ch H]; [destruct (G S S' ch HS HS' Hss H) as (ch' & H' & _)|destruct (G S' S ch HS' HS Hss' H) as (ch' & H' & _)]; exists ch'; exact H'.
  - intros ch ch' H H'. destruct (G S S' ch HS HS' Hss H) as (ch2 & H2 & Hsame). assert (ch2 = ch') as <- by congruence. exact Hsame.
Qed.
Print Assumptions C30_order_independent.
(** Two signers: the order of the reported chains does depend on the schedule. *)
Definition two_signers : zip :=
  let files := [jfile "META-INF/MANIFEST.MF" mf; jfile "META-INF/A.SF" sf; jfile "META-INF/A.RSA" (jsign "K"%byte sf);
                jfile "META-INF/B.SF" sf; jfile "META-INF/B.RSA" (jsign "L"%byte sf);
                jfile "AndroidManifest.xml" the_manifest_xml; jfile "a.txt" a_txt] in
  {| z_ordered := files; z_map := map (fun f => (zf_name f, f)) files |}.
Example C30_nonvacuous : sched_ok toy_sched /\ sched_ok rev_sched /\ same_sort toy_sched rev_sched /\
  exists a b, a <> b /\ verifySchemeV1 jar_env toy_sched two_signers false 10 33 = Ret ([a; b], None) /\
              verifySchemeV1 jar_env rev_sched two_signers false 10 33 = Ret ([a; b], None) \/
              verifySchemeV1 jar_env toy_sched two_signers false 10 33 = Ret ([a; b], None) /\
              verifySchemeV1 jar_env rev_sched two_signers false 10 33 = Ret ([b; a], None).
Proof.
  split; [exact toy_sched_ok|]. split; [exact rev_sched_ok|]. split; [intros A less l; reflexivity|].
  eexists _, _. first [left; split; [|split; vm_compute; reflexivity]; discriminate | right; split; vm_compute; reflexivity].
Qed.

(** C31.  A signature file counts as valid only if it has a Signature-Version, its digest of the manifest's main attributes
    matches (if it has one with known hash functions), and its digest of the whole manifest matches or it has sections and
    every one of them matches the manifest's section of that name. *)
Theorem C31_valid_signature_binds : forall E S man k sig hasSigningBlock minSdk maxSdk, sched_ok S -> NoDup (map fst (m_entries (sg_sm sig))) ->
  verifySignatureFile E S man k sig hasSigningBlock minSdk maxSdk = Ret (VDone None) -> binds E (sg_sm sig) man minSdk maxSdk.
Proof.
  intros E S man k sig hv minSdk maxSdk HS Hnd H. destruct (verifySignatureFile_spec E man hv minSdk maxSdk S k sig HS) as (s & Hs & _ & Hv).
  assert (s = VDone None) as -> by congruence. destruct (proj1 Hv eq_refl) as [Hst Hval]. apply (validSf_binds E man minSdk maxSdk hv); assumption.
Qed.
Print Assumptions C31_valid_signature_binds.
(** ... and every signature file that binds the manifest is accepted (unless it announces a v2 signature). *)
Theorem C31_binding_accepted : forall E S man k sig hasSigningBlock minSdk maxSdk, sched_ok S -> NoDup (map fst (m_entries (sg_sm sig))) ->
  hasSigningBlock = true \/ maxSdk < 24 \/ ~ declares_v2 (sg_sm sig) ->
  binds E (sg_sm sig) man minSdk maxSdk -> main_attributes_ok E man minSdk maxSdk (sg_sm sig) ->
  verifySignatureFile E S man k sig hasSigningBlock minSdk maxSdk = Ret (VDone None).
Proof.
  intros E S man k sig hv minSdk maxSdk HS Hnd Hv2 Hb Hm. destruct (verifySignatureFile_spec E man hv minSdk maxSdk S k sig HS) as (s & Hs & _ & Hv).
  rewrite Hs. f_equal. apply Hv. split; [|apply binds_valid; assumption]. unfold stops. apply orb_false_iff. split.
  - apply not_true_iff_false. intros C. apply downgrades_iff in C as (C1 & C2 & C3). destruct Hv2 as [Hv2|[Hv2|Hv2]]; [congruence|lia|exact (Hv2 C3)].
  - rewrite (main_ok_not_bad E man minSdk maxSdk _ Hm). destruct (hasVersion _); reflexivity.
Qed.
Print Assumptions C31_binding_accepted.
Definition jar_sm : manifest := match parseBytes false sf with Ret (inl m) => m | _ => mkManifest [] [] [] [] 0 end.
Definition jar_man : manifest := match parseBytes true mf with Ret (inl m) => m | _ => mkManifest [] [] [] [] 0 end.
Example C31_nonvacuous : parseBytes true mf = Ret (inl jar_man) /\ parseBytes false sf = Ret (inl jar_sm) /\ NoDup (map fst (m_entries jar_sm)) /\
  verifySignatureFile jar_env toy_sched jar_man 0 (mkSig [] (jp7 "K"%byte []) jar_sm) false 10 33 = Ret (VDone None) /\
  exists e, verifySignatureFile jar_env toy_sched jar_sm 0 (mkSig [] (jp7 "K"%byte []) jar_sm) false 10 33 = Ret (VDone (Some e)).
Proof.
  split; [vm_compute; reflexivity|]. split; [vm_compute; reflexivity|]. split; [vm_compute; constructor; [intros []|constructor]|].
  split; [vm_compute; reflexivity|]. eexists. vm_compute. reflexivity.
Qed.

(** C55.  Every reported chain belongs to a signature that binds the manifest: true when the APK has a file outside
    META-INF/ other than AndroidManifest.xml ... *)
Theorem C55_reported_chains_bind_partial : forall E S apk hasSigningBlock minSdk maxSdk chains, sched_ok S ->
  verifySchemeV1 E S apk hasSigningBlock minSdk maxSdk = Ret (chains, None) ->
  (exists path f, covered_file apk path f) ->
  exists man, main_manifest apk man /\
    forall ch, In ch chains -> exists p sm ch', same_chain ch ch' /\ jar_signature E S apk man minSdk maxSdk (p, sm, ch').
Proof.
  intros E S apk hv minSdk maxSdk chains HS H (path & f & Hc).
  destruct (C28_v1_soundness E S apk hv minSdk maxSdk chains HS H) as (man & sigs & Hman & _ & _ & HF & Hall).
  exists man. split; [exact Hman|]. intros ch Hin. destruct (Hall path f Hc) as (_ & _ & _ & Hs & _).
  destruct (Hs ch Hin) as (y & Hy & Hsame). apply in_map_iff in Hy as ([[p sm] ch'] & <- & Hy). apply filter_In in Hy as [Hy _].
  rewrite Forall_forall in HF. exists p, sm, ch'. split; [exact Hsame|exact (HF _ Hy)].
Qed.
Print Assumptions C55_reported_chains_bind_partial.
(** ... and false otherwise: an APK without such files is reported as signed by key L although L's signature file has
    digests of something else entirely. *)
Definition alien_sf : bytes :=
  s2b "Signature-Version: 1.0" ++ nl ++ s2b "SHA-256-Digest-Manifest: " ++ dig HSha256 (s2b "another manifest") ++ nl ++ nl.
Definition small_mf : bytes := mf_main ++ mf_section "AndroidManifest.xml" the_manifest_xml.
Definition small_sf : bytes := s2b "Signature-Version: 1.0" ++ nl ++ s2b "SHA-256-Digest-Manifest: " ++ dig HSha256 small_mf ++ nl ++ nl.
Definition small_jar : zip :=
  let files := [jfile "META-INF/MANIFEST.MF" small_mf; jfile "META-INF/A.SF" small_sf; jfile "META-INF/A.RSA" (jsign "K"%byte small_sf);
                jfile "META-INF/B.SF" alien_sf; jfile "META-INF/B.RSA" (jsign "L"%byte alien_sf);
                jfile "AndroidManifest.xml" the_manifest_xml] in
  {| z_ordered := files; z_map := map (fun f => (zf_name f, f)) files |}.
Definition small_man : manifest := match parseBytes true small_mf with Ret (inl m) => m | _ => mkManifest [] [] [] [] 0 end.
Definition alien_sm : manifest := match parseBytes false alien_sf with Ret (inl m) => m | _ => mkManifest [] [] [] [] 0 end.
Lemma alien_not_bound : ~ binds jar_env alien_sm small_man 10 33.
Proof.
  intros Hb. apply binds_valid in Hb; [vm_compute in Hb; discriminate Hb|]. vm_compute. constructor.
Qed.
Theorem C55_refuted : exists E S apk chains ch man, sched_ok S /\
  verifySchemeV1 E S apk false 10 33 = Ret (chains, None) /\ In ch chains /\ map c_raw ch = [["L"%byte]; ["R"%byte]] /\
  main_manifest apk man /\
  forall p sm ch', same_chain ch ch' -> ~ jar_signature E S apk man 10 33 (p, sm, ch').
Proof.
  exists jar_env, toy_sched, small_jar. eexists _, _, small_man. split; [exact toy_sched_ok|].
  split; [vm_compute; reflexivity|]. split; [right; left; reflexivity|]. split; [reflexivity|]. split.
  - eexists [], _, _, small_mf. split; [reflexivity|]. split; [reflexivity|]. split; [reflexivity|]. split; [left; reflexivity|].
    split; [vm_compute; reflexivity|]. intros g Hg. repeat (destruct Hg as [<-|Hg]; [discriminate|]). destruct Hg.
  - intros p sm ch' Hsame ((base & ext & block & f & raw & data & Hext & Hbl & Hbn & _ & Hraw & Hp & Hf & Hfn & _ & Hd & Hpb & _) & (c & t & info & Hch & _ & _ & Hincl & _) & Hb).
    assert (Hblk : isBlockName (zf_name block) = true).
    { apply isBlockName_iff. apply block_suffix_dot in Hext as (e & He & ->). exists base, e. auto. }
    assert (Hbase : match cutLast (zf_name block) "."%byte with Some (b, _) => b | None => [] end = base).
    { apply block_suffix_dot in Hext as (e & He & ->). destruct (block_ext_clean e He) as [_ Hdt].
      rewrite (proj2 (cutLast_some (zf_name block) "."%byte base e)); [reflexivity|]. auto. }
    assert (Hhead : c_raw c = ["L"%byte]).
    { unfold same_chain in Hsame. rewrite Hch in Hsame. cbn [map] in Hsame. injection Hsame as Hx _. symmetry. exact Hx. }
    assert (Hcin : In c (p7_certs p)) by (apply Hincl; rewrite Hch; left; reflexivity).
    repeat (destruct Hbl as [<-|Hbl]; [try discriminate Hblk|]); [| |destruct Hbl].
    + destruct Hraw as [Hraw|[]]. assert (raw = jsign "K"%byte small_sf) by congruence. subst raw. clear Hraw.
      assert (p = jp7 "K"%byte (tl (jsign "K"%byte small_sf))) as -> by (assert (Hq : Ret (Some (jp7 "K"%byte (tl (jsign "K"%byte small_sf)))) = Ret (Some p)) by exact Hp; congruence).
      destruct Hcin as [<-|[<-|[]]]; discriminate Hhead.
    + assert (Hfn' : zf_name f = s2b "META-INF/B.SF") by (rewrite Hfn, <- Hbase; reflexivity). clear Hfn.
      repeat (destruct Hf as [<-|Hf]; [try discriminate Hfn'|]); [|destruct Hf].
      destruct Hd as [Hd|[]]. assert (data = alien_sf) by congruence. subst data. clear Hd.
      assert (sm = alien_sm) as -> by (unfold alien_sm; rewrite Hpb; reflexivity). exact (alien_not_bound Hb).
Qed.
Print Assumptions C55_refuted.

(** C27.  If the signature file META-INF/X.SF of a signature block META-INF/X.RSA (.DSA, .EC) declares
    X-Android-APK-Signed with the number 2 among its items, and no other block file has the same base name, then
    v1 verification for max SDK >= 24 without a verified signing block never succeeds, in whatever order maps are iterated. *)
Theorem C27_downgrade_rejected : forall E S apk minSdk maxSdk before block after x ext b sf data rest sm,
  sched_ok S -> 24 <= maxSdk ->
  z_ordered apk = before ++ block :: after ->
  zf_name block = s2b "META-INF/" ++ x ++ ext -> In ext block_suffixes -> base_name x b ->
  (forall g y ext', In g (before ++ after) -> zf_name g = s2b "META-INF/" ++ y ++ ext' -> In ext' block_suffixes -> ~ base_name y b) ->
  In sf (z_ordered apk) -> zf_name sf = s2b "META-INF/" ++ x ++ s2b ".SF" ->
  (forall g, In g (z_ordered apk) -> zf_name g = zf_name sf -> g = sf) ->
  zf_open_ok sf = true -> zf_streams sf = Some data :: rest -> parseBytes false data = Ret (inl sm) -> declares_v2 sm ->
  forall chains, verifySchemeV1 E S apk false minSdk maxSdk <> Ret (chains, None).
Proof.
  intros E S apk minSdk maxSdk before block after x ext b sf data rest sm HS Hmax Hord Hbn Hext Hb Hno Hin Hsn Hu Ho Hst Hp Hdecl chains H.
  unfold verifySchemeV1 in H. destruct (newSchemeV1 E apk) as [[p|]|] eqn:En; cbn [obind] in H; [|discriminate|discriminate].
  destruct (newSchemeV1_spec E apk p En) as (_ & Hnd & _).
  pose proof (verifyV1_sound E S p apk false minSdk maxSdk chains HS Hnd H) as [Hgood _ _ _ _ _ _].
  destruct (block_name_facts _ _ _ Hbn Hext) as [Hbf Hbase].
  destruct (newSchemeV1_finds E apk p block sf sm En) as (k & sig & Hsig & Hsm).
  - exists before, after. split; [exact Hord|]. intros g Hg Hgb Hk. destruct (isBlockFile_iff g Hgb) as (y & ext' & Hgn & He').
    apply (Hno g y ext' Hg Hgn He'). destruct (block_name_facts _ _ _ Hgn He') as [_ Hgbase].
    unfold blockKey in Hk. rewrite Hgbase, Hbase in Hk. apply base_name_last. rewrite Hk. apply base_name_last. exact Hb.
  - exact Hbf.
  - exact Hin.
  - rewrite Hbase, <- app_assoc. exact Hsn.
  - exact Hu.
  - unfold parseManifest. rewrite Ho, Hst. cbn [parseStreams]. rewrite Hp. reflexivity.
  - rewrite Forall_forall in Hgood. destruct (Hgood _ Hsig) as [_ Hstop]. cbn [snd] in Hstop. unfold stops in Hstop. apply orb_false_iff in Hstop as [Hd _].
    assert (Hc : downgrades false maxSdk (sg_sm sig) = true); [|congruence]. apply downgrades_iff. rewrite Hsm. auto.
Qed.
Print Assumptions C27_downgrade_rejected.
(** The same at the level of the parsed signatures, without assumptions on names: no signature the verifier found declares v2. *)
Theorem C27_no_declared_v2_accepted : forall E S apk p minSdk maxSdk chains, sched_ok S -> 24 <= maxSdk ->
  newSchemeV1 E apk = Ret (Some p) -> verifySchemeV1 E S apk false minSdk maxSdk = Ret (chains, None) ->
  forall name sig, In (name, sig) (v1_sigs p) -> ~ declares_v2 (sg_sm sig).
Proof.
  intros E S apk p minSdk maxSdk chains HS Hmax Hn H name sig Hin Hd. unfold verifySchemeV1 in H. rewrite Hn in H. cbn [obind] in H.
  destruct (newSchemeV1_spec E apk p Hn) as (_ & Hnd & _).
  pose proof (verifyV1_sound E S p apk false minSdk maxSdk chains HS Hnd H) as [Hgood _ _ _ _ _ _].
  rewrite Forall_forall in Hgood. destruct (Hgood _ Hin) as [_ Hstop]. cbn [snd] in Hstop. unfold stops in Hstop. apply orb_false_iff in Hstop as [Hdg _].
  assert (Hc : downgrades false maxSdk (sg_sm sig) = true) by (apply downgrades_iff; auto). congruence.
Qed.
Print Assumptions C27_no_declared_v2_accepted.
(** "1, +02" declares v2; "1, 22" does not.  The same APK is accepted with a verified signing block, for maxSdk 23, and with "1, 22". *)
Definition downgraded (ids : string) : zip :=
  let data := sf_with (s2b "X-Android-APK-Signed: " ++ s2b ids ++ nl) in jar mf data (jsign "K"%byte data) the_manifest_xml a_txt.
Example C27_nonvacuous :
  lists_two (s2b "1, +02 ,3") /\ ~ lists_two (s2b "1, 22") /\
  (exists e, verifySchemeV1 jar_env toy_sched (downgraded "1, +02 ,3") false 10 33 = Ret ([[jcert "K" 1 "Root" "leaf"; jcert "R" 7 "root" "root"]], Some e)) /\
  (exists chains, verifySchemeV1 jar_env toy_sched (downgraded "1, +02 ,3") true 10 33 = Ret (chains, None)) /\
  (exists chains, verifySchemeV1 jar_env toy_sched (downgraded "1, +02 ,3") false 10 23 = Ret (chains, None)) /\
  (exists chains, verifySchemeV1 jar_env toy_sched (downgraded "1, 22") false 10 33 = Ret (chains, None)).
Proof.
  split; [apply namesScheme2_iff; reflexivity|]. split; [intros C; apply namesScheme2_iff in C; vm_compute in C; discriminate C|].
  split; [eexists; vm_compute; reflexivity|]. repeat split; eexists; vm_compute; reflexivity.
Qed.

(** C15 (v1): an APK is accepted only if at most 10 signatures were found, and at most 10 chains are reported. *)
Theorem C15_v1_ten_signers : forall E S apk p hasSigningBlock minSdk maxSdk chains, sched_ok S ->
  newSchemeV1 E apk = Ret (Some p) -> verifySchemeV1 E S apk hasSigningBlock minSdk maxSdk = Ret (chains, None) ->
  zlen (v1_sigs p) <= 10 /\ zlen chains <= 10.
Proof.
  intros E S apk p hv minSdk maxSdk chains HS Hn H.
  destruct (v1_sound E S apk hv minSdk maxSdk chains HS H) as (p' & man & sigs & Hn' & _ & Hsucc & _ & _ & Hle & _ & Hreq).
  assert (p' = p) as -> by congruence. pose proof (vs_ten _ _ _ _ _ _ _ _ Hsucc) as Hten. split; [exact Hten|].
  destruct (requiredFiles (z_map apk)) as [|path req] eqn:Er.
  - destruct (vs_all _ _ _ _ _ _ _ _ Hsucc Er) as [Hl _]. unfold zlen in *. rewrite Hl, map_length. exact Hten.
  - destruct (Hreq path (or_introl eq_refl)) as (_ & _ & Hl & _). unfold zlen in *. rewrite Hl, map_length.
    assert (Hfl : forall l : list (p7 * manifest * list cert), (List.length (filter (lists_file path) l) <= List.length l)%nat).
    { induction l as [|a l IH]; [apply Nat.le_refl|]. cbn [filter]. destruct (lists_file path a); cbn [List.length]; lia. }
    specialize (Hfl sigs). lia.
Qed.
Print Assumptions C15_v1_ten_signers.
Definition many_signers (n : nat) : zip :=
  let files := [jfile "META-INF/MANIFEST.MF" mf; jfile "AndroidManifest.xml" the_manifest_xml; jfile "a.txt" a_txt]
               ++ flat_map (fun k => let nm := ["S"%byte; z2b (65 + Z.of_nat k)] in
                    [ {| zf_name := s2b "META-INF/" ++ nm ++ s2b ".SF"; zf_isdir := false; zf_open_ok := true; zf_streams := [Some sf]; zf_readall := fun _ => Some sf |};
                      {| zf_name := s2b "META-INF/" ++ nm ++ s2b ".RSA"; zf_isdir := false; zf_open_ok := true; zf_streams := [Some (jsign (z2b (65 + Z.of_nat k)) sf)]; zf_readall := fun _ => None |} ])
                 (List.seq 0 n) in
  {| z_ordered := files; z_map := map (fun f => (zf_name f, f)) files |}.
Example C15_v1_nonvacuous :
  (exists chains, verifySchemeV1 jar_env toy_sched (many_signers 10) false 10 33 = Ret (chains, None) /\ zlen chains = 10) /\
  (exists chains e, verifySchemeV1 jar_env toy_sched (many_signers 11) false 10 33 = Ret (chains, Some e)).
Proof. split; [eexists; split; [vm_compute; reflexivity|reflexivity]|eexists _, _; vm_compute; reflexivity]. Qed.

(** C49.  Chain building always terminates: with any amount of fuel from #certificates+1 on it gives the same chain, which
    starts with the given certificate, has at most #certificates+1 elements, all from the given list, each one's subject being
    the previous one's issuer, and it only stops at a self-issued certificate, where no issuer certificate is left, or at that bound. *)
Theorem C49_chain_building : forall E S certs c, In c certs ->
  exists t, buildChain E S certs c = c :: t /\ incl (c :: t) certs /\ issuer_chain E S (c :: t) /\
    zlen (c :: t) <= zlen certs + 1 /\ chain_stops E S certs (c :: t) /\
    forall fuel, (List.length certs < fuel)%nat ->
      issuerLoop E S fuel certs (pkixCanonical E S (c_issuer c)) [c] =
      issuerLoop E S (Datatypes.S (List.length certs)) certs (pkixCanonical E S (c_issuer c)) [c].
Proof.
  intros E S certs c Hin. destruct (buildChain_spec E S certs c Hin) as (t & Hb & Hi & Hc & Hl & Hs). exists t.
  repeat (split; [assumption|]). intros fuel Hf.
  replace fuel with (Datatypes.S (List.length certs) + (fuel - Datatypes.S (List.length certs)))%nat by lia.
  apply issuerLoop_fuel.
  - change (zlen [c]) with 1. unfold zlen. lia.
  - change (zlen [c]) with 1. destruct certs as [|a r]; [destruct Hin|]. rewrite zlen_cons. pose proof (zlen_nonneg r). lia.
Qed.
Print Assumptions C49_chain_building.
(** Two certificates that issued each other. *)
Example C49_cycle : let a := jcert "A"%byte 1 "b" "a" in let b := jcert "B"%byte 2 "a" "b" in
  buildChain jar_env toy_sched [a; b] a = [a; b; a].
Proof. vm_compute. reflexivity. Qed.

(** Success of signature verification for a block: the chain's head really signed the signature file. *)
Theorem C49_block_verified : forall E S sig minSdk maxSdk ch, SchemeV1.verifySignature E S sig minSdk maxSdk = Ret (ch, None) ->
  block_verified E S (sg_p7 sig) (m_rawData (sg_sm sig)) minSdk maxSdk ch /\ chain_stops E S (p7_certs (sg_p7 sig)) ch.
Proof. exact verifySignature_sound. Qed.
Print Assumptions C49_block_verified.

(** C50.  An entry check succeeds exactly if some digest is selected and every selected digest uses a known hash function,
    decodes and is accepted; for max SDK >= 18 the strongest digest present is always selected. *)
Theorem C50_entry_check : forall E entry suffix minSdk maxSdk verify (ok : bytes -> hash_id -> Prop),
  (forall digest h, verify digest h = Ret None <-> ok digest h) ->
  verifyManifestEntry E entry suffix minSdk maxSdk verify = Ret None <-> digests_ok E entry suffix minSdk maxSdk ok.
Proof. intros E entry suffix minSdk maxSdk verify ok Hv. apply verifyManifestEntry_iff. exact Hv. Qed.
Theorem C50_strongest_selected : forall E entry suffix minSdk maxSdk algo, 18 <= maxSdk ->
  strongest_digest entry suffix algo -> In algo (getDigestsToVerify E entry suffix minSdk maxSdk).
Proof. intros E entry suffix minSdk maxSdk algo Hm Hs. apply getDigests_iff. right. auto. Qed.
Theorem C50_selected_digests : forall E entry suffix minSdk maxSdk algo,
  In algo (getDigestsToVerify E entry suffix minSdk maxSdk) <-> selected E entry suffix minSdk maxSdk algo.
Proof. exact getDigests_iff. Qed.
Print Assumptions C50_entry_check.
Print Assumptions C50_strongest_selected.
Example C50_nonvacuous :
  let e := [(s2b "digest-algorithms", s2b "SHA-384 SHA1"); (s2b "sha1-digest", s2b "x"); (s2b "sha-384-digest", s2b "y"); (s2b "sha-256-digest", s2b "z")] in
  getDigestsToVerify jar_env e (s2b "-digest") 8 33 = [s2b "sha1"; s2b "sha-384"] /\
  strongest_digest e (s2b "-digest") (s2b "sha-384") /\
  getDigestsToVerify jar_env [(s2b "sha1-digest", s2b "x"); (s2b "sha-256-digest", s2b "z")] (s2b "-digest") 8 33 = [s2b "sha1"; s2b "sha-256"].
Proof.
  cbv zeta. split; [vm_compute; reflexivity|]. split; [apply strongest_find; vm_compute; reflexivity|]. vm_compute. reflexivity.
Qed.

(** C54.  Every honestly signed JAR verifies, for every map iteration order, and the reported chains are headed exactly by the signers' certificates. *)
Theorem C54_v1_completeness : forall E S apk man hasSigningBlock minSdk maxSdk signers, sched_ok S ->
  honest_jar E S apk man hasSigningBlock minSdk maxSdk signers ->
  exists chains, verifySchemeV1 E S apk hasSigningBlock minSdk maxSdk = Ret (chains, None) /\
    zlen chains = zlen signers /\
    (forall ch, In ch chains -> exists g t, In g signers /\ c_raw (jg_cert g) :: t = map c_raw ch) /\
    (forall g, In g signers -> exists ch t, In ch chains /\ map c_raw ch = c_raw (jg_cert g) :: t).
Proof. intros E S apk man hv minSdk maxSdk signers HS H. exact (v1_honest E S apk man hv minSdk maxSdk signers HS H). Qed.
Print Assumptions C54_v1_completeness.

(** The example APK is honestly signed. *)
Definition good_signer : jar_signer := {|
  jg_name := s2b "A"; jg_ext := s2b ".RSA"; jg_block := jfile "META-INF/A.RSA" (jsign "K"%byte sf); jg_sf := jfile "META-INF/A.SF" sf;
  jg_p7 := jp7 "K"%byte ("K"%byte :: toy_hash HSha1 sf);
  jg_info := hd {| ps_issuer := None; ps_serial := 0; ps_digest_alg := []; ps_enc_alg := []; ps_auth_attrs := []; ps_enc_digest := [] |}
                (p7_signers (jp7 "K"%byte ("K"%byte :: toy_hash HSha1 sf)));
  jg_cert := jcert "K"%byte 1 "Root" "leaf"; jg_sm := jar_sm |}.
Lemma good_covered path f : covered_file good_jar path f -> path = s2b "a.txt" /\ f = jfile "a.txt" a_txt.
Proof.
  intros ((Hg & _) & Hx & Hm). apply (mget_in _ bytes_eqb_eq) in Hg.
  repeat (destruct Hg as [Hg|Hg]; [apply pair_equal_spec in Hg as [<- <-]; try (exfalso; eapply Hm; reflexivity); try (exfalso; apply Hx; reflexivity); try (split; reflexivity)|]).
  destruct Hg.
Qed.
Lemma jar_sm_ok : parseBytes false sf = Ret (inl jar_sm).
Proof. vm_compute. reflexivity. Qed.
Lemma jar_man_ok : parseBytes true mf = Ret (inl jar_man).
Proof. vm_compute. reflexivity. Qed.
Lemma jar_sm_nodup : NoDup (map fst (m_entries jar_sm)).
Proof. exact (proj2 (parseBytes_facts _ _ _ jar_sm_ok)). Qed.
Lemma good_binds : binds jar_env jar_sm jar_man 10 33.
Proof. apply (validSf_binds jar_env jar_man 10 33 false); [exact jar_sm_nodup|vm_compute; reflexivity|vm_compute; reflexivity]. Qed.
Lemma good_main : main_attributes_ok jar_env jar_man 10 33 jar_sm.
Proof.
  left. intros algo Hsel. apply getDigests_iff in Hsel.
  assert (He : getDigestsToVerify jar_env (m_main jar_sm) (s2b "-digest-manifest-main-attributes") 10 33 = []) by (vm_compute; reflexivity).
  rewrite He in Hsel. destruct Hsel.
Qed.
Lemma good_v2 : ~ declares_v2 jar_sm.
Proof.
  intros (l & Hl & _). assert (He : sget (s2b "x-android-apk-signed") (m_main jar_sm) = None) by (vm_compute; reflexivity). congruence.
Qed.
Lemma good_signed : signer_signed jar_env toy_sched (jg_p7 good_signer) (jg_info good_signer) sf 33 (jg_cert good_signer).
Proof.
  split; [right; left; reflexivity|]. split; [reflexivity|]. split; [eexists; split; [reflexivity|vm_compute; reflexivity]|]. split; [reflexivity|].
  exists 3, sf. split; [do 9 right; left; reflexivity|]. split; [apply SignsFile; reflexivity|].
  apply OkX509; [lia|intros C; repeat (destruct C as [C|C]; [discriminate C|]); destruct C|]. vm_compute. reflexivity.
Qed.
Lemma good_names : NoDup (map zf_name (z_ordered good_jar)).
Proof. repeat (constructor; [intros C; repeat (destruct C as [C|C]; [discriminate C|]); destruct C|]). constructor. Qed.
Lemma good_honest_signer : honest_signer jar_env toy_sched good_jar jar_man false 10 33 good_signer.
Proof.
  constructor.
  - intros C. repeat (destruct C as [C|C]; [discriminate C|]). destruct C.
  - left. reflexivity.
  - exists (jsign "K"%byte sf). split; [split; [right; right; left; reflexivity|]; split; [reflexivity|]; split; reflexivity|]. reflexivity.
  - exists sf. split; [split; [right; left; reflexivity|]; split; [reflexivity|]; split; reflexivity|]. exact jar_sm_ok.
  - reflexivity.
  - cbn [jg_sm good_signer]. rewrite (proj1 (parseBytes_facts _ _ _ jar_sm_ok)). exact good_signed.
  - intros d [<-|[<-|[]]] Hs _; [discriminate Hs|reflexivity].
  - exact good_binds.
  - exact good_main.
  - right. right. exact good_v2.
  - intros path f Hc. apply good_covered in Hc as [-> _]. cbn [jg_sm good_signer].
    destruct (sget (s2b "a.txt") (m_entries jar_sm)) as [a|] eqn:Ea; [exists a; reflexivity|].
    assert (He : match sget (s2b "a.txt") (m_entries jar_sm) with Some _ => true | None => false end = true) by (vm_compute; reflexivity).
    rewrite Ea in He. discriminate He.
Qed.
Example C54_nonvacuous : honest_jar jar_env toy_sched good_jar jar_man false 10 33 [good_signer].
Proof.
  constructor.
  - split; [discriminate|vm_compute; discriminate].
  - constructor; [intros []|constructor].
  - split; [exact good_names|reflexivity].
  - constructor; [exact good_honest_signer|constructor].
  - intros f x ext Hf Hn He. exists good_signer. split; [left; reflexivity|].
    destruct (block_name_facts f x ext Hn He) as [Hb _].
    repeat (destruct Hf as [<-|Hf]; [try discriminate Hb; try reflexivity|]). destruct Hf.
  - exists (jfile "META-INF/MANIFEST.MF" mf), mf. split; [split; [left; reflexivity|]; split; [reflexivity|]; split; reflexivity|]. exact jar_man_ok.
  - intros name at_ Hn. apply (mget_in _ bytes_eqb_eq) in Hn. apply (in_map fst) in Hn. cbn [fst] in Hn.
    assert (He : map fst (m_entries jar_man) = [s2b "AndroidManifest.xml"; s2b "a.txt"]) by (vm_compute; reflexivity). rewrite He in Hn.
    destruct Hn as [<-|[<-|[]]]; eexists; vm_compute; reflexivity.
  - intros path f Hc. apply good_covered in Hc as [-> ->].
    destruct (sget (s2b "a.txt") (m_entries jar_man)) as [a|] eqn:Ea.
    + exists a. split; [reflexivity|]. apply (fileCheck_iff jar_env 10 33 (z_map good_jar) (s2b "a.txt")); [reflexivity|].
      assert (He : match sget (s2b "a.txt") (m_entries jar_man) with Some a => passes (fileCheck jar_env 10 33 (z_map good_jar) (s2b "a.txt") a) | None => false end = true) by (vm_compute; reflexivity).
      rewrite Ea in He. apply passes_iff. exact He.
    + exfalso. assert (He : match sget (s2b "a.txt") (m_entries jar_man) with Some _ => true | None => false end = true) by (vm_compute; reflexivity).
      rewrite Ea in He. discriminate He.
  - exists (jfile "AndroidManifest.xml" the_manifest_xml). split; reflexivity.
Qed.
