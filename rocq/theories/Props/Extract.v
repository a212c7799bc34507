(** C67, C68: ExtractCerts, and no falling back to v1 when there is a signature block. *)
From Coq Require Import String Lia.
From Verif.Model Require Import Bytes Env ApiLevel Manifest Result Verify SchemeV1 ApkVerifier.
From Verif.Spec Require Import Encoding ApkLayout Nondet Digests Entries Signer SignerV3 Verified Calls JarSigned HonestJar AndroidManifest TopLevel.
From Verif.Proofs Require Import BytesFacts ApkFacts V1ScanFacts V1FilesFacts V1HonestFacts TopFacts PlainFacts PlainApkFacts V1ExtractFacts.
From Verif.Props Require Import SchemeV1 TopLevel.
From Verif.Examples Require Import Toy ToyApk ToyJar.

(** ** C68 *)

(** C68.  If the APK has a v2, v3 or v3.1 signature block that the newest device knows, then the verifier never ignores it:
    whatever error the signing block verification gives is the error returned, and the APK is accepted only under
    scheme 2 or later, the signing block having verified. *)
Theorem C68_no_fallback_to_v1 : forall E S, hash_sizes_ok E -> sched_ok S -> forall file es sections z minArg maxSdk res err,
  apk_with file es sections -> usable maxSdk es ->
  verifyWithSdk E S file (Some z) minArg maxSdk = Ret (res, err) ->
  err = Some AErrRange \/
  exists minSdk vr, effective_min E z minArg minSdk /\ minSdk <= maxSdk /\ verifySigningBlock E S file minSdk maxSdk z = Ret vr /\
    (forall e, vr_err vr = Some e -> err = Some (AErrBlock e)) /\
    (err = None -> vr_err vr = None /\ 2 <= ar_schemeId res /\ block_signed E file minSdk maxSdk (ar_schemeId res) (ar_certs res)).
Proof.
  intros E S HE HS file es sections z minArg maxSdk res err Ap U H. pose proof H as H0. rewrite verify_unfold in H. cbn zeta in H.
  destruct (Z.ltb_spec maxSdk (min_of E z minArg maxSdk)) as [Hr|Hr]; [left; congruence|]. right.
  apply obind_ret in H as (vr & Hvr & H). exists (min_of E z minArg maxSdk), vr. split; [apply min_of_effective|]. split; [exact Hr|]. split; [exact Hvr|].
  pose proof (verifySigningBlock_plain E S file es sections _ _ z vr Ap U Hvr) as Pl. split.
  - intros e He. rewrite He in *. destruct e as [m|m]; [congruence|discriminate].
  - intros ->. destruct (vr_err vr) as [[m|m]|] eqn:Ev; [congruence|discriminate|]. split; [reflexivity|].
    destruct (block_result _ _ _ _ _ _ _ Hvr Ev) as (b & Hb).
    assert (V : verifies E S file (min_of E z minArg maxSdk) maxSdk z b) by (exists vr; auto).
    destruct (verifies_block_signed E S _ _ _ _ _ HE HS V) as [(_ & _ & Hlt)|(H2 & H24 & Hc & Hs)]; [apply usable_24 in U; lia|].
    rewrite Hb in H. destruct (24 <=? min_of E z minArg maxSdk).
    + match type of H with Ret (?x, _) = _ => assert (Hres : res = x) by congruence end. rewrite Hres. auto.
    + apply v1Tail_iff in H as (cs1 & _ & _ & _ & Hres & _); [|left; reflexivity]. rewrite Hres. cbn [ar_schemeId ar_certs].
      unfold scheme, chains in *. destruct (certs (v_core b)) eqn:Ec; [congruence|]. auto.
Qed.
Print Assumptions C68_no_fallback_to_v1.

(** A broken v2 signature (wrong digest): the JAR signatures, which are valid, do not help. *)
Example C68_nonvacuous : let E := with_xml jar_env (mani "1" "9" "29", true) in
  let file := toy_file [(id_v2, toy_block [toy_signer2 kA (toy_hash HSha256 []) []])] in
  (exists es sections, apk_with file es sections /\ usable 33 es) /\
  (exists res e, verifyWithSdk E toy_sched file (Some good_jar) (-1) 33 = Ret (res, Some (AErrBlock e))) /\
  (exists res, verifyWithSdk E toy_sched plain_file (Some good_jar) (-1) 33 = Ret (res, None)).
Proof.
  cbn zeta. split.
  - eapply (usable_by_running toy_env); vm_compute; reflexivity.
  - split; [eexists _, _; vm_compute; reflexivity|eexists; vm_compute; reflexivity].
Qed.

(** ** C67 *)

(** Largest SDK level: what ExtractCerts verifies for. *)
Definition any_max : Z := 2147483647.

(** C67, APKs with a signature block.  ExtractCerts returns exactly what the extraction from the signing block returns; the ZIP
    entries and the order of map iteration do not matter. *)
Theorem C67_block_only : forall E S file es sections z cs err, apk_with file es sections -> usable any_max es ->
  extractCertsReader E file (-1) any_max = Ret (cs, err) ->
  extractCerts E S file (Some z) = Ret (cs, option_map AErrBlock err).
Proof.
  intros E S file es sections z cs err Ap U H. unfold extractCerts. change V_AnyMin with (-1). change V_AnyMax with any_max. rewrite H. cbn [obind].
  rewrite (extractCertsReader_block E file es sections _ _ _ _ Ap U H). cbn [negb]. destruct err; reflexivity.
Qed.
Print Assumptions C67_block_only.

(** C67, meaning of the result.  If ExtractCerts returns a nil error then the chains are those of the signers of the newest
    signature block if there is one, and of the JAR signatures - at least one - otherwise; in each case every signer's signature
    over its signed data (signature file) verifies under the first certificate of its chain. *)
Theorem C67_extract_sound : forall E S, sched_ok S -> forall file z cs,
  extractCerts E S file (Some z) = Ret (cs, None) ->
  (exists es sections, apk_with file es sections /\ usable any_max es /\ block_chains E any_max es cs) \/
  ((~ exists es sections, apk_with file es sections /\ usable any_max es) /\ jar_chains E S z (-1) any_max cs).
Proof.
  intros E S HS file z cs H. unfold extractCerts in H. apply obind_ret in H as ([cs0 be] & Hb & H).
  change V_AnyMin with (-1) in *. change V_AnyMax with any_max in *. destruct (isNotFound be) eqn:Hn; cbn [negb] in H.
  - right. destruct (extractCertsReader_none E file _ _ _ _ Hb Hn) as [-> Hno]. split; [exact Hno|].
    apply obind_ret in H as ([cs1 e1] & Hv & H). destruct e1; [discriminate|]. cbn [app] in H. assert (cs1 = cs) as -> by congruence.
    destruct (extractV1_sound E S z _ _ _ HS Hv) as (p & sigs & _ & Hne & Hc & HF & _). exists sigs. auto.
  - left. destruct be; [discriminate|]. assert (cs0 = cs) as -> by congruence.
    assert (Hu : exists es sections, apk_with file es sections /\ usable any_max es).
    { unfold extractCertsReader in Hb. destruct (newSigningBlock file); [|discriminate]. apply obind_ret in Hb as (fr & Fi & Hb). destruct fr as [st s|st s]; [discriminate|].
      destruct (pickScheme (en_blocks st)) as [id [b|]] eqn:Pk; [|discriminate]. apply (usable_by_running E file any_max st s b Fi). rewrite Pk. reflexivity. }
    destruct Hu as (es & sections & Ap & U). exists es, sections. split; [exact Ap|]. split; [exact U|].
    exact (extractCertsReader_sound E file es sections (-1) any_max cs Ap U Hb).
Qed.
Print Assumptions C67_extract_sound.

(** C67, no JAR signature is left out: a signature file with its block, with names of their own (as in C27), is among the
    signatures whose chains are returned. *)
Theorem C67_jar_complete : forall E S file z cs before block after x ext b sf data rest sm, sched_ok S ->
  (~ exists es sections, apk_with file es sections /\ usable any_max es) -> extractCerts E S file (Some z) = Ret (cs, None) ->
  z_ordered z = before ++ block :: after ->
  zf_name block = s2b "META-INF/" ++ x ++ ext -> In ext block_suffixes -> base_name x b ->
  (forall g y ext', In g (before ++ after) -> zf_name g = s2b "META-INF/" ++ y ++ ext' -> In ext' block_suffixes -> ~ base_name y b) ->
  In sf (z_ordered z) -> zf_name sf = s2b "META-INF/" ++ x ++ s2b ".SF" ->
  (forall g, In g (z_ordered z) -> zf_name g = zf_name sf -> g = sf) ->
  zf_open_ok sf = true -> zf_streams sf = Some data :: rest -> parseBytes false data = Ret (inl sm) ->
  exists p ch, In ch cs /\ signature_pair E z p sm /\ block_verified E S p data (-1) any_max ch.
Proof.
  intros E S file z cs before block after x ext b sf data rest sm HS Hno H Hord Hbn Hext Hb Hnames Hin Hsn Hu Ho Hst Hp.
  unfold extractCerts in H. apply obind_ret in H as ([cs0 be] & Hbe & H).
  change V_AnyMin with (-1) in *. change V_AnyMax with any_max in *. destruct (isNotFound be) eqn:Hn; cbn [negb] in H.
  2:{ exfalso. apply Hno. destruct be; [discriminate|].
      unfold extractCertsReader in Hbe. destruct (newSigningBlock file); [|discriminate]. apply obind_ret in Hbe as (fr & Fi & Hbe). destruct fr as [st s|st s]; [discriminate|].
      destruct (pickScheme (en_blocks st)) as [id [b0|]] eqn:Pk; [|discriminate]. apply (usable_by_running E file any_max st s b0 Fi). rewrite Pk. reflexivity. }
  destruct (extractCertsReader_none E file _ _ _ _ Hbe Hn) as [-> _].
  apply obind_ret in H as ([cs1 e1] & Hv & H). destruct e1; [discriminate|]. cbn [app] in H. assert (cs1 = cs) as -> by congruence.
  destruct (extractV1_sound E S z _ _ _ HS Hv) as (p & sigs & En & _ & Hc & HF & Hall).
  destruct (block_name_facts _ _ _ Hbn Hext) as [Hbf Hbase].
  destruct (newSchemeV1_finds E z p block sf sm En) as (k & sig & Hsig & Hsm).
  - exists before, after. split; [exact Hord|]. intros g Hg Hgb Hk. destruct (isBlockFile_iff g Hgb) as (y & ext' & Hgn & He').
    apply (Hnames g y ext' Hg Hgn He'). destruct (block_name_facts _ _ _ Hgn He') as [_ Hgbase].
    unfold blockKey in Hk. rewrite Hgbase, Hbase in Hk. apply base_name_last. rewrite Hk. apply base_name_last. exact Hb.
  - exact Hbf.
  - exact Hin.
  - rewrite Hbase, <- app_assoc. exact Hsn.
  - exact Hu.
  - unfold parseManifest. rewrite Ho, Hst. cbn [parseStreams]. rewrite Hp. reflexivity.
  - destruct (Hall k sig Hsig) as (ch & Hch). exists (sg_p7 sig), ch. split; [rewrite Hc; apply (in_map snd) in Hch; exact Hch|].
    rewrite Forall_forall in HF. destruct (HF _ Hch) as [H1 H2]. cbn [fst snd] in H1, H2. rewrite Hsm in *. split; [exact H1|].
    destruct (parseBytes_facts _ _ _ Hp) as [Hraw _]. rewrite Hraw in H2. exact H2.
Qed.
Print Assumptions C67_jar_complete.

(** C67, agreement.  If an APK without signature block is accepted for devices on both sides of API 24, then ExtractCerts succeeds
    and its result includes all the chains reported. *)
Theorem C67_agrees : forall E S S', hash_sizes_ok E -> sched_ok S -> sched_ok S' -> same_sort S S' -> forall file z minArg maxSdk res cs err,
  (~ exists es sections, apk_with file es sections /\ usable any_max es) ->
  accepts E S' file z minArg maxSdk res -> 24 <= maxSdk <= any_max ->
  (forall minSdk, effective_min E z minArg minSdk -> minSdk < 24) ->
  extractCerts E S file (Some z) = Ret (cs, err) ->
  err = None /\ forall ch, In ch (ar_certs res) -> exists c, In c cs /\ same_chain ch c.
Proof.
  intros E S S' HE HS HS' Hss file z minArg maxSdk res cs err Hno H Hmax Hmin Hex. apply verify_cases in H; [|left; reflexivity].
  pose proof (Hmin _ (min_of_effective E z minArg maxSdk)) as Hlt.
  inversion H as [vr b Hvr Hb He [Hm1 Hm2] Hres|vr noBlock id cs0 cs1 err0 Hvr Hr Hc Hv1 Hs Hm Hres He0]; [lia|]. clear H.
  destruct Hc as [(-> & Hn & -> & ->)|(-> & He & _ & b & Hb & -> & ->)].
  2:{ exfalso. apply Hno. assert (V : verifies E S' file (min_of E z minArg maxSdk) maxSdk z b) by (exists vr; auto).
      destruct (verifies_block_signed E S' _ _ _ _ _ HE HS' V) as [(_ & _ & C)|(_ & _ & _ & es & sec & Ap & D)]; [lia|]. exists es, sec. split; [exact Ap|].
      destruct D as [(_ & is & bf & (_ & _ & bk & L & _) & _)|[(_ & is & lin & (_ & _ & bk & L & _) & _)|(_ & is31 & lin & is3 & (_ & _ & _ & bk & bk3 & rot & lin3 & L & _) & _)]].
      - left. split; [unfold any_max; lia|apply last_entry_in; eauto].
      - right. left. split; [unfold any_max; lia|apply last_entry_in; eauto].
      - right. right. split; [unfold any_max; lia|apply last_entry_in; eauto]. }
  assert (Hmg : newSigningBlock file <> None).
  { intros C. unfold verifySigningBlock in Hvr. rewrite C in Hvr. match type of Hvr with Ret ?x = _ => assert (Hv : vr = x) by congruence end. rewrite Hv in Hn. discriminate. }
  unfold extractCerts in Hex. change V_AnyMin with (-1) in *. change V_AnyMax with any_max in *. apply obind_ret in Hex as ([cs2 be] & Hbe & Hex).
  assert (Hnb : isNotFound be = true).
  { unfold extractCertsReader in Hbe. destruct (newSigningBlock file); [|congruence]. apply obind_ret in Hbe as (fr & Fi & Hbe). destruct fr as [st s|st s].
    - assert (be = Some (ErrNotFound "findSignatureBlocks")) as -> by congruence. reflexivity.
    - destruct (pickScheme (en_blocks st)) as [i [b0|]] eqn:Pk; [|assert (be = Some noBlockError) as -> by congruence; reflexivity].
      exfalso. apply Hno. apply (usable_by_running E file any_max st s b0 Fi). rewrite Pk. reflexivity. }
  rewrite Hnb in Hex. cbn [negb] in Hex. destruct (extractCertsReader_none E file _ _ _ _ Hbe Hnb) as [-> _].
  destruct (extractV1_agrees E S S' z (negb true) (min_of E z minArg maxSdk) maxSdk (-1) any_max cs1 HS HS' Hss) as (cs3 & Hx & Hin); [| |exact Hv1|].
  - apply Z.ltb_lt in Hlt. rewrite Hlt. reflexivity.
  - destruct (Z.ltb_spec maxSdk 24); [lia|]. reflexivity.
  - rewrite Hx in Hex. cbn [obind app] in Hex. assert (cs3 = cs) as -> by congruence. split; [congruence|]. rewrite Hres. cbn [ar_certs]. exact Hin.
Qed.
Print Assumptions C67_agrees.
(** The levels matter: if only devices from API 24 count, any signer of the PKCS#7 object will do for the verifier, but
    ExtractCerts looks at the first one only. *)
Definition two_signers (k : byte) (sig : bytes) : p7 :=
  let p := jp7 k sig in
  {| p7_certs := p7_certs p;
     p7_signers := {| ps_issuer := Some (cn "ROOT"); ps_serial := 1; ps_digest_alg := [1; 3; 14; 3; 2; 26];
                       ps_enc_alg := [1; 2; 840; 113549; 1; 1; 1]; ps_auth_attrs := []; ps_enc_digest := [] |} :: p7_signers p;
     p7_content_type := p7_content_type p |}.
Definition with_pkcs7 (E : env) (f : bytes -> outcome (option p7)) : env := {|
  e_hash := e_hash E; e_rsa_pss := e_rsa_pss E; e_rsa_pkcs1 := e_rsa_pkcs1 E; e_ecdsa := e_ecdsa E; e_dsa := e_dsa E;
  e_asn1_ints := e_asn1_ints E; e_asn1_rs_std := e_asn1_rs_std E; e_asn1_rs_andr := e_asn1_rs_andr E;
  e_pkix_andr := e_pkix_andr E; e_pkix_std := e_pkix_std E; e_cert_andr := e_cert_andr E; e_cert_std := e_cert_std E;
  e_pkcs7 := f; e_asn1_oid := e_asn1_oid E; e_asn1_octets := e_asn1_octets E; e_marshal_attrs := e_marshal_attrs E;
  e_cert_check := e_cert_check E; e_base64 := e_base64 E; e_parse_xml := e_parse_xml E; e_to_lower := e_to_lower E |}.
Definition two_env : env := with_pkcs7 jar_env (fun raw => match raw with k :: sig => Ret (Some (two_signers k sig)) | [] => Ret None end).
Theorem C67_newer_refuted : exists E S file z res cs, hash_sizes_ok E /\ sched_ok S /\
  accepts E S file z 24 25 res /\ ar_schemeId res = 1 /\ zlen (ar_certs res) = 1 /\ exists e, extractCerts E S file (Some z) = Ret (cs, Some e).
Proof.
  exists two_env, toy_sched, plain_file, good_jar. eexists _, _. split; [exact toy_hash_sizes|]. split; [exact toy_sched_ok|].
  split; [unfold accepts; vm_compute; reflexivity|]. split; [reflexivity|]. split; [reflexivity|]. eexists. vm_compute. reflexivity.
Qed.
Print Assumptions C67_newer_refuted.
Example C67_nonvacuous :
  (exists cs, extractCerts jar_env toy_sched plain_file (Some good_jar) = Ret (cs, None) /\ zlen cs = 1) /\
  (exists cs, extractCerts jar_env toy_sched (toy_file [(id_v2, toy_block [toy_signer2 kA toy_digest []])]) (Some good_jar) = Ret (cs, None) /\ zlen cs = 1) /\
  (exists res, accepts (with_xml jar_env (mani "1" "9" "29", true)) toy_sched plain_file good_jar (-1) 33 res /\ zlen (ar_certs res) = 1).
Proof.
  split; [eexists; split; vm_compute; reflexivity|]. split; [eexists; split; vm_compute; reflexivity|].
  eexists. split; [unfold accepts; vm_compute; reflexivity|reflexivity].
Qed.
