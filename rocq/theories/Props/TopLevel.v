(** C24, C25, C26, C56, C57: the entry points of the package (apkverifier.go). *)
From Coq Require Import String Lia.
From Verif.Model Require Import Bytes Env ApiLevel Manifest Result Verify SchemeV1 ApkVerifier.
From Verif.Spec Require Import Encoding ApkLayout Nondet Digests Entries Signer SignerV3 Verified Calls JarSigned AndroidManifest TopLevel.
From Verif.Proofs Require Import BytesFacts ApkFacts PropFacts TopFacts.
From Verif.Props Require Import SchemeV1.
From Verif.Examples Require Import Toy ToyApk ToyJar.

(** VerifyWithSdkVersionReader(file, zip, min, max) returns [res] and a nil error / this error. *)
Definition accepts (E : env) (S : sched) (file : bytes) (z : zip) (minArg maxSdk : Z) (res : aresult) : Prop :=
  verifyWithSdk E S file (Some z) minArg maxSdk = Ret (res, None).
Definition rejects (E : env) (S : sched) (file : bytes) (z : zip) (minArg maxSdk : Z) (res : aresult) (err : aerr) : Prop :=
  verifyWithSdk E S file (Some z) minArg maxSdk = Ret (res, Some err).

Lemma verifies_block_signed E S file minSdk maxSdk z b : hash_sizes_ok E -> sched_ok S -> verifies E S file minSdk maxSdk z b ->
  scheme b = 1 /\ chains b = [] /\ maxSdk < 24 \/
  2 <= scheme b /\ 24 <= maxSdk /\ chains b <> [] /\ block_signed E file minSdk maxSdk (scheme b) (chains b).
Proof.
  intros HE HS V. destruct (verifies_verdict E S HE HS _ _ _ _ _ V) as (es & sec & A & Vd). unfold block_signed.
  assert (H0 : scheme b <> 1 -> ~ maxSdk < 24).
  { intros Hn Hlt. destruct Vd as [M Q1 Q2 Q3|is31 is3 Q V31 Qc|is Q N V3 Qc|is Q N31 N3 V2 Qc Ql|is c0 Q N31 N3 Mi Nv V2 Qc]; [congruence| | | |];
    [destruct V31 as (M & _)|destruct V3 as (M & _)|destruct V2 as (M & _)|destruct V2 as (M & _)]; lia. }
  assert (Hmap : forall {A B} (f : A -> B) l, l <> [] -> map f l <> []) by (intros A0 B f [|x l] Hl; [congruence|discriminate]).
  destruct Vd as [M Q1 Q2 Q3|is31 is3 Q V31 Qc|is Q N V3 Qc|is Q N31 N3 V2 Qc Ql|is c0 Q N31 N3 Mi Nv V2 Qc].
  - left. auto.
  - right. rewrite Q in *. split; [lia|]. split; [specialize (H0 ltac:(lia)); lia|]. split; [rewrite Qc; apply Hmap; apply V31|].
    exists es, sec. split; [exact A|]. right. right. split; [reflexivity|]. exists is31, (reported_lineage b), is3. auto.
  - right. rewrite Q in *. split; [lia|]. split; [specialize (H0 ltac:(lia)); lia|]. split; [rewrite Qc; apply Hmap; apply V3|].
    exists es, sec. split; [exact A|]. right. left. split; [reflexivity|]. exists is, (reported_lineage b). auto.
  - right. rewrite Q in *. split; [lia|]. split; [specialize (H0 ltac:(lia)); lia|]. split; [rewrite Qc; apply Hmap; apply V2|].
    exists es, sec. split; [exact A|]. left. split; [reflexivity|]. exists is, []. auto.
  - right. rewrite Q in *. split; [lia|]. split; [specialize (H0 ltac:(lia)); lia|]. split; [rewrite Qc; intros C; apply app_eq_nil in C as [_ C]; revert C; apply Hmap; apply V2|].
    exists es, sec. split; [exact A|]. left. split; [reflexivity|]. exists is, c0. split; [exact V2|]. split; [exact Qc|]. intros [C|C]; [lia|contradiction].
Qed.

(** C24.  A nil error means that the APK is authenticated for all devices from [minSdk] - the caller's, or the manifest's -
    to [maxSdk]: either its signing block verifies under the reported scheme (at least 2) and the reported chains are
    its signers', and if some device is older than API 24 then the JAR signatures verify as well; or the JAR signatures
    verify and the reported chains are theirs, and the reported scheme is 1. *)
Theorem C24_authenticated : forall E S, hash_sizes_ok E -> sched_ok S -> forall file z minArg maxSdk res,
  accepts E S file z minArg maxSdk res ->
  exists minSdk, effective_min E z minArg minSdk /\ minSdk <= maxSdk /\
    ((2 <= ar_schemeId res /\ 24 <= maxSdk /\ block_signed E file minSdk maxSdk (ar_schemeId res) (ar_certs res) /\
      (24 <= minSdk \/ exists chains1, jar_signed E S z minSdk maxSdk chains1))
     \/ (ar_schemeId res = 1 /\ jar_signed E S z minSdk maxSdk (ar_certs res))).
Proof.
  intros E S HE HS file z minArg maxSdk res H. apply verify_cases in H; [|left; reflexivity].
  exists (min_of E z minArg maxSdk). split; [apply min_of_effective|].
  assert (Hjar : forall hv cs, verifySchemeV1 E S z hv (min_of E z minArg maxSdk) maxSdk = Ret (cs, None) -> jar_signed E S z (min_of E z minArg maxSdk) maxSdk cs).
  { intros hv cs Hv. exact (C28_v1_soundness E S z hv _ _ cs HS Hv). }
  inversion H as [vr b Hvr Hb He [Hm1 Hm2] Hres|vr noBlock id cs cs1 err Hvr Hr Hc Hv1 Hs Hm Hres He0]; subst.
  - split; [exact Hm2|]. left. cbn [ar_schemeId ar_certs].
    assert (V : verifies E S file (min_of E z minArg maxSdk) maxSdk z b) by (exists vr; auto).
    destruct (verifies_block_signed E S _ _ _ _ _ HE HS V) as [(_ & _ & Hlt)|(H2 & H24 & _ & Hs)]; [lia|].
    split; [exact H2|]. split; [exact H24|]. split; [exact Hs|]. left. exact Hm1.
  - split; [exact Hr|]. cbn [ar_schemeId ar_certs].
    destruct Hc as [(-> & Hn & -> & ->)|(-> & He & Hlt & b & Hb & -> & ->)].
    + right. split; [reflexivity|]. exact (Hjar _ _ Hv1).
    + assert (V : verifies E S file (min_of E z minArg maxSdk) maxSdk z b) by (exists vr; auto).
      destruct (verifies_block_signed E S _ _ _ _ _ HE HS V) as [(H1 & Hc & Hlt24)|(H2 & H24 & Hne & Hsg)].
      * right. unfold scheme in H1. unfold chains in Hc. rewrite H1, Hc. split; [reflexivity|]. exact (Hjar _ _ Hv1).
      * left. unfold scheme in *. unfold chains in *. split; [exact H2|]. split; [exact H24|].
        split; [destruct (certs (v_core b)); [congruence|exact Hsg]|]. right. exists cs1. exact (Hjar _ _ Hv1).
Qed.
Print Assumptions C24_authenticated.

(** The same decision from the other side: what is enough for a nil error, and what is reported then. *)
Theorem C57_block_accepted : forall E S file z minArg maxSdk b,
  forall minSdk, effective_min E z minArg minSdk -> (minArg <> -1 \/ sget (s2b "AndroidManifest.xml") (z_map z) = None \/
    exists toks ok mn tg sb, manifest_of E z toks ok /\ (ok = true \/ exists u, In u toks /\ named "uses-sdk" u) /\ manifest_info toks mn tg sb) ->
  24 <= minSdk <= maxSdk -> verifies E S file minSdk maxSdk z b ->
  accepts E S file z minArg maxSdk (mkARes (scheme b) (chains b) (Some b)).
Proof.
  intros E S file z minArg maxSdk b minSdk (He1 & He2) Hk Hr (vr & Hvr & Hb & Herr).
  assert (Hmin : min_of E z minArg maxSdk = minSdk).
  { pose proof (min_of_effective E z minArg maxSdk) as (Hf1 & Hf2). destruct (Z.eq_dec minArg (-1)) as [Hm|Hm].
    - destruct (He2 Hm) as (Ha & Hb'). destruct (Hf2 Hm) as (Hc & Hd). destruct Hk as [Hk|[Hk|(toks & ok & mn & tg & sb & H1 & H2 & H3)]]; [congruence| |].
      + rewrite (Ha Hk), (Hc Hk). reflexivity.
      + rewrite (Hb' _ _ _ _ _ H1 H2 H3), (Hd _ _ _ _ _ H1 H2 H3). reflexivity.
    - rewrite (He1 Hm), (Hf1 Hm). reflexivity. }
  apply verify_cases; [left; reflexivity|]. apply (vc_block _ _ _ _ _ _ _ vr b); rewrite ?Hmin; auto.
Qed.
Print Assumptions C57_block_accepted.
(** An APK without signing block whose JAR signatures verify is accepted if its manifest allows that and the file is
    not a DEX file as well. *)
Theorem C57_jar_accepted : forall E S file z minArg maxSdk b m chs toks ok min target sandbox,
  manifest_of E z toks ok -> (ok = true \/ exists u, In u toks /\ named "uses-sdk" u) -> manifest_info toks min target sandbox ->
  forall minSdk, minSdk = (if minArg =? -1 then min else minArg) -> minSdk <= maxSdk ->
  returns E S file minSdk maxSdk z b (Some (ErrNotFound m)) ->
  verifySchemeV1 E S z false minSdk maxSdk = Ret (chs, None) ->
  (26 <= maxSdk -> sandbox <= 1) -> ~ 30 <= target <= maxSdk -> ~ starts_with_dex file ->
  accepts E S file z minArg maxSdk (mkARes 1 chs (Some b)).
Proof.
  intros E S file z minArg maxSdk b m chs toks ok mn tg sb Hm Hok Hi minSdk Hmin Hr (vr & Hvr & Hb & Herr) Hv1 Hsb Htg Hdex.
  pose proof (getManifestInfo_known E z toks ok mn tg sb Hm Hok Hi) as Hg.
  assert (Hmo : min_of E z minArg maxSdk = minSdk).
  { subst minSdk. unfold min_of, used_info. rewrite Hg. unfold V_AnyMin. destruct (Z.eqb_spec minArg (-1)); cbn [orb]; [reflexivity|]. destruct (RequiresSandboxV2 maxSdk); reflexivity. }
  apply verify_cases; [left; reflexivity|]. apply (vc_v1 _ _ _ _ _ _ _ vr true 1 [] chs); rewrite ?Hmo; try assumption; try reflexivity.
  - left. rewrite Herr. auto.
  - unfold sandbox_ok, RequiresSandboxV2, V8_0_Oreo, V11_0_Eleven. destruct (Z.leb_spec 26 maxSdk) as [Hmax|Hmax].
    + assert (Hu : used_enc E z minArg maxSdk = mkEnc mn tg sb).
      { unfold used_enc, used_info, RequiresSandboxV2, V8_0_Oreo. destruct (Z.leb_spec 26 maxSdk); [|lia]. rewrite orb_true_r, Hg. reflexivity. }
      rewrite Hu. cbn [en_sandbox en_target]. destruct (Z.ltb_spec 1 sb); [specialize (Hsb Hmax); lia|].
      destruct (Z.leb_spec 30 tg); [|reflexivity]. destruct (Z.leb_spec tg maxSdk); [lia|reflexivity].
    + cbn [andb negb]. destruct (Z.leb_spec 30 (en_target (used_enc E z minArg maxSdk))); [|reflexivity]. destruct (Z.leb_spec (en_target (used_enc E z minArg maxSdk)) maxSdk); [lia|reflexivity].
  - left. reflexivity.
  - rewrite Hb. reflexivity.
  - assert (Hmg : newSigningBlock file = Some (vr_magic vr)) by (apply (magic_of _ _ _ _ _ _ _ Hvr); rewrite Herr; right; reflexivity).
    destruct (Z.eqb_spec (vr_magic vr) dexHeaderMagic) as [C|_]; [|reflexivity]. exfalso. apply Hdex. apply (dex_iff _ _ Hmg). exact C.
Qed.
Print Assumptions C57_jar_accepted.

(** C25.  A file starting with the DEX magic is accepted only if its signing block verifies and all devices look at
    that (API 24 and newer): never on the strength of the JAR signatures. *)
Theorem C25_dex_rejected : forall E S, hash_sizes_ok E -> sched_ok S -> forall file z minArg maxSdk res,
  starts_with_dex file -> accepts E S file z minArg maxSdk res ->
  exists minSdk, effective_min E z minArg minSdk /\ 24 <= minSdk <= maxSdk /\ 2 <= ar_schemeId res /\
    block_signed E file minSdk maxSdk (ar_schemeId res) (ar_certs res).
Proof.
  intros E S HE HS file z minArg maxSdk res Hdex H. apply verify_cases in H; [|left; reflexivity].
  inversion H as [vr b Hvr Hb He [Hm1 Hm2] Hres|vr noBlock id cs cs1 err Hvr Hr Hc Hv1 Hs Hm Hres He0]; subst.
  - exists (min_of E z minArg maxSdk). split; [apply min_of_effective|]. split; [auto|]. cbn [ar_schemeId ar_certs].
    assert (V : verifies E S file (min_of E z minArg maxSdk) maxSdk z b) by (exists vr; auto).
    destruct (verifies_block_signed E S _ _ _ _ _ HE HS V) as [(_ & _ & Hlt)|(H2 & _ & _ & Hs)]; [lia|]. auto.
  - exfalso. assert (Hmg : newSigningBlock file = Some (vr_magic vr)).
    { apply (magic_of _ _ _ _ _ _ _ Hvr). destruct Hc as [(_ & Hn & _)|(_ & He & _)]; auto. }
    apply (dex_iff _ _ Hmg) in Hdex. rewrite Hdex in He0. discriminate He0.
Qed.
Print Assumptions C25_dex_rejected.

(** ErrMixedDexApkFile is returned only for files that start with the DEX magic and would otherwise be accepted: with the
    same ZIP entries and the same outcome of the signing block, any file that does not start with the magic is accepted,
    with the same certificates and scheme. *)
Theorem C25_only_dex : forall E S file z minArg maxSdk res, rejects E S file z minArg maxSdk res AErrMixedDex ->
  starts_with_dex file /\
  forall file', ~ starts_with_dex file' -> 4 <= zlen file' ->
    (forall minSdk vr, verifySigningBlock E S file minSdk maxSdk z = Ret vr ->
       exists vr', verifySigningBlock E S file' minSdk maxSdk z = Ret vr' /\ vr_res vr' = vr_res vr /\ vr_err vr' = vr_err vr) ->
    accepts E S file' z minArg maxSdk res.
Proof.
  intros E S file z minArg maxSdk res H. apply verify_cases in H; [|right; reflexivity].
  inversion H as [vr b Hvr Hb He [Hm1 Hm2] Hres|vr noBlock id cs cs1 err Hvr Hr Hc Hv1 Hs Hm Hres He0]; subst.
  assert (Hcase : vr_err vr = None \/ isNotFound (vr_err vr) = true) by (destruct Hc as [(_ & Hn & _)|(_ & He & _)]; auto).
  assert (Hmg : newSigningBlock file = Some (vr_magic vr)) by (apply (magic_of _ _ _ _ _ _ _ Hvr); exact Hcase).
  destruct (Z.eqb_spec (vr_magic vr) dexHeaderMagic) as [Hd|Hd]; [|discriminate He0].
  split; [apply (dex_iff _ _ Hmg); exact Hd|]. intros file' Hnd Hlen Hsame. destruct (Hsame _ _ Hvr) as (vr' & Hvr' & Hr1 & Hr2).
  apply verify_cases; [left; reflexivity|]. apply (vc_v1 _ _ _ _ _ _ _ vr' noBlock id cs cs1); rewrite ?Hr1, ?Hr2; try assumption; try reflexivity.
  assert (Hmg' : newSigningBlock file' = Some (vr_magic vr')) by (apply (magic_of _ _ _ _ _ _ _ Hvr'); rewrite Hr2; exact Hcase).
  destruct (Z.eqb_spec (vr_magic vr') dexHeaderMagic) as [C|_]; [|reflexivity]. exfalso. apply Hnd. apply (dex_iff _ _ Hmg'). exact C.
Qed.
Print Assumptions C25_only_dex.

(** C26.  If AndroidManifest.xml can be parsed (up to its first <uses-sdk>) and declares targetSandboxVersion > 1, an APK
    without a verified signing block is not accepted for max SDK >= 26; if it declares targetSdkVersion >= 30, not
    for max SDK >= targetSdkVersion.  Missing: manifests that cannot be parsed, for which this is false. *)
Theorem C26_v1_alone_partial : forall E S, hash_sizes_ok E -> sched_ok S -> forall file z minArg maxSdk res toks ok min target sandbox,
  manifest_of E z toks ok -> (ok = true \/ exists u, In u toks /\ named "uses-sdk" u) -> manifest_info toks min target sandbox ->
  accepts E S file z minArg maxSdk res -> ar_schemeId res = 1 ->
  ~ (26 <= maxSdk /\ 1 < sandbox) /\ ~ 30 <= target <= maxSdk.
Proof.
  intros E S HE HS file z minArg maxSdk res toks ok mn tg sb Hm Hok Hi H Hid. apply verify_cases in H; [|left; reflexivity].
  pose proof (getManifestInfo_known E z toks ok mn tg sb Hm Hok Hi) as Hg.
  assert (Henc : 26 <= maxSdk -> used_enc E z minArg maxSdk = mkEnc mn tg sb).
  { intros Hmax. unfold used_enc, used_info, RequiresSandboxV2, V8_0_Oreo. destruct (Z.leb_spec 26 maxSdk); [|lia]. rewrite orb_true_r, Hg. reflexivity. }
  assert (Hno : forall noBlock, sandbox_ok (used_enc E z minArg maxSdk) maxSdk 1 noBlock = true -> ~ (26 <= maxSdk /\ 1 < sb) /\ ~ 30 <= tg <= maxSdk).
  { intros noBlock Hs. split.
    - intros [H1 H2]. rewrite (Henc H1) in Hs. unfold sandbox_ok, RequiresSandboxV2, V8_0_Oreo in Hs. cbn [en_sandbox en_target] in Hs.
      destruct (Z.leb_spec 26 maxSdk); [|lia]. destruct (Z.ltb_spec 1 sb); [|lia]. change (1 <? 2) with true in Hs. rewrite orb_true_r in Hs. discriminate Hs.
    - intros [H1 H2]. rewrite Henc in Hs by lia. unfold sandbox_ok, V11_0_Eleven in Hs. cbn [en_sandbox en_target] in Hs.
      destruct (Z.leb_spec 30 tg); [|lia]. destruct (Z.leb_spec tg maxSdk); [|lia]. change (1 <? 2) with true in Hs. cbn [andb negb] in Hs. rewrite andb_false_r in Hs. discriminate Hs. }
  inversion H as [vr b Hvr Hb He [Hm1 Hm2] Hres|vr noBlock id cs cs1 err Hvr Hr Hc Hv1 Hs Hmm Hres He0]; subst; cbn [ar_schemeId] in Hid.
  - (* a signing block verified by devices older than 24 only: impossible *)
    exfalso. assert (V : verifies E S file (min_of E z minArg maxSdk) maxSdk z b) by (exists vr; auto).
    destruct (verifies_block_signed E S _ _ _ _ _ HE HS V) as [(_ & _ & Hlt)|(H2 & _)]; [lia|]. unfold scheme in H2. lia.
  - subst id. exact (Hno noBlock Hs).
Qed.
Print Assumptions C26_v1_alone_partial.

(** ** Examples *)
Definition with_xml (E : env) (p : list xml_start * bool) : env := {|
  e_hash := e_hash E; e_rsa_pss := e_rsa_pss E; e_rsa_pkcs1 := e_rsa_pkcs1 E; e_ecdsa := e_ecdsa E; e_dsa := e_dsa E;
  e_asn1_ints := e_asn1_ints E; e_asn1_rs_std := e_asn1_rs_std E; e_asn1_rs_andr := e_asn1_rs_andr E;
  e_pkix_andr := e_pkix_andr E; e_pkix_std := e_pkix_std E; e_cert_andr := e_cert_andr E; e_cert_std := e_cert_std E;
  e_pkcs7 := e_pkcs7 E; e_asn1_oid := e_asn1_oid E; e_asn1_octets := e_asn1_octets E; e_marshal_attrs := e_marshal_attrs E;
  e_cert_check := e_cert_check E; e_base64 := e_base64 E; e_parse_xml := fun _ => p; e_to_lower := e_to_lower E |}.
Lemma with_xml_sizes p : hash_sizes_ok (with_xml jar_env p).
Proof. exact toy_hash_sizes. Qed.
Definition el (name : string) (attrs : list (string * string)) : xml_start :=
  {| xs_name := s2b name; xs_attrs := map (fun a => (s2b (fst a), s2b (snd a))) attrs |}.
(** <manifest targetSandboxVersion=sb> <application/> <uses-sdk minSdkVersion=mn targetSdkVersion=tg/> *)
Definition mani (sb mn tg : string) : list xml_start :=
  [el "manifest" [("package", "x"); ("targetSandboxVersion", sb)]; el "application" []; el "uses-sdk" [("minSdkVersion", mn); ("targetSdkVersion", tg)]]%string.
Definition plain_file : bytes := s2b "PK no signing block here".
Definition dex_file : bytes := s2b "dex" ++ [x0a] ++ s2b "no signing block here".

(** C26 is false for manifests that cannot be parsed: here targetSandboxVersion is 2, but the malformed minSdkVersion makes
    the parser give up, and the error is dropped because the APK is signed with JAR signatures only. *)
Theorem C26_refuted : exists E S file z maxSdk res,
  hash_sizes_ok E /\ sched_ok S /\ manifest_of E z (mani "2" "x" "30") true /\
  declares (el "manifest" [("package", "x"); ("targetSandboxVersion", "2")]%string) "targetSandboxVersion" 1 2 /\
  26 <= maxSdk /\ accepts E S file z (-1) maxSdk res /\ ar_schemeId res = 1.
Proof.
  exists (with_xml jar_env (mani "2" "x" "30", true)), toy_sched, plain_file, good_jar, 33. eexists.
  split; [apply with_xml_sizes|]. split; [exact toy_sched_ok|]. split.
  { do 3 eexists. split; [vm_compute; reflexivity|]. split; [reflexivity|]. split; reflexivity. }
  split; [apply declares_iff; vm_compute; reflexivity|]. split; [lia|]. split; [unfold accepts; vm_compute; reflexivity|reflexivity].
Qed.
Print Assumptions C26_refuted.
Example C26_nonvacuous :
  (exists res, accepts (with_xml jar_env (mani "1" "9" "29", true)) toy_sched plain_file good_jar (-1) 33 res /\ ar_schemeId res = 1) /\
  (exists res, rejects (with_xml jar_env (mani "2" "9" "29", true)) toy_sched plain_file good_jar (-1) 33 res AErrSandbox) /\
  (exists res, rejects (with_xml jar_env (mani "1" "9" "30", true)) toy_sched plain_file good_jar (-1) 33 res AErrTargetSdk) /\
  manifest_info (mani "1" "9" "29") 9 29 1.
Proof.
  split; [eexists; split; [unfold accepts; vm_compute; reflexivity|reflexivity]|].
  split; [eexists; unfold rejects; vm_compute; reflexivity|]. split; [eexists; unfold rejects; vm_compute; reflexivity|].
  do 2 eexists. split; [reflexivity|]. split; [reflexivity|]. split.
  { intros st [<-|[<-|[]]]; discriminate. }
  split; [apply declares_iff; vm_compute; reflexivity|].
  apply (sdk_first [el "application" []]); [intros st [<-|[]]; discriminate|reflexivity|apply declares_iff; vm_compute; reflexivity|apply declares_iff; vm_compute; reflexivity].
Qed.
Example C57_nonvacuous : let E := with_xml jar_env (mani "1" "9" "29", true) in
  (exists b m, returns E toy_sched plain_file 9 33 good_jar b (Some (ErrNotFound m))) /\
  (exists chs, verifySchemeV1 E toy_sched good_jar false 9 33 = Ret (chs, None)) /\
  (exists b, verifies E toy_sched (toy_file [(id_v2, toy_block [toy_signer2 kA toy_digest []])]) 24 33 good_jar b).
Proof.
  cbn zeta. split; [do 2 eexists; eexists; split; [vm_compute; reflexivity|split; reflexivity]|].
  split; [eexists; vm_compute; reflexivity|]. eexists; eexists; split; [vm_compute; reflexivity|split; reflexivity].
Qed.
Example C25_nonvacuous : starts_with_dex dex_file /\ ~ starts_with_dex plain_file /\
  (exists res, rejects (with_xml jar_env (mani "1" "9" "29", true)) toy_sched dex_file good_jar (-1) 33 res AErrMixedDex) /\
  (exists vr vr', verifySigningBlock (with_xml jar_env (mani "1" "9" "29", true)) toy_sched dex_file 9 33 good_jar = Ret vr /\
     verifySigningBlock (with_xml jar_env (mani "1" "9" "29", true)) toy_sched plain_file 9 33 good_jar = Ret vr' /\ vr_res vr' = vr_res vr /\ vr_err vr' = vr_err vr).
Proof.
  split; [eexists; reflexivity|]. split; [intros [r H]; discriminate|]. split; [eexists; unfold rejects; vm_compute; reflexivity|].
  do 2 eexists. split; [vm_compute; reflexivity|]. split; [vm_compute; reflexivity|]. split; reflexivity.
Qed.
(** A v2-signed APK without JAR signatures, for devices from API 24. *)
Example C24_nonvacuous :
  (exists res, accepts (with_xml jar_env (mani "2" "24" "33", true)) toy_sched
     (toy_file [(id_v2, toy_block [toy_signer2 kA toy_digest []])]) good_jar (-1) 33 res /\ ar_schemeId res = 2) /\
  (exists res, accepts (with_xml jar_env (mani "2" "9" "33", true)) toy_sched
     (toy_file [(id_v2, toy_block [toy_signer2 kA toy_digest []])]) good_jar (-1) 33 res /\ ar_schemeId res = 2) /\
  (exists res e, rejects (with_xml jar_env (mani "2" "9" "33", true)) toy_sched
     (toy_file [(id_v2, toy_block [toy_signer2 kA toy_digest []])]) toy_zip 9 33 res e).
Proof.
  split; [eexists; split; [unfold accepts; vm_compute; reflexivity|reflexivity]|].
  split; [eexists; split; [unfold accepts; vm_compute; reflexivity|reflexivity]|].
  eexists _, _. unfold rejects; vm_compute; reflexivity.
Qed.

(** C56.  Passing -1 as the minimum is the same as passing the manifest's minSdkVersion (1 if there is none). *)
Theorem C56_min_from_manifest : forall E S file z maxSdk toks ok min target sandbox,
  manifest_of E z toks ok -> (ok = true \/ exists u, In u toks /\ named "uses-sdk" u) -> manifest_info toks min target sandbox ->
  verifyWithSdk E S file (Some z) (-1) maxSdk = verifyWithSdk E S file (Some z) min maxSdk.
Proof.
  intros E S file z maxSdk toks ok mn tg sb Hm Hok Hi. pose proof (getManifestInfo_known E z toks ok mn tg sb Hm Hok Hi) as Hg.
  destruct (Z.eq_dec mn (-1)) as [->|Hn]; [reflexivity|]. rewrite !verify_unfold. cbn zeta.
  assert (Hu : used_info E z (-1) maxSdk = Some (mkEnc mn tg sb)) by (unfold used_info; change (-1 =? V_AnyMin) with true; exact Hg).
  assert (He : (mn =? V_AnyMin) = false) by (apply Z.eqb_neq; exact Hn).
  assert (Hu' : used_info E z mn maxSdk = if RequiresSandboxV2 maxSdk then Some (mkEnc mn tg sb) else Some (mkEnc 0 0 0)).
  { unfold used_info. rewrite He. cbn [orb]. rewrite Hg. reflexivity. }
  assert (Hm1 : min_of E z (-1) maxSdk = mn) by (unfold min_of; rewrite Hu; reflexivity).
  assert (Hm2 : min_of E z mn maxSdk = mn) by (unfold min_of; rewrite Hu', He; destruct (RequiresSandboxV2 maxSdk); reflexivity).
  rewrite Hm1, Hm2. unfold used_enc. rewrite Hu, Hu'. unfold RequiresSandboxV2, V8_0_Oreo. destruct (Z.leb_spec 26 maxSdk) as [Hmax|Hmax]; [reflexivity|].
  assert (Ht : forall mg nb id cs b, v1Tail E S z (mkEnc mn tg sb) false mn maxSdk mg nb id cs b = v1Tail E S z (mkEnc 0 0 0) false mn maxSdk mg nb id cs b).
  { intros. unfold v1Tail, RequiresSandboxV2, V8_0_Oreo, V11_0_Eleven. cbn [en_sandbox en_target]. destruct (Z.leb_spec 26 maxSdk); [lia|].
    destruct (Z.leb_spec 30 tg); [destruct (Z.leb_spec tg maxSdk); [lia|]|]; reflexivity. }
  destruct (maxSdk <? mn); [reflexivity|]. destruct (verifySigningBlock E S file mn maxSdk z) as [vr|]; [|reflexivity]. cbn [obind]. rewrite !Ht. reflexivity.
Qed.
Print Assumptions C56_min_from_manifest.
(** A manifest that cannot be parsed rules out everything but JAR signatures. *)
Theorem C56_unreadable_manifest : forall E S, hash_sizes_ok E -> sched_ok S -> forall file z maxSdk res toks,
  manifest_of E z toks false -> (forall st, In st toks -> ~ named "uses-sdk" st) ->
  accepts E S file z (-1) maxSdk res -> ar_schemeId res = 1 /\ jar_signed E S z (-1) maxSdk (ar_certs res).
Proof.
  intros E S HE HS file z maxSdk res toks Hm Hno H. apply verify_cases in H; [|left; reflexivity].
  assert (Hg : getManifestInfo E z = None).
  { destruct Hm as (f & stream & more & Hf & Ho & Hs & Hx). unfold getManifestInfo. rewrite Hf, Ho, Hs, Hx. cbn [negb].
    clear - Hno. generalize (mkEnc 1 0 1). induction toks as [|st t IH]; intros e; [reflexivity|]. cbn [parseXml]. unfold encodeToken.
    rewrite (not_named "uses-sdk" st) by (apply Hno; left; reflexivity).
    assert (Ht : forall e, parseXml t false e = None) by (apply IH; intros x Hx; apply Hno; right; exact Hx).
    destruct (bytes_eqb (xs_name st) (s2b "manifest")); [|apply Ht]. destruct (getAttrIntValue (xs_attrs st) (s2b "targetSandboxVersion")); [apply Ht|reflexivity|apply Ht]. }
  assert (Hi : used_info E z (-1) maxSdk = None) by (unfold used_info; change (-1 =? V_AnyMin) with true; exact Hg).
  assert (Hmin : min_of E z (-1) maxSdk = -1) by (unfold min_of; rewrite Hi; reflexivity).
  inversion H as [vr b Hvr Hb He [Hm1 Hm2] Hres|vr noBlock id cs cs1 err Hvr Hr Hc Hv1 Hs Hmm Hres He0]; subst; rewrite Hmin in *; [lia|].
  cbn [ar_schemeId ar_certs]. assert (id = 1) as -> by (destruct Hmm as [Hmm|Hmm]; [exact Hmm|contradiction]). split; [reflexivity|].
  assert (Hcs : cs = []).
  { destruct Hc as [(_ & _ & _ & Hc)|(_ & He & _ & b & Hb & H1 & ->)]; [exact Hc|].
    assert (V : verifies E S file (-1) maxSdk z b) by (exists vr; auto).
    destruct (verifies_block_signed E S _ _ _ _ _ HE HS V) as [(_ & C & _)|(H2 & _)]; [exact C|]. unfold scheme in H2. lia. }
  rewrite Hcs. exact (C28_v1_soundness E S z _ _ _ cs1 HS Hv1).
Qed.
Print Assumptions C56_unreadable_manifest.
Example C56_nonvacuous : manifest_of (with_xml jar_env (mani "1" "9" "29", true)) good_jar (mani "1" "9" "29") true /\
  exists res, accepts (with_xml jar_env ([el "manifest" []], false)) toy_sched plain_file good_jar (-1) 33 res.
Proof.
  split; [do 3 eexists; split; [vm_compute; reflexivity|]; split; [reflexivity|]; split; reflexivity|].
  eexists. unfold accepts. vm_compute. reflexivity.
Qed.
