(** C112: what genuine signers write is accepted by the entry point, with all parsers concrete. *)
From Coq Require Import String Lia.
From Verif.Model Require Import Bytes Env ApiLevel Asn1 Manifest Pkcs7 X509 SigBlock Result Verify SchemeV1 ApkVerifier.
From Verif.Spec Require Import Ber Asn1 Asn1Value Pkcs7 X509 Encoding Algorithms ApkLayout Nondet Digests Entries Signer SignerV3 Verified Calls Honest HonestDer HonestBlock
  JarSigned AndroidManifest TopLevel EndToEnd.
From Verif.Proofs Require Import BytesFacts SigBlockFacts TopFacts.
From Verif.Examples Require Import Toy ToyApk ToyWith ToyJar ToyPkcs7 ToyX509 DerToy.
From Verif.Props Require Import Layout SchemeV1 TopLevel HonestDer HonestBlock.

Lemma first_word file : 4 <= zlen file -> exists m, newSigningBlock file = Some m.
Proof. intros H. unfold newSigningBlock. rewrite (proj2 (read_at_some file 0 4 (takeZ 4 (dropZ 0 file)))); [eexists; reflexivity|]. repeat split; lia. Qed.

Lemma plain_not_found E S file minSdk maxSdk z : without_block file -> exists b, returns E S file minSdk maxSdk z b (Some (ErrNotFound "findSignatureBlocks")).
Proof.
  intros (HL & HN). unfold returns, verifySigningBlock. destruct (first_word file HL) as (m & ->).
  assert (HF : findSignatureBlocks E file maxSdk = Ret (FindErr (mkEnt [] None vres0) None)).
  { unfold findSignatureBlocks. destruct (findEocd file) as [ei| | | |] eqn:EE; try reflexivity. destruct (isZip64 file (ei_eocdOffset ei)); [reflexivity|].
    destruct (findApkSigningBlock file (ei_centralDirOffset ei)) as [blk o| |] eqn:EB; try reflexivity. exfalso.
    destruct ei as [off cdOff cdSize rec]. apply C01_eocd_iff in EE as (H1 & H2). apply C02_signing_block_iff in EB as (pairs & _ & HB). apply (HN off cdSize cdOff rec H1 H2). exists o, pairs. exact HB. }
  rewrite HF. cbn [obind applyFrosting en_frosting]. eexists. eexists. split; [reflexivity|]. split; reflexivity.
Qed.

(** JAR signatures only *)
Theorem C112_jar_signed : forall K E S file z man signers minArg maxSdk min target sandbox minSdk, sched_ok S -> without_block file -> ~ starts_with_dex file ->
  manifest_says (concrete K E) z min target sandbox -> minSdk = (if minArg =? -1 then min else minArg) -> minSdk <= maxSdk ->
  (26 <= maxSdk -> sandbox <= 1) -> ~ 30 <= target <= maxSdk ->
  honest_apk K E S z man false minSdk maxSdk signers ->
  exists res, accepts (concrete K E) S file z minArg maxSdk res /\ ar_schemeId res = 1 /\ zlen (ar_certs res) = zlen signers /\
    (forall ch, In ch (ar_certs res) -> exists g t, In g signers /\ map c_raw ch = snd (ds_cert g) :: t) /\
    (forall g, In g signers -> exists ch t, In ch (ar_certs res) /\ map c_raw ch = snd (ds_cert g) :: t).
Proof.
  intros K E S file z man signers minArg maxSdk mn tg sb minSdk HS HB HD (toks & ok & M1 & M2 & M3) Hmin Hr Hsb Htg HA.
  destruct (C78_honest_apk_verifies K E S z man false minSdk maxSdk signers HS HA) as (chs & HV & H1 & H2 & H3).
  destruct (plain_not_found (concrete K E) S file minSdk maxSdk z HB) as (b & HN).
  exists (mkARes 1 chs (Some b)). split; [|split; [reflexivity|split; [exact H1|split; [exact H2|exact H3]]]].
  exact (C57_jar_accepted _ S file z minArg maxSdk b _ chs toks ok mn tg sb M1 M2 M3 minSdk Hmin Hr HN HV Hsb Htg HD).
Qed.
Print Assumptions C112_jar_signed.

(** The devices start with API 24: a v2 block with any number (up to ten) of signers *)
Theorem C112_v2_signed : forall K E S file es sections z bs minArg maxSdk min target sandbox minSdk, hash_sizes_ok E -> sched_ok S ->
  manifest_says (concrete K E) z min target sandbox -> minSdk = (if minArg =? -1 then min else minArg) -> 24 <= minSdk <= maxSdk ->
  apk_with file es sections -> ~ v31_in maxSdk es -> ~ v3_in maxSdk es -> ~ In id_frosting (map fst es) -> ~ In id_stamp (map fst es) ->
  1 <= zlen bs <= 10 -> last_entry es id_v2 (lp (lps (map bd_signer2 bs))) -> fits (lps (map bd_signer2 bs)) ->
  Forall (fun b => signer_doc_over K E sections (h_data2 (bd_written b [])) b /\ Forall (v2_attribute_ok maxSdk (present_in es)) (bd_attrs b)) bs ->
  exists res, accepts (concrete K E) S file z minArg maxSdk res /\ ar_schemeId res = 2 /\ map (map c_raw) (ar_certs res) = map bd_chain bs.
Proof.
  intros K E S file es sections z bs minArg maxSdk mn tg sb minSdk HE HS (toks & ok & M1 & M2 & M3) Hmin Hr A N31 N3 Nf Ns Le L F Hs.
  destruct (C81_v2_from_bytes K E S HE HS file es sections minSdk maxSdk z bs A ltac:(lia) N31 N3 Nf Ns Le L F Hs) as (b & V & Id & Hc).
  exists (mkARes (scheme b) (chains b) (Some b)). split; [|split; [exact Id|exact Hc]].
  apply (C57_block_accepted _ S file z minArg maxSdk b minSdk); [|right; right; exists toks, ok, mn, tg, sb; auto|exact Hr|exact V].
  split; [intros N; destruct (Z.eqb_spec minArg (-1)); [contradiction|exact Hmin]|]. intros ->. change (-1 =? -1) with true in Hmin. cbv iota in Hmin. split.
  - intros C. destruct M1 as (f & st & more & Hf & _). congruence.
  - intros toks' ok' mn' tg' sb' M1' M2' M3'. pose proof (getManifestInfo_known _ z _ _ _ _ _ M1 M2 M3) as G1. pose proof (getManifestInfo_known _ z _ _ _ _ _ M1' M2' M3') as G2. rewrite G1 in G2. congruence.
Qed.
Print Assumptions C112_v2_signed.

(** Older devices as well: both signatures.  The certificates of the block are reported. *)
Theorem C112_v1_v2_signed : forall K E S file es sections z bs man signers minArg maxSdk min target sandbox minSdk, hash_sizes_ok E -> sched_ok S -> ~ starts_with_dex file ->
  manifest_says (concrete K E) z min target sandbox -> minSdk = (if minArg =? -1 then min else minArg) -> minSdk <= maxSdk -> 24 <= maxSdk ->
  apk_with file es sections -> ~ v31_in maxSdk es -> ~ v3_in maxSdk es -> ~ In id_frosting (map fst es) -> ~ In id_stamp (map fst es) ->
  1 <= zlen bs <= 10 -> last_entry es id_v2 (lp (lps (map bd_signer2 bs))) -> fits (lps (map bd_signer2 bs)) ->
  Forall (fun b => signer_doc_over K E sections (h_data2 (bd_written b [])) b /\ Forall (v2_attribute_ok maxSdk (present_in es)) (bd_attrs b)) bs ->
  honest_apk K E S z man true minSdk maxSdk signers ->
  exists res, accepts (concrete K E) S file z minArg maxSdk res /\ ar_schemeId res = 2 /\ map (map c_raw) (ar_certs res) = map bd_chain bs.
Proof.
  intros K E S file es sections z bs man signers minArg maxSdk mn tg sb minSdk HE HS HD HM Hmin Hr Hmax A N31 N3 Nf Ns Le L F Hs HA.
  destruct (Z.le_gt_cases 24 minSdk) as [G|G]; [exact (C112_v2_signed K E S file es sections z bs minArg maxSdk mn tg sb minSdk HE HS HM Hmin (conj G Hr) A N31 N3 Nf Ns Le L F Hs)|].
  destruct HM as (toks & ok & M1 & M2 & M3).
  destruct (C81_v2_from_bytes K E S HE HS file es sections minSdk maxSdk z bs A ltac:(lia) N31 N3 Nf Ns Le L F Hs) as (b & (vr & Hvr & Hb & Herr) & Id & Hc).
  destruct (C78_honest_apk_verifies K E S z man true minSdk maxSdk signers HS HA) as (chs & HV & _).
  pose proof (getManifestInfo_known _ z toks ok mn tg sb M1 M2 M3) as Hg.
  assert (Hmo : min_of (concrete K E) z minArg maxSdk = minSdk).
  { rewrite Hmin. unfold min_of, used_info. rewrite Hg. unfold V_AnyMin. destruct (Z.eqb_spec minArg (-1)); cbn [orb]; [reflexivity|]. destruct (RequiresSandboxV2 maxSdk); reflexivity. }
  assert (Hne : chains b <> []). { intros C. rewrite C in Hc. destruct bs; [vm_compute in Le; destruct Le as (Le & _); apply Le; reflexivity|discriminate Hc]. }
  exists (mkARes (scheme b) (chains b) (Some b)). split; [|split; [exact Id|exact Hc]].
  apply verify_cases; [left; reflexivity|]. apply (vc_v1 _ _ _ _ _ _ _ vr false (scheme b) (chains b) chs); rewrite ?Hmo; try assumption.
  - right. split; [reflexivity|]. split; [exact Herr|]. split; [exact G|]. exists b. auto.
  - unfold sandbox_ok. rewrite Id. change (2 <? 2) with false. rewrite !andb_false_r. reflexivity.
  - right. unfold used_info. destruct (_ || _); [rewrite Hg; discriminate|discriminate].
  - rewrite Hb. destruct (chains b) as [|c0 cs0] eqn:Ec; [contradiction|]. rewrite <- Ec. reflexivity.
  - assert (Hmg : newSigningBlock file = Some (vr_magic vr)) by (apply (magic_of _ _ _ _ _ _ _ Hvr); left; exact Herr).
    destruct (Z.eqb_spec (vr_magic vr) dexHeaderMagic) as [C|_]; [|reflexivity]. exfalso. apply HD. apply (dex_iff _ _ Hmg). exact C.
Qed.
Print Assumptions C112_v1_v2_signed.

(** A v3 signer with a rotation history, for devices from API 24 *)
Theorem C112_v3_signed : forall K E S file es sections z b lo hi lin minArg maxSdk min target sandbox minSdk, hash_sizes_ok E -> sched_ok S ->
  manifest_says (concrete K E) z min target sandbox -> minSdk = (if minArg =? -1 then min else minArg) -> 24 <= minSdk <= maxSdk -> 28 <= maxSdk ->
  apk_with file es sections -> ~ v31_in maxSdk es -> ~ In id_frosting (map fst es) -> ~ In id_stamp (map fst es) ->
  last_entry es id_v3 (lp (lps [bd_signer3 b lo hi])) -> fits (lps [bd_signer3 b lo hi]) ->
  signer_doc_over K E sections (h_data3 (bd_written b []) lo hi) b ->
  1 <= lo <= hi -> hi <= 2147483647 -> lo <= Z.max minSdk 28 -> maxSdk <= hi ->
  (forall main, e_cert_andr (concrete K E) (snd (bd_main b)) = Some main -> Forall (v3_attribute_ok (concrete K E) maxSdk 0 main) (bd_attrs b)) ->
  rotation_lineage (concrete K E) (bd_attrs b) lin ->
  exists res block, accepts (concrete K E) S file z minArg maxSdk res /\ ar_schemeId res = 3 /\ map (map c_raw) (ar_certs res) = [bd_chain b] /\
    ar_block res = Some block /\ reported_lineage block = match lin with [] => None | _ => Some lin end.
Proof.
  intros K E S file es sections z b lo hi lin minArg maxSdk mn tg sb minSdk HE HS (toks & ok & M1 & M2 & M3) Hmin Hr H28 A N31 Nf Ns L F Hs R1 R2 R3 R4 Hat Hl.
  destruct (C81_v3_from_bytes K E S HE HS file es sections minSdk maxSdk z b lo hi lin A H28 N31 Nf Ns L F Hs R1 R2 R3 R4 Hat Hl) as (r & V & Id & Hc & Hlin).
  exists (mkARes (scheme r) (chains r) (Some r)), r. split; [|split; [exact Id|split; [exact Hc|split; [reflexivity|exact Hlin]]]].
  apply (C57_block_accepted _ S file z minArg maxSdk r minSdk); [|right; right; exists toks, ok, mn, tg, sb; auto|exact Hr|exact V].
  split; [intros N; destruct (Z.eqb_spec minArg (-1)); [contradiction|exact Hmin]|]. intros ->. change (-1 =? -1) with true in Hmin. cbv iota in Hmin. split.
  - intros C. destruct M1 as (f & st & more & Hf & _). congruence.
  - intros toks' ok' mn' tg' sb' M1' M2' M3'. pose proof (getManifestInfo_known _ z _ _ _ _ _ M1 M2 M3) as G1. pose proof (getManifestInfo_known _ z _ _ _ _ _ M1' M2' M3') as G2. rewrite G1 in G2. congruence.
Qed.
Print Assumptions C112_v3_signed.

Lemma computed_without_block file : 4 <= zlen file ->
  match findEocd file with EocdFound ei => match findApkSigningBlock file (ei_centralDirOffset ei) with SigBlockFound _ _ => false | _ => true end | _ => true end = true -> without_block file.
Proof.
  intros HL HC. split; [exact HL|]. intros off cdSize cdOff rec H1 H2 (o & pairs & HB).
  assert (EE : findEocd file = EocdFound {| ei_eocdOffset := off; ei_centralDirOffset := cdOff; ei_centralDirSize := cdSize; ei_eocd := rec |}) by (apply C01_eocd_iff; split; assumption).
  assert (EB : findApkSigningBlock file cdOff = SigBlockFound (signing_block pairs) o) by (apply C02_signing_block_iff; exists pairs; split; [reflexivity|exact HB]).
  rewrite EE in HC. cbn [ei_centralDirOffset] in HC. rewrite EB in HC. discriminate HC.
Qed.
Definition xml_env : env := with_xml jar_env (mani "1" "10" "29", true).
Theorem C112_jar_nonvacuous : without_block plain_file /\ ~ starts_with_dex plain_file /\ manifest_says (concrete toy_k xml_env) d_jar 10 29 1 /\
  honest_apk toy_k xml_env toy_sched d_jar jar_man false 10 33 [d_honest].
Proof.
  split; [apply computed_without_block; [vm_compute; discriminate|vm_compute; reflexivity]|]. split; [intros [r H]; discriminate|]. split.
  - exists (mani "1" "10" "29"), true. split; [do 3 eexists; split; [vm_compute; reflexivity|]; split; [reflexivity|]; split; reflexivity|]. split; [left; reflexivity|].
    do 2 eexists. split; [reflexivity|]. split; [reflexivity|]. split.
    { intros st [<-|[<-|[]]]; discriminate. }
    split; [apply declares_iff; vm_compute; reflexivity|].
    apply (sdk_first [el "application" []]); [intros st [<-|[]]; discriminate|reflexivity|apply declares_iff; vm_compute; reflexivity|apply declares_iff; vm_compute; reflexivity].
  - destruct C78_nonvacuous as [H1 H2 H3 H4 H5 H6 H7 H8 H9]. constructor; try assumption.
    inversion H4 as [|? ? HD _]; subst. constructor; [|constructor]. destruct HD. constructor; try assumption.
    destruct hd_signed as (algo & data & HI & HS & HV). exists algo, data. split; [exact HI|]. split.
    + destruct HS as [HN|l h value digest c data HN Hh Hm Ho Hs Ht Ha Hd]; [apply DocFile; exact HN|]. apply (DocAttributes _ _ _ _ _ l h value digest c data); assumption.
    + intros c Hc. specialize (HV c Hc). destruct HV; [eapply OkMd5Rsa|eapply OkSha224Rsa|eapply OkDsa|eapply OkSha224Ecdsa|apply OkX509]; eassumption.
Qed.
(** A v2 block next to JAR signatures: the block of C81's example, the JAR of C78's *)
Theorem C112_v2_nonvacuous : manifest_says (concrete toy_k xml_env) d_jar 10 29 1 /\
  apk_with b_file [(id_v2, lp (lps (map bd_signer2 [b_doc])))] toy_sections /\ last_entry [(id_v2, lp (lps (map bd_signer2 [b_doc])))] id_v2 (lp (lps (map bd_signer2 [b_doc]))) /\
  signer_doc_over toy_k xml_env toy_sections (h_data2 (bd_written b_doc [])) b_doc /\ ~ starts_with_dex b_file.
Proof.
  split; [apply C112_jar_nonvacuous|]. split.
  { unfold b_file. change (map bd_signer2 [b_doc]) with [bd_signer2 b_doc]. apply toy_with.
    - constructor; [|constructor]. split; [vm_compute; split; congruence|vm_compute; congruence].
    - intros before id H. destruct before as [|x before]; [|destruct before; discriminate H]. apply (f_equal (fun l : list (Z * bytes) => match l with p :: _ => zlen (snd p) | [] => 0 end)) in H. vm_compute in H. discriminate H.
    - vm_compute. discriminate. }
  split; [exists [], []; split; [reflexivity|intros []]|]. split; [|intros [r H]; apply (f_equal (takeZ 1)) in H; vm_compute in H; discriminate H].
  constructor.
  - constructor; [exact d_cert_good|constructor].
  - discriminate.
  - discriminate.
  - intros a d s [H|[]]. assert (a = 0x0103 /\ d = toy_digest /\ s = toy_sign x_key (h_data2 (bd_written b_doc0 []))) as (-> & -> & ->) by (repeat split; congruence). clear H. split; [constructor; vm_compute; reflexivity|].
    exists ChunkedSha256. split; [exists 1; cbn; tauto|]. exists (map (fun s => [s]) toy_sections). split; [|reflexivity]. repeat constructor; vm_compute; congruence.
  - constructor.
Qed.
