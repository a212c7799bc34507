(** C113: an APK accepted under the certificate of a signer is one that the signer signed. *)
From Coq Require Import Lia.
From Verif.Model Require Import Bytes Env Result Verify ApkVerifier.
From Verif.Spec Require Import Encoding Algorithms ApkLayout Nondet Digests Entries Signer SignerV3 Verified Calls TopLevel Original.
From Verif.Proofs Require Import BytesFacts ApkFacts PropFacts CollisionFacts.
From Verif.Examples Require Import Toy ToyApk ToyWith.
From Verif.Props Require Import ContentDigests TopLevel.

Lemma sections_small file es sections : apk_with file es sections -> zlen (concat sections) <= zlen file.
Proof.
  intros (before & pairs & cd & rec & (Hf & _) & _ & (rec' & (a & old & b & Er & La & Lo & Er') & ->)). subst file rec rec'. cbn [concat].
  rewrite !zlen_app. unfold le32. rewrite le_enc_zlen. change (zlen (@nil Byte.byte)) with 0. pose proof (zlen_nonneg (signing_block pairs)). lia.
Qed.

Lemma Forall2_in_r {A B} (R : A -> B -> Prop) l fs f : Forall2 R l fs -> In f fs -> exists a, In a l /\ R a f.
Proof. intros H. induction H as [|a b l' fs' H1 H2 IH]; [intros []|]. intros [<-|Hi]; [exists a; split; [left; reflexivity|exact H1]|]. destruct (IH Hi) as (x & Hx & HR). exists x. split; [right; exact Hx|exact HR]. Qed.
Lemma sig_valid_kind E key algo m s : sig_valid E key algo m s -> exists k, has_kind algo k.
Proof. intros H. inversion H; subst; eexists; eexists; unfold algorithm_table; cbn [In]; tauto. Qed.
(** What a signer record signed, if its key only signed what its owner made *)
Lemma matches_version E es sections i sd sigs pk digs cs rest versions k : hash_sizes_ok E -> zlen (concat sections) < 9223372036854775808 ->
  owner_made E es pk versions -> sd = lp digs ++ lp cs ++ rest -> fits digs ->
  signed_by E sd sigs pk digs cs (si_chain i) (si_algo i) (si_digest i) -> shown_signed E es pk sd ->
  has_kind (si_algo i) k -> content_digest E k sections (si_digest i) ->
  exists sd original, In (sd, original) versions /\ (concat sections = concat original \/ digest_collision E sections original).
Proof.
  intros HE HL (O1 & O2) Q Fd (algos & sig & key & main & others & H1 & H2 & H3 & H4 & H5 & H6 & H7) Hs Hk Hd.
  destruct (O1 _ Hs) as (original & Hi). exists sd, original. split; [exact Hi|]. destruct (O2 _ _ Hi) as ((digs' & r' & Q' & Fd' & HD) & HL').
  rewrite Q in Q'. apply lp_inj in Q' as [<- _]; [|assumption|assumption]. specialize (HD _ _ _ _ H7 Hk).
  destruct (C06_digest_commits E HE k sections original (si_digest i)) as [EQ|(h & m & m' & D)]; try assumption; try lia; [left; exact EQ|right; exists k, h, m, m'; exact D].
Qed.

Theorem C113_tamper_evident_partial : forall E S, hash_sizes_ok E -> sched_ok S -> forall file es sections z minArg maxSdk res main others versions,
  accepts E S file z minArg maxSdk res -> apk_with file es sections -> zlen file < 9223372036854775808 ->
  In (main :: others) (ar_certs res) ->
  ar_schemeId res = 3 \/ (ar_schemeId res = 2 /\ (28 <= minArg \/ ~ v3_in maxSdk es)) ->
  owner_made E es (c_spki main) versions ->
  exists sd original, In (sd, original) versions /\ (concat sections = concat original \/ digest_collision E sections original).
Proof.
  intros E S HE HS file es sections z minArg maxSdk res main others versions HA A HL HI Hid HO.
  assert (HL' : zlen (concat sections) < 9223372036854775808) by (pose proof (sections_small _ _ _ A); lia).
  destruct (C24_authenticated E S HE HS file z minArg maxSdk res HA) as (minSdk & (Hm1 & _) & Hr & [(_ & _ & (es' & sec' & A' & HB) & _)|(C & _)]); [|lia].
  destruct (apk_with_unique _ _ _ _ _ A A') as [<- <-].
  destruct HB as [(I2 & is & before & (_ & _ & block & L & (signers & junk & Qb & F1 & F2 & HF & _) & Dm) & Qc & Nb)|[(I3 & is & lin & (_ & _ & block & L & (signers & junk & Qb & F1 & F2 & HF & _) & Dm & _) & _ & Qc)|(C & _)]]; [| |lia].
  - assert (before = []) as ->. { apply Nb. destruct Hid as [C|(_ & [G|G])]; [lia|left; rewrite Hm1 by lia; exact G|right; exact G]. }
    rewrite Qc in HI. cbn [app] in HI. unfold chains2 in HI. apply in_map_iff in HI as (i & Ei & Hi).
    destruct (Forall2_in_r _ _ _ _ HF Hi) as (signer & Hin & sd & sigs & pk & j & digs & cs & attrs & j' & al & Q1 & G1 & G2 & G3 & Q2 & G4 & G5 & G6 & HB & _).
    pose proof HB as (algos & sig & key & main' & others' & K1 & K2 & K3 & K4 & K5 & K6 & (rs & bf & fl & af & _ & _ & _ & _ & _ & _)).
    assert (c_spki main = pk) as Epk by congruence. rewrite Epk in HO.
    assert (exists k, has_kind (si_algo i) k) as (k & Hk) by (eapply sig_valid_kind; exact K3).
    apply (matches_version E es sections i sd sigs pk digs cs (lp attrs ++ j') versions k HE HL' HO); try assumption; [|exact (Dm i k Hi Hk)].
    exists id_v2, block, signers, junk, signer, sigs, (lp pk ++ j), algos, (si_algo i), sig, key. repeat (split; [assumption|]). split; [left; split; [reflexivity|exact Q1]|]. auto.
  - rewrite Qc in HI. unfold chains3 in HI. apply in_map_iff in HI as (i & Ei & Hi).
    destruct (Forall2_in_r _ _ _ _ HF Hi) as (signer & Hin & sd & sigs & pk & j & digs & cs & attrs & j' & al & mn & ot & Q1 & G1 & G2 & G3 & G4 & G5 & Q2 & G6 & G7 & G8 & G9 & G10 & _ & _ & HB & _).
    pose proof HB as (algos & sig & key & main' & others' & K1 & K2 & K3 & K4 & K5 & K6 & _).
    assert (c_spki main = pk) as Epk by congruence. rewrite Epk in HO.
    assert (exists k, has_kind (si_algo (i3_signer i)) k) as (k & Hk) by (eapply sig_valid_kind; exact K3).
    apply (matches_version E es sections (i3_signer i) sd sigs pk digs cs (le32 (i3_signedMin i) ++ le32 (i3_signedMax i) ++ lp attrs ++ j') versions k HE HL' HO); try assumption; [|exact (Dm _ k (in_map _ _ _ Hi) Hk)].
    exists id_v3, block, signers, junk, signer, sigs, (lp pk ++ j), algos, (si_algo (i3_signer i)), sig, key. repeat (split; [assumption|]).
    split; [right; split; [left; reflexivity|]; exists (le32 (i3_min i) ++ le32 (i3_max i)); split; [reflexivity|rewrite Q1, <- !app_assoc; reflexivity]|]. auto.
Qed.
Print Assumptions C113_tamper_evident_partial.

(** ** Examples *)
Lemma shown_one s signers junk : fits s -> fits (lps [s]) -> fits (lps signers) -> Forall fits signers -> toy_block [s] = lp (lps signers) ++ junk -> signers = [s].
Proof. intros F1 F2 F3 F4 Q. unfold toy_block in Q. apply lp_inj_end in Q as [Q _]; [|assumption|assumption]. symmetry. apply UtilsFacts.lps_inj; [constructor; [exact F1|constructor]|exact F4|exact Q]. Qed.
Lemma one_record a v rs : 0 <= a <= 2147483647 -> fits (le32 a ++ lp v) -> records_of (toy_rec a v) rs -> rs = [(a, lp v)].
Proof.
  intros U F (Q & HF). assert (E1 : [le32 a ++ lp v] = map enc_rec rs).
  { apply UtilsFacts.lps_inj; [constructor; [exact F|constructor]| |unfold toy_rec in Q; cbn [lps flat_map]; rewrite app_nil_r; exact Q].
    apply Forall_forall. intros x Hx. apply in_map_iff in Hx as (r & <- & Hr). rewrite Forall_forall in HF. apply (HF r Hr). }
  destruct rs as [|[a' v'] [|]]; try discriminate E1. cbn [map] in E1.
  assert (E2 : le32 a ++ lp v = le32 a' ++ v') by (change (le32 a' ++ v') with (enc_rec (a', v')); congruence). clear E1.
  inversion HF as [|? ? (R1 & _) _]; subst. cbn [fst] in R1. unfold is_int32 in R1.
  apply app_take_eq in E2 as [E1 E2]; [|reflexivity]. f_equal. f_equal; [|symmetry; exact E2].
  unfold le32 in E1. apply (f_equal le_dec) in E1. rewrite !le_dec_enc in E1. change (256 ^ Z.of_nat 4) with 4294967296 in E1.
  rewrite (Z.mod_small a) in E1 by lia. pose proof (Z.mod_pos_bound a' 4294967296 eq_refl). destruct (Z.le_gt_cases 0 a'); [rewrite Z.mod_small in E1 by lia; congruence|].
  replace a' with (a' + 4294967296 + (-1) * 4294967296) in E1 by lia. rewrite Z_mod_plus_full in E1. rewrite Z.mod_small in E1 by lia. lia.
Qed.
Lemma shown_sig sd0 mid0 s0 tail0 sd mid sigs rest algos algo sig : zlen mid0 = zlen mid -> fits sd0 -> fits sd -> fits sigs -> fits (toy_rec 0x0103 s0) -> fits s0 ->
  lp sd0 ++ mid0 ++ lp (toy_rec 0x0103 s0) ++ tail0 = lp sd ++ mid ++ lp sigs ++ rest -> signature_list sigs algos algo sig -> sd = sd0 /\ algo = 0x0103 /\ sig = s0.
Proof.
  intros Hm F1 F2 F3 F4 F5 Q (rs & field & H1 & _ & (bf & af & k & Hs & _) & (j & Hf & Fs) & _).
  apply lp_inj in Q as [Q1 Q]; [|assumption|assumption]. apply app_take_eq in Q as [_ Q]; [|exact Hm]. apply lp_inj in Q as [Q2 _]; [|assumption|assumption].
  rewrite <- Q2 in H1. apply one_record in H1; [|lia|unfold fits in *; unfold toy_rec in F4; unfold lp at 1 in F4; rewrite zlen_app in F4; pose proof (zlen_nonneg (le32 (zlen (le32 259 ++ lp s0)))); lia].
  rewrite H1 in Hs. assert (HI : In (algo, field) [(0x0103, lp s0)]) by (rewrite Hs; apply in_or_app; right; left; reflexivity).
  destruct HI as [HI|[]]. injection HI as <- HI. rewrite <- HI in Hf. apply lp_inj_end in Hf as [Hf _]; [|assumption|assumption]. auto.
Qed.
Definition sd3 (key digest : bytes) (smn smx : Z) : bytes := lp (toy_rec 0x0103 digest) ++ lp (lp key) ++ le32 smn ++ le32 smx ++ lp [].
Lemma shown3 key D mn mx smn smx id block signers junk signer sigs rest algos algo sig pk k sd : zlen key <= 100 -> zlen D <= 100 ->
  block = toy_block [toy_signer3 key D mn mx smn smx []] -> block = lp (lps signers) ++ junk -> fits (lps signers) -> Forall fits signers -> In signer signers ->
  fits sd -> fits sigs -> id <> id_v2 ->
  ((id = id_v2 /\ signer = lp sd ++ lp sigs ++ rest) \/ ((id = id_v3 \/ id = id_v31) /\ exists range, zlen range = 8 /\ signer = lp sd ++ range ++ lp sigs ++ rest)) ->
  signature_list sigs algos algo sig -> e_pkix_andr toy_env pk = Some k -> sig_valid toy_env k algo sd sig ->
  pk = key /\ sd = sd3 key D smn smx.
Proof.
  intros Lk LD -> Q F1 F2 HI F3 F4 Ni HS HL HK HV.
  assert (Lh : zlen (toy_hash HSha256 (sd3 key D smn smx)) = 32) by apply (toy_hash_sizes HSha256).
  assert (LL : forall x, zlen (lp x) = 4 + zlen x) by (intro; unfold lp; rewrite zlen_app; unfold le32; rewrite le_enc_zlen; reflexivity).
  assert (LE : forall n, zlen (le32 n) = 4) by (intro; unfold le32; rewrite le_enc_zlen; reflexivity).
  assert (Lsd : zlen (sd3 key D smn smx) <= 400) by (unfold sd3, toy_rec; rewrite !zlen_app, !LL, !zlen_app, !LE, !LL; change (zlen (@nil Byte.byte)) with 0; lia).
  assert (Lsg : zlen (toy_sign key (sd3 key D smn smx)) <= 132) by (unfold toy_sign; rewrite zlen_app, Lh; lia).
  set (S3 := toy_signer3 key D mn mx smn smx []) in *.
  assert (ES : S3 = lp (sd3 key D smn smx) ++ (le32 mn ++ le32 mx) ++ lp (toy_rec 0x0103 (toy_sign key (sd3 key D smn smx))) ++ lp key) by (unfold S3, toy_signer3, sd3; cbv zeta; cbn [map concat]; rewrite <- !app_assoc; reflexivity).
  assert (Lr : zlen (toy_rec 0x0103 (toy_sign key (sd3 key D smn smx))) <= 200) by (unfold toy_rec; rewrite LL, zlen_app, LL, LE; lia).
  assert (L3 : zlen S3 <= 1000) by (rewrite ES, !zlen_app, !LL, !LE; lia).
  rewrite (shown_one S3 signers junk) in HI; try assumption; [|unfold fits; lia|unfold fits, lps; cbn [flat_map]; rewrite app_nil_r, LL; lia].
  destruct HI as [<-|[]]. destruct HS as [(C & _)|(_ & range & Hr & HS)]; [contradiction|]. rewrite ES in HS.
  assert (Lm : zlen (le32 mn ++ le32 mx) = zlen range) by (rewrite Hr, zlen_app, !LE; reflexivity).
  assert (G1 : fits (sd3 key D smn smx)) by (unfold fits; lia).
  assert (G2 : fits (toy_rec 0x0103 (toy_sign key (sd3 key D smn smx)))) by (unfold fits; lia).
  assert (G3 : fits (toy_sign key (sd3 key D smn smx))) by (unfold fits; lia).
  destruct (shown_sig _ _ _ _ _ _ _ _ _ _ _ Lm G1 F3 F4 G2 G3 HS HL) as (-> & -> & ->).
  cbn [e_pkix_andr toy_env] in HK. injection HK as <-. inversion HV; subst. cbn [e_rsa_pkcs1 toy_env e_hash] in *.
  match goal with H : bytes_eqb _ _ = true |- _ => apply bytes_eqb_eq in H; unfold toy_sign in H; apply app_inv_tail in H; rewrite H end. split; reflexivity.
Qed.
Lemma sd3_describes key D smn smx original : zlen D <= 100 -> content_digest toy_env ChunkedSha256 original D -> describes toy_env (sd3 key D smn smx) original.
Proof.
  intros L HD. assert (LL : forall x, zlen (lp x) = 4 + zlen x) by (intro; unfold lp; rewrite zlen_app; unfold le32; rewrite le_enc_zlen; reflexivity).
  assert (LE : forall n, zlen (le32 n) = 4) by (intro; unfold le32; rewrite le_enc_zlen; reflexivity).
  exists (toy_rec 0x0103 D). eexists. split; [reflexivity|]. split; [unfold fits, toy_rec; rewrite LL, zlen_app, LL, LE; lia|].
  intros algos algo digest k (rs & bf & field & af & H1 & _ & Hs & (j & Hf & Fd) & _) (m & Hk).
  apply one_record in H1; [|lia|unfold fits; rewrite zlen_app, LL, LE; lia]. rewrite H1 in Hs.
  assert (HI : In (algo, field) [(0x0103, lp D)]) by (rewrite Hs; apply in_or_app; right; left; reflexivity).
  destruct HI as [HI|[]]. injection HI as <- HI. rewrite <- HI in Hf. apply lp_inj_end in Hf as [<- _]; [|unfold fits; lia|assumption].
  unfold algorithm_table in Hk. cbn [In] in Hk. repeat (destruct Hk as [Hk|Hk]; [inversion Hk; subst; try exact HD|]); [..|destruct Hk].
Qed.

(** The contents the owner of [kB] signed, and other contents under the same signature *)
Definition own_before : bytes := map z2b [80;75;3;4;1;2;3;4;5;6;8].
Definition own_sections : list bytes := [own_before; toy_cd; toy_eocd (zlen toy_cd) (zlen own_before) []].
Definition own_digest : bytes := top_hash (toy_hash HSha256) own_sections.
Definition own_data : bytes := sd3 kB own_digest 33 40.
Definition own_block : bytes := toy_block [toy_signer3 kB own_digest 33 40 33 40 []].
Lemma own_content : content_digest toy_env ChunkedSha256 own_sections own_digest.
Proof. exists (map (fun s => [s]) own_sections). split; [|reflexivity]. repeat constructor; vm_compute; congruence. Qed.
Lemma toy_content : content_digest toy_env ChunkedSha256 toy_sections toy_digest.
Proof. exists (map (fun s => [s]) toy_sections). split; [|reflexivity]. repeat constructor; vm_compute; congruence. Qed.
Lemma in_last es id p : last_entry es id p -> In (id, p) es.
Proof. intros (a & b & -> & _). apply in_or_app. right. left. reflexivity. Qed.

(** C113 is false of v3.1: the v3.1 block that the owner of [kB] made for other contents is put, unchanged, into an APK next to a
    v3.0 block by another key; the APK is accepted and the certificate of [kB] is the only one reported. *)
Definition stolen : list (Z * bytes) := [(id_v3, toy_block [toy_signer3 kA toy_digest 24 32 24 32 []]); (id_v31, own_block)].
Lemma stolen_with : apk_with (toy_file stolen) stolen toy_sections.
Proof.
  apply toy_with.
  - repeat (constructor; [split; [vm_compute; split; congruence|vm_compute; congruence]|]). constructor.
  - intros before id H. destruct before as [|x [|y before]]; [discriminate H|discriminate H|destruct before; discriminate H].
  - vm_compute. discriminate.
Qed.
Lemma stolen_owner : owner_made toy_env stolen kB [(own_data, own_sections)].
Proof.
  split.
  - intros sd (id & block & signers & junk & signer & sigs & rest & algos & algo & sig & k & L & Q & F1 & F2 & HI & F3 & F4 & HS & HL & HK & HV).
    apply in_last in L. destruct L as [L|[L|[]]].
    + assert (id = id_v3 /\ block = toy_block [toy_signer3 kA toy_digest 24 32 24 32 []]) as (-> & Eb) by (split; congruence).
      destruct (shown3 kA toy_digest 24 32 24 32 id_v3 block signers junk signer sigs rest algos algo sig kB k sd) as (C & _); try assumption; try (vm_compute; discriminate).
    + assert (id = id_v31 /\ block = toy_block [toy_signer3 kB own_digest 33 40 33 40 []]) as (-> & Eb) by (split; [congruence|unfold own_block in L; congruence]).
      destruct (shown3 kB own_digest 33 40 33 40 id_v31 block signers junk signer sigs rest algos algo sig kB k sd) as (_ & ->); try assumption; try (vm_compute; discriminate). exists own_sections. left. reflexivity.
  - intros sd original [H|[]]. assert (sd = own_data /\ original = own_sections) as (-> & ->) by (split; congruence). split; [|vm_compute; reflexivity].
    apply sd3_describes; [vm_compute; discriminate|exact own_content].
Qed.
Theorem C113_v31_refuted : exists E S file es sections z res main versions, hash_sizes_ok E /\ sched_ok S /\
  accepts E S file z 33 40 res /\ apk_with file es sections /\ ar_certs res = [[main]] /\ ar_schemeId res = 31 /\ owner_made E es (c_spki main) versions /\
  forall sd original, In (sd, original) versions -> concat sections <> concat original /\
    forall d, content_digest E ChunkedSha256 original d -> ~ content_digest E ChunkedSha256 sections d.
Proof.
  exists toy_env, toy_sched, (toy_file stolen), stolen, toy_sections, toy_zip.
  assert (HC : match verifyWithSdk toy_env toy_sched (toy_file stolen) (Some toy_zip) 33 40 with Ret (r, None) => (ar_schemeId r =? 31) && match ar_certs r with [[m]] => bytes_eqb (c_spki m) kB | _ => false end | _ => false end = true) by (vm_compute; reflexivity).
  destruct (verifyWithSdk toy_env toy_sched (toy_file stolen) (Some toy_zip) 33 40) as [[r [e|]]|] eqn:EV; try discriminate HC.
  apply andb_true_iff in HC as (H31 & HC). apply Z.eqb_eq in H31. destruct (ar_certs r) as [|[|m [|? ?]] [|? ?]] eqn:Er; try discriminate HC. apply bytes_eqb_eq in HC.
  exists r, m, [(own_data, own_sections)]. split; [exact toy_hash_sizes|]. split; [exact toy_sched_ok|]. split; [exact EV|]. split; [exact stolen_with|]. split; [exact Er|]. split; [exact H31|].
  split; [rewrite HC; exact stolen_owner|]. intros sd original [H|[]]. assert (original = own_sections) as -> by congruence. split; [intros C; vm_compute in C; discriminate C|].
  intros d H1 H2. pose proof (C06_digest_function toy_env ChunkedSha256 _ _ _ toy_hash_sizes H1 own_content) as D1. pose proof (C06_digest_function toy_env ChunkedSha256 _ _ _ toy_hash_sizes H2 toy_content) as D2.
  rewrite D1 in D2. vm_compute in D2. discriminate D2.
Qed.
Print Assumptions C113_v31_refuted.

(** The hypotheses of the theorem are met: an APK with one v3 signer *)
Definition plain_v3 : list (Z * bytes) := [(id_v3, toy_block [toy_signer3 kB toy_digest 28 34 28 34 []])].
Lemma plain_v3_with : apk_with (toy_file plain_v3) plain_v3 toy_sections.
Proof.
  apply toy_with.
  - repeat (constructor; [split; [vm_compute; split; congruence|vm_compute; congruence]|]). constructor.
  - intros before id H. destruct before as [|x before]; [discriminate H|destruct before; discriminate H].
  - vm_compute. discriminate.
Qed.
Definition plain_versions : list (bytes * list bytes) := [(own_data, own_sections); (sd3 kB toy_digest 28 34, toy_sections)].
Lemma plain_v3_owner : owner_made toy_env plain_v3 kB plain_versions.
Proof.
  split.
  - intros sd (id & block & signers & junk & signer & sigs & rest & algos & algo & sig & k & L & Q & F1 & F2 & HI & F3 & F4 & HS & HL & HK & HV).
    apply in_last in L. destruct L as [L|[]].
    assert (id = id_v3 /\ block = toy_block [toy_signer3 kB toy_digest 28 34 28 34 []]) as (-> & Eb) by (split; congruence).
    destruct (shown3 kB toy_digest 28 34 28 34 id_v3 block signers junk signer sigs rest algos algo sig kB k sd) as (_ & ->); try assumption; try (vm_compute; discriminate). exists toy_sections. right. left. reflexivity.
  - intros sd original [H|[H|[]]].
    + assert (sd = own_data /\ original = own_sections) as (-> & ->) by (split; congruence). split; [apply sd3_describes; [vm_compute; discriminate|exact own_content]|vm_compute; reflexivity].
    + assert (sd = sd3 kB toy_digest 28 34 /\ original = toy_sections) as (-> & ->) by (split; congruence). split; [apply sd3_describes; [vm_compute; discriminate|exact toy_content]|vm_compute; reflexivity].
Qed.
Theorem C113_nonvacuous : exists res main, accepts toy_env toy_sched (toy_file plain_v3) toy_zip 28 33 res /\ apk_with (toy_file plain_v3) plain_v3 toy_sections /\
  zlen (toy_file plain_v3) < 9223372036854775808 /\ ar_certs res = [[main]] /\ ar_schemeId res = 3 /\ owner_made toy_env plain_v3 (c_spki main) plain_versions.
Proof.
  assert (HC : match verifyWithSdk toy_env toy_sched (toy_file plain_v3) (Some toy_zip) 28 33 with Ret (r, None) => (ar_schemeId r =? 3) && match ar_certs r with [[m]] => bytes_eqb (c_spki m) kB | _ => false end | _ => false end = true) by (vm_compute; reflexivity).
  destruct (verifyWithSdk toy_env toy_sched (toy_file plain_v3) (Some toy_zip) 28 33) as [[r [e|]]|] eqn:EV; try discriminate HC.
  apply andb_true_iff in HC as (H3 & HC). apply Z.eqb_eq in H3. destruct (ar_certs r) as [|[|m [|? ?]] [|? ?]] eqn:Er; try discriminate HC. apply bytes_eqb_eq in HC.
  exists r, m. split; [exact EV|]. split; [exact plain_v3_with|]. split; [vm_compute; reflexivity|]. split; [exact Er|]. split; [exact H3|]. rewrite HC. exact plain_v3_owner.
Qed.
Print Assumptions C113_nonvacuous.
