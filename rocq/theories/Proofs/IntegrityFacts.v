(** The APK layout and verifyIntegrity *)
From Coq Require Import String.
From Coq Require Import Lia Permutation.
From Verif.Model Require Import Bytes Env Utils SigBlock DataSource Result Digest.
From Verif.Spec Require Import Encoding Algorithms ApkLayout Sources Digests.
From Verif.Proofs Require Import BytesFacts UtilsFacts SigBlockFacts SignerFacts CollectFacts DataSourceFacts DigestFacts VerityFacts CollisionFacts.

Lemma isZip64_iff file off : off <= zlen file -> (isZip64 file off = true <-> zip64_locator file off).
Proof.
  intro B. unfold isZip64, zip64_locator, zip64LocatorSize, zip64LocatorMagic. split.
  - destruct (Z.ltb_spec (off - 20) 0); [discriminate|].
    destruct (read_at file (off - 20) 4) as [b|] eqn:R; [|discriminate]. intro Q. apply Z.eqb_eq in Q.
    apply read_at_split in R as (pre & post & -> & L & Lb). exists pre, post. split; [|assumption]. do 2 f_equal.
    apply le_dec_inj; [unfold le32; rewrite le_enc_length; unfold zlen in Lb; lia|]. rewrite Q. reflexivity.
  - intros (pre & post & -> & L). pose proof (zlen_nonneg pre). destruct (Z.ltb_spec (off - 20) 0); [lia|].
    assert (R : read_at (pre ++ le32 0x07064b50 ++ post) (off - 20) 4 = Some (le32 0x07064b50)).
    { apply read_at_split. exists pre, post. auto. }
    rewrite R. reflexivity.
Qed.

Lemma eocd_file file off sz cd rec : eocd_at file off sz cd rec -> exists pre, file = pre ++ rec /\ zlen pre = off.
Proof. intros (pre & mid & com & E & L & _). eauto. Qed.

(** What is found in the file is exactly the APK layout. *)
Theorem find_apk file ei pairs off :
  (findEocd file = EocdFound ei /\ isZip64 file (ei_eocdOffset ei) = false /\
   findApkSigningBlock file (ei_centralDirOffset ei) = SigBlockFound (signing_block pairs) off) <->
  exists before cd rec, apk file before pairs cd rec /\ off = zlen before /\
    ei = {| ei_eocdOffset := zlen (before ++ signing_block pairs ++ cd);
            ei_centralDirOffset := zlen (before ++ signing_block pairs);
            ei_centralDirSize := zlen cd; ei_eocd := rec |}.
Proof.
  split.
  - intros (F & Z & B). destruct ei as [eo co cs rec]. cbn [ei_eocdOffset ei_centralDirOffset] in *.
    apply findEocd_iff in F as [[A [L1 L2]] La].
    apply findApkSigningBlock_iff in B as (pairs' & Ep & (pre & post & Ef & Lp & Lc & Sz)).
    assert (pairs' = pairs).
    { pose proof (signing_block_pairs pairs) as S1. pose proof (signing_block_pairs pairs') as S2. rewrite Ep in S1. congruence. }
    subst pairs'. clear Ep.
    destruct (eocd_file _ _ _ _ _ A) as (pr & Er & Lr). pose proof (zlen_nonneg rec) as Nr.
    rewrite Ef in Er. rewrite app_assoc in Er.
    assert (Lpost : zlen post = cs + zlen rec).
    { apply (f_equal zlen) in Er. rewrite !zlen_app in Er. lia. }
    exists pre, (takeZ cs post), rec.
    assert (Lcd : zlen (takeZ cs post) = cs) by (rewrite zlen_takeZ; lia).
    assert (Ep : post = takeZ cs post ++ rec).
    { rewrite <- (take_drop cs post) at 1. f_equal. rewrite <- (take_drop cs post), app_assoc in Er.
      apply app_take_eq in Er as [_ Er]; [assumption|]. rewrite !zlen_app, Lcd. lia. }
    assert (E1 : zlen (pre ++ signing_block pairs) = co) by (rewrite zlen_app; lia).
    assert (E2 : zlen (pre ++ signing_block pairs ++ takeZ cs post) = eo) by (rewrite app_assoc, zlen_app; lia).
    split; [|split; [congruence | now rewrite E1, E2, Lcd]].
    unfold apk. rewrite E1, E2, Lcd. repeat split; try assumption.
    + rewrite Ef. now rewrite Ep at 1.
    + intro X. rewrite X in Lcd. unfold zlen in Lcd. cbn in Lcd. lia.
    + intro X. apply isZip64_iff in X; [congruence|]. apply (f_equal zlen) in Er. rewrite <- app_assoc in Er. rewrite <- Ef in Er.
      rewrite zlen_app in Er. lia.
  - intros (before & cd & rec & (Ef & Sz & N & A & La & Zi) & -> & ->). cbn [ei_eocdOffset ei_centralDirOffset].
    split; [|split].
    + apply findEocd_iff. split; [|assumption]. split; [assumption|]. rewrite !zlen_app.
      destruct cd; [contradiction|]. rewrite zlen_cons. pose proof (zlen_nonneg cd). lia.
    + destruct (isZip64 _ _) eqn:Z; [|reflexivity]. exfalso. apply Zi. apply isZip64_iff; [|assumption].
      rewrite Ef, !zlen_app. pose proof (zlen_nonneg rec). lia.
    + apply findApkSigningBlock_iff. exists pairs. split; [reflexivity|]. exists before, (cd ++ rec).
      repeat split; [assumption | now rewrite zlen_app | assumption].
Qed.

Lemma apk_bounds file before pairs cd rec : apk file before pairs cd rec ->
  zlen before < 4294967296 /\ zlen cd < 4294967296 /\ 22 <= zlen rec <= 65557 /\ 0 < zlen cd.
Proof.
  intros (Ef & Sz & N & (pre & mid & com & E1 & L1 & Er & Lm & Lc & [_ U1] & [_ U2]) & _).
  rewrite zlen_app in U2. pose proof (zlen_nonneg (signing_block pairs)). pose proof (zlen_nonneg com).
  rewrite Er, !zlen_app. unfold le32. rewrite !le_enc_zlen.
  destruct cd; [contradiction|]. rewrite zlen_cons in *. pose proof (zlen_nonneg cd). lia.
Qed.

Lemma ceil_bound n m : n < m * 1048576 -> (n + 1048575) / 1048576 <= m.
Proof. intro H. apply Z.lt_succ_r. apply Z.div_lt_upper_bound; lia. Qed.

(** an unambiguous split of the record *)
Lemma patched_exists rec off : 20 <= zlen rec -> exists rec', patched rec off rec' /\ zlen rec' = zlen rec /\
  copyAt rec 16 (le_enc 4 off) = Ret rec'.
Proof.
  intro L. exists (takeZ 16 rec ++ le32 off ++ dropZ 20 rec).
  assert (E : rec = takeZ 16 rec ++ takeZ 4 (dropZ 16 rec) ++ dropZ 20 rec).
  { rewrite <- (take_drop 16 rec) at 1. f_equal. rewrite <- (take_drop 4 (dropZ 16 rec)) at 1. f_equal. now rewrite dropZ_dropZ by lia. }
  assert (L1 : zlen (takeZ 16 rec) = 16) by (rewrite zlen_takeZ; lia).
  assert (L2 : zlen (takeZ 4 (dropZ 16 rec)) = 4) by (rewrite zlen_takeZ, zlen_dropZ; lia).
  split; [|split].
  - exists (takeZ 16 rec), (takeZ 4 (dropZ 16 rec)), (dropZ 20 rec). auto.
  - rewrite !zlen_app, L1. unfold le32. rewrite le_enc_zlen, zlen_dropZ. lia.
  - rewrite E at 1. rewrite <- L1 at 3. rewrite copyAt_app; [reflexivity | now rewrite le_enc_zlen].
Qed.
Lemma patched_fun rec off a b : patched rec off a -> patched rec off b -> a = b.
Proof.
  intros (x & o & y & -> & L1 & L2 & ->) (x' & o' & y' & E & L1' & L2' & ->).
  apply app_take_eq in E as [-> E]; [|congruence]. apply app_take_eq in E as [_ ->]; [reflexivity | congruence].
Qed.

Section WithEnv.
  Variable E : env.
  Hypothesis HS : hash_sizes_ok E.

  Lemma splitAlgos_kinds ks : NoDup ks ->
    splitAlgos (map kind_id ks) =
      Ret (map kind_id (filter (fun k => match k with VeritySha256 => false | _ => true end) ks),
           existsb (fun k => match k with VeritySha256 => true | _ => false end) ks).
  Proof.
    intro ND. clear ND. induction ks as [|k ks IH]; [reflexivity|]. cbn [map splitAlgos]. destruct k; cbn.
    - now rewrite IH.
    - now rewrite IH.
    - now rewrite IH.
  Qed.

  Lemma kind_id_NoDup ks : NoDup ks -> NoDup (map kind_id ks).
  Proof.
    induction 1 as [|k ks N ND IH]; cbn; constructor; [|assumption]. intro I. apply in_map_iff in I as (k' & Ek & I).
    apply kind_id_inj in Ek. now subst.
  Qed.

  (** computeContentDigests *)
  Theorem computeContentDigests_spec ks dss sections css : NoDup ks -> ks <> [] ->
    Forall2 represents dss sections -> sections <> [] -> Forall2 chunked sections css -> zlen (concat css) < 2097151 ->
    0 < zlen (concat sections) < 34359738368 ->
    ((In VeritySha256 ks -> zlen (hd [] sections) mod 4096 = 0) ->
       exists m, computeContentDigests E (map kind_id ks) dss = Ret (Some m) /\
         forall k, In k ks -> exists d, zget (kind_id k) m = Some d /\ content_digest E k sections d) /\
    (In VeritySha256 ks -> zlen (hd [] sections) mod 4096 <> 0 -> computeContentDigests E (map kind_id ks) dss = Ret None).
  Proof using HS.
    intros ND Ne R Ns C Lim B. unfold computeContentDigests. rewrite splitAlgos_kinds by assumption. cbn [obind].
    set (one := filter (fun k => match k with VeritySha256 => false | _ => true end) ks).
    set (hasV := existsb (fun k => match k with VeritySha256 => true | _ => false end) ks).
    assert (HV : hasV = true <-> In VeritySha256 ks).
    { unfold hasV. rewrite existsb_exists. split; [intros (k & I & K); now destruct k|]. intro I. exists VeritySha256. auto. }
    assert (NDo : NoDup (map kind_id one)) by (apply kind_id_NoDup; unfold one; now apply NoDup_filter).
    assert (Ho : exists hs, omap digestHash (map kind_id one) = Ret hs).
    { clear. induction one as [|k one (hs & IH)]; [exists []; reflexivity|]. cbn [map omap]. destruct k; cbn [digestHash kind_id]; eexists; cbn; rewrite IH; reflexivity. }
    destruct Ho as (hs & Ho).
    assert (One : exists m, (match map kind_id one with [] => Ret (Some []) | _ :: _ => computeOneMbChunkContentDigests E (map kind_id one) dss end) = Ret (Some m)
       /\ (forall k, In k one -> exists d, zget (kind_id k) m = Some d /\ content_digest E k sections d)).
    { destruct (map kind_id one) as [|a l] eqn:El.
      - exists []. split; [reflexivity|]. intros k I. apply (in_map kind_id) in I. rewrite El in I. destruct I.
      - rewrite <- El in *. destruct (computeOneMb_spec E HS (map kind_id one) hs dss sections css NDo Ho R C) as [OK _].
        destruct (OK Lim) as (m & -> & G & _). exists m. split; [reflexivity|]. intros k I.
        pose proof (in_map kind_id _ _ I) as I2. destruct k; cbn [kind_id] in I2 |- *.
        + eexists. split; [apply (G 1 HSha256); [assumption | reflexivity]|]. exists css. auto.
        + eexists. split; [apply (G 2 HSha512); [assumption | reflexivity]|]. exists css. auto.
        + unfold one in I. apply filter_In in I as [_ X]. discriminate. }
    destruct One as (m & Em & Gm). rewrite Em. cbn [obind].
    destruct (computeVerity_spec E HS dss sections R Ns B) as [VA VN].
    split.
    - intro Al. destruct hasV eqn:HasV.
      + assert (I : In VeritySha256 ks) by now apply HV. destruct (VA (Al I)) as (d & -> & Vd). cbn [obind].
        exists (zset digestVeritySha256 d m). split.
        { destruct m as [|[a b] m']; [reflexivity|]. cbn [mset]. destruct (digestVeritySha256 =? a); reflexivity. }
        intros k Ik. destruct k.
        * cbn [kind_id]. rewrite zget_zset. cbn. apply (Gm ChunkedSha256). unfold one. apply filter_In. auto.
        * cbn [kind_id]. rewrite zget_zset. cbn. apply (Gm ChunkedSha512). unfold one. apply filter_In. auto.
        * cbn [kind_id]. rewrite zget_zset. cbn. eexists. split; [reflexivity|]. split; [auto | assumption].
      + cbn [obind]. exists m.
        assert (Hk : forall k, In k ks -> In k one).
        { intros k I. unfold one. apply filter_In. split; [assumption|]. destruct k; try reflexivity. apply HV in I. discriminate. }
        split.
        { destruct m as [|x m']; [|reflexivity]. exfalso. destruct ks as [|k ks']; [contradiction|].
          destruct (Gm k) as (d & G & _); [apply Hk; now left|]. discriminate. }
        intros k I. apply Gm. auto.
    - intros I M. apply HV in I. rewrite I. rewrite (VN M). reflexivity.
  Qed.

  Lemma fold_compare exp m keys : forall r,
    let getd k (d : digests) := match zget k d with Some x => x | None => [] end in
    let r' := fold_left (fun r k => if bytes_eqb (getd k exp) (getd k m) then r else addError r "digest of contents did not verify."%string) keys r in
    (exists e, r' = mkCore (certs r) (signingLineage r) (warnings r) (errors r ++ e)) /\
    (errors r' = errors r <-> forall k, In k keys -> getd k exp = getd k m).
  Proof.
    cbv zeta. induction keys as [|k keys IH]; intro r; cbn [fold_left].
    - split; [exists []; rewrite app_nil_r; now destruct r|]. split; [intros _ ? [] | reflexivity].
    - destruct (bytes_eqb _ _) eqn:Q.
      + destruct (IH r) as [X Y]. split; [assumption|]. rewrite Y. apply bytes_eqb_eq in Q. split; [|intros H k' I; apply H; now right].
        intros H k' [<-|I]; auto.
      + match goal with |- context [fold_left ?f keys ?a] => set (r1 := a); set (ff := f) end.
        destruct (IH r1) as [(e & X) Y]. fold ff in X, Y. rewrite X. cbn [certs signingLineage warnings errors]. unfold r1, addError.
        cbn [certs signingLineage warnings errors]. split; [eexists; rewrite <- app_assoc; reflexivity|]. split.
        * intro H. exfalso. rewrite <- app_assoc in H. apply app_self in H. discriminate.
        * intro H. exfalso. apply bytes_eqb_neq in Q. apply Q. apply H. now left.
  Qed.

  Theorem verifyIntegrity_spec file before pairs cd rec sections keys expected r :
    apk file before pairs cd rec -> protected before cd rec sections ->
    NoDup (map fst expected) -> Permutation keys (map fst expected) -> expected <> [] ->
    (forall a d, zget a expected = Some d -> exists k, a = kind_id k) ->
    exists e good,
      verifyIntegrity E file {| ei_eocdOffset := zlen (before ++ signing_block pairs ++ cd);
            ei_centralDirOffset := zlen (before ++ signing_block pairs);
            ei_centralDirSize := zlen cd; ei_eocd := rec |} (zlen before) keys expected r
        = Ret (mkCore (certs r) (signingLineage r) (warnings r) (errors r ++ e), good) /\
      (good = false -> e <> []) /\
      (e = [] <-> forall k d, zget (kind_id k) expected = Some d -> content_digest E k sections d).
  Proof using HS.
    intros A P ND Pm Ne Kinds. pose proof (apk_bounds _ _ _ _ _ A) as (B1 & B2 & [B3 B4] & B5).
    destruct P as (rec' & Pa & ->). destruct (patched_exists rec (zlen before)) as (rec2 & Pa2 & L2 & Cp); [lia|].
    pose proof (patched_fun _ _ _ _ Pa Pa2); subst rec2.
    unfold verifyIntegrity. cbn [ei_eocdOffset ei_centralDirOffset ei_eocd]. unfold eocdCentralDirOffsetOffset. rewrite Cp. cbn [obind].
    assert (R : Forall2 represents
       [dataSourceApk file 0 (zlen before);
        dataSourceApk file (zlen (before ++ signing_block pairs)) (zlen (before ++ signing_block pairs ++ cd)); dataSourceBytes rec']
       [before; cd; rec']).
    { destruct A as (Ef & _). pose proof (zlen_nonneg before). pose proof (zlen_nonneg (signing_block pairs)).
      constructor; [|constructor; [|constructor; [apply represents_bytes | constructor]]].
      - replace before with (slice file 0 (zlen before)) at 2.
        + apply represents_apk; [lia|]. rewrite Ef, !zlen_app. lia.
        + rewrite Ef. unfold slice. rewrite dropZ_0 by lia. apply takeZ_app. lia.
      - replace cd with (slice file (zlen (before ++ signing_block pairs)) (zlen (before ++ signing_block pairs ++ cd))) at 2.
        + apply represents_apk; rewrite ?Ef, !zlen_app; lia.
        + rewrite Ef. rewrite (app_assoc before). unfold slice. rewrite dropZ_app by reflexivity. apply takeZ_app. rewrite !zlen_app. lia. }
    assert (exists css, Forall2 chunked [before; cd; rec'] css) as (css & C).
    { destruct (chunked_exists before) as (a & ?), (chunked_exists cd) as (b & ?), (chunked_exists rec') as (c & ?). exists [a; b; c]. auto. }
    assert (Lim : zlen (concat css) < 2097151).
    { inversion C as [|? ? ? ? C1 C']; subst. inversion C' as [|? ? ? ? C2 C'']; subst. inversion C'' as [|? ? ? ? C3 C4]; subst. inversion C4; subst.
      cbn [concat]. rewrite !zlen_app. apply chunked_count in C1, C2, C3. rewrite C1, C2, C3. unfold zlen at 4. cbn [length Z.of_nat].
      pose proof (ceil_bound (zlen before) 4096 ltac:(lia)). pose proof (ceil_bound (zlen cd) 4096 ltac:(lia)). pose proof (ceil_bound (zlen rec') 1 ltac:(lia)). lia. }
    assert (Bd : 0 < zlen (concat [before; cd; rec']) < 34359738368).
    { cbn [concat]. rewrite !zlen_app. unfold zlen at 4 8. cbn [length Z.of_nat]. pose proof (zlen_nonneg before). lia. }
    (* keys as kinds *)
    assert (exists ks, keys = map kind_id ks) as (ks & ->).
    { assert (Hk : forall a, In a keys -> exists k, a = kind_id k).
      { intros a I. apply (Permutation_in _ Pm) in I. apply zget_key in I as [v G]. eauto. }
      clear - Hk. induction keys as [|a keys IH]; [exists []; reflexivity|].
      destruct IH as (ks & ->); [intros; apply Hk; now right|]. destruct (Hk a (or_introl eq_refl)) as [k ->]. exists (k :: ks). reflexivity. }
    assert (NDk : NoDup ks).
    { apply (NoDup_map_inv kind_id). eapply Permutation_NoDup; [apply Permutation_sym; exact Pm | assumption]. }
    assert (Nek : ks <> []).
    { intros ->. cbn in Pm. apply Permutation_nil in Pm. destruct expected; [contradiction | discriminate]. }
    assert (Ik : forall k, In k ks <-> exists d, zget (kind_id k) expected = Some d).
    { intro k. rewrite <- zget_key. split; intro I.
      - apply (Permutation_in _ Pm). now apply in_map.
      - apply (Permutation_in _ (Permutation_sym Pm)) in I. apply in_map_iff in I as (k' & Q & I). apply kind_id_inj in Q. now subst. }
    destruct (computeContentDigests_spec ks _ _ css NDk Nek R ltac:(discriminate) C Lim Bd) as [OK Bad].
    cbn [hd] in OK, Bad.
    assert (Dec : (In VeritySha256 ks -> zlen before mod 4096 = 0) \/ (In VeritySha256 ks /\ zlen before mod 4096 <> 0)).
    { destruct (Z.eq_dec (zlen before mod 4096) 0); [now left|].
      destruct (in_dec (fun a b : digest_kind => ltac:(decide equality) : {a = b} + {a <> b}) VeritySha256 ks); [right; auto | left; contradiction]. }
    destruct Dec as [Al|[I M]].
    - destruct (OK Al) as (m & Cd & G). rewrite Cd. cbn [obind].
      destruct (fold_compare expected m (map kind_id ks) r) as [(e & X) Y]. cbv zeta in X, Y. rewrite X in *. cbn [errors] in Y.
      exists e, true. split; [reflexivity|]. split; [discriminate|].
      assert (Y' : e = [] <-> errors r ++ e = errors r) by (split; [intros ->; apply app_nil_r | apply app_self]).
      rewrite Y', Y. split.
      + intros H k d Gd. pose proof (proj2 (Ik k) (ex_intro _ d Gd)) as I. destruct (G k I) as (d' & Gm & Cd').
        specialize (H (kind_id k) (in_map _ _ _ I)). rewrite Gd, Gm in H. now subst d'.
      + intros H a Ia. apply in_map_iff in Ia as (k & <- & I). destruct (proj1 (Ik k) I) as [d Gd]. destruct (G k I) as (d' & Gm & Cd').
        rewrite Gd, Gm. eapply content_digest_fun; eauto.
    - rewrite (Bad I M). cbn [obind]. exists [Err "Failed to compute digest(s) of contents"], false. split; [reflexivity|].
      split; [discriminate|]. split; [discriminate|]. intro H. exfalso. destruct (proj1 (Ik _) I) as [d Gd]. apply H in Gd as [Z0 _]. contradiction.
  Qed.
End WithEnv.

Section Statements.
  Variable E : env.
  Hypothesis HS : hash_sizes_ok E.

  Lemma kinds_hashes ks : exists hs, omap digestHash (map kind_id ks) = Ret hs.
  Proof. induction ks as [|k ks (hs & IH)]; [exists []; reflexivity|]. cbn [map omap]. destruct k; cbn [digestHash kind_id]; eexists; cbn; rewrite IH; reflexivity. Qed.

  Theorem computeOneMb_sources ks dss sections css : NoDup ks -> ~ In VeritySha256 ks ->
    sources_of dss sections -> Forall2 chunked sections css ->
    (zlen (concat css) < 2097151 ->
     exists m, computeOneMbChunkContentDigests E (map kind_id ks) dss = Ret (Some m) /\
       forall k, In k ks -> exists d, zget (kind_id k) m = Some d /\ content_digest E k sections d) /\
    (2097151 <= zlen (concat css) -> computeOneMbChunkContentDigests E (map kind_id ks) dss = Ret None).
  Proof using HS.
    intros ND NV S C. apply sources_represent in S. destruct (kinds_hashes ks) as (hs & Ho).
    destruct (computeOneMb_spec E HS (map kind_id ks) hs dss sections css (kind_id_NoDup _ ND) Ho S C) as [OK Bad].
    split; [|assumption]. intro L. destruct (OK L) as (m & -> & G & _). exists m. split; [reflexivity|].
    intros k I. pose proof (in_map kind_id _ _ I) as I2. destruct k; cbn [kind_id] in I2 |- *; [| |contradiction].
    - eexists. split; [apply (G 1 HSha256); [assumption | reflexivity]|]. exists css. auto.
    - eexists. split; [apply (G 2 HSha512); [assumption | reflexivity]|]. exists css. auto.
  Qed.

  Theorem computeVerity_sources dss sections : sources_of dss sections -> sections <> [] ->
    0 < zlen (concat sections) < 34359738368 ->
    (zlen (hd [] sections) mod 4096 = 0 ->
      exists d, computeVerityContentDigest E dss = Ret (Some d) /\ verity_digest (e_hash E HSha256) sections d) /\
    (zlen (hd [] sections) mod 4096 <> 0 -> computeVerityContentDigest E dss = Ret None).
  Proof using HS. intros S. apply sources_represent in S. now apply computeVerity_spec. Qed.

  Theorem content_digest_inj k sections sections' d :
    zlen (concat sections) < 18446744073709551616 -> zlen (concat sections') < 18446744073709551616 ->
    content_digest E k sections d -> content_digest E k sections' d ->
    concat sections = concat sections' \/
    exists h m m', digest_message E k sections h m /\ digest_message E k sections' h m' /\ m <> m' /\ e_hash E h m = e_hash E h m'.
  Proof using HS.
    intros B B'. destruct k; cbn [content_digest].
    - intros X Y. destruct (chunked_digest_inj (e_hash E HSha256) 32 (HS HSha256) ltac:(lia) _ _ _ X Y) as [|(m & m' & ? & ? & ? & ?)]; [now left | right; exists HSha256, m, m'; cbn [digest_message]; repeat split; assumption].
    - intros X Y. destruct (chunked_digest_inj (e_hash E HSha512) 64 (HS HSha512) ltac:(lia) _ _ _ X Y) as [|(m & m' & ? & ? & ? & ?)]; [now left | right; exists HSha512, m, m'; cbn [digest_message]; repeat split; assumption].
    - intros [_ X] [_ Y]. destruct (verity_digest_inj (e_hash E HSha256) 32 (HS HSha256) ltac:(lia) _ _ _ B B' X Y) as [|(m & m' & ? & ? & ? & ?)]; [now left | right; exists HSha256, m, m'; cbn [digest_message]; repeat split; assumption].
  Qed.
End Statements.
