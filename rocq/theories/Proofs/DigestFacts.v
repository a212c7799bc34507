(** Lemmas about Model/Digest.v: the one-megabyte chunk digests *)
From Coq Require Import Lia.
From Verif.Model Require Import Bytes Env Utils SigBlock DataSource Result Digest.
From Verif.Spec Require Import Encoding Algorithms ApkLayout Digests.
From Verif.Proofs Require Import BytesFacts UtilsFacts CollectFacts DataSourceFacts.

Lemma zeros_len n : 0 <= n -> zlen (zeros n) = n.
Proof. intro. unfold zeros, zlen. rewrite repeat_length. lia. Qed.
Lemma zeros_nil n : n <= 0 -> zeros n = [].
Proof. intro. unfold zeros. replace (Z.to_nat n) with 0%nat by lia. reflexivity. Qed.
Lemma zeros_split a b : 0 <= a -> 0 <= b -> zeros (a + b) = zeros a ++ zeros b.
Proof. intros. unfold zeros. rewrite Z2Nat.inj_add by lia. apply repeat_app. Qed.

Lemma copyAt_app pre old post data : zlen old = zlen data ->
  copyAt (pre ++ old ++ post) (zlen pre) data = Ret (pre ++ data ++ post).
Proof.
  intro L. unfold copyAt. rewrite !zlen_app. pose proof (zlen_nonneg pre). pose proof (zlen_nonneg old). pose proof (zlen_nonneg post).
  destruct (Z.ltb_spec (zlen pre) 0); [lia|].
  destruct (Z.ltb_spec (zlen pre + (zlen old + zlen post)) (zlen pre)); [lia|]. cbn [orb].
  rewrite (takeZ_all data) by lia. rewrite takeZ_app by reflexivity. rewrite <- L.
  do 3 f_equal. rewrite app_assoc. apply dropZ_app. now rewrite zlen_app.
Qed.

Lemma hash_size_pos h : 0 < hash_size h.
Proof. destruct h; cbn; lia. Qed.

(** chunked is a function *)
Lemma chunked_exists content : exists cs, chunked content cs.
Proof.
  remember (length content) as n eqn:Hn. revert content Hn.
  induction n as [n IH] using lt_wf_ind. intros content ->.
  destruct content as [|b t]; [exists []; constructor|].
  destruct (Z.le_gt_cases (zlen (b :: t)) 1048576).
  - exists [b :: t]. constructor. split; [unfold zlen; cbn; lia | assumption].
  - remember (b :: t) as x eqn:Hx. clear b t Hx. rewrite <- (take_drop 1048576 x).
    assert (Lt : zlen (takeZ 1048576 x) = 1048576) by (rewrite zlen_takeZ; lia).
    assert (Ld : zlen (dropZ 1048576 x) = zlen x - 1048576) by (rewrite zlen_dropZ; lia).
    destruct (IH (length (dropZ 1048576 x))) with (content := dropZ 1048576 x) as (cs & C); [unfold zlen in *; lia | reflexivity|].
    exists (takeZ 1048576 x :: cs). constructor; [assumption | | assumption].
    intro E. rewrite E in Ld. unfold zlen in *. cbn in *. lia.
Qed.

Lemma chunked_count content cs : chunked content cs -> zlen cs = (zlen content + 1048575) / 1048576.
Proof.
  induction 1 as [|c [H1 H2]|c rest cs H N C IH].
  - reflexivity.
  - unfold zlen at 1. cbn [length]. replace (zlen c + 1048575) with (1 * 1048576 + (zlen c - 1)) by lia.
    rewrite Z.div_add_l by lia. rewrite Z.div_small by lia. reflexivity.
  - rewrite zlen_cons, zlen_app, IH, H. replace (1048576 + zlen rest + 1048575) with (1 * 1048576 + (zlen rest + 1048575)) by lia.
    rewrite Z.div_add_l by lia. lia.
Qed.

Lemma chunked_concat content cs : chunked content cs -> concat cs = content.
Proof. induction 1; cbn; [reflexivity | now rewrite app_nil_r | congruence]. Qed.

Lemma chunked_sizes content cs : chunked content cs -> Forall (fun c => 0 < zlen c <= 1048576) cs.
Proof. induction 1; repeat constructor; try assumption; lia. Qed.

Section WithEnv.
  Variable E : env.
  Hypothesis HS : hash_sizes_ok E.

  Definition chunkHash (h : hash_id) (c : bytes) : bytes := chunk_hash (e_hash E h) c.

  (** Buffer of hasher [h] after the chunks [done]. *)
  Definition bufferOf (total : Z) (done : list bytes) (h : hash_id) : bytes :=
    (x5a :: le_enc 4 total) ++ concat (map (chunkHash h) done) ++ zeros ((total - zlen done) * hash_size h).

  Lemma concat_hash_len h done : zlen (concat (map (chunkHash h) done)) = zlen done * hash_size h.
  Proof using HS.
    induction done as [|c done IH]; cbn [map concat]; [reflexivity|].
    rewrite zlen_app, IH, zlen_cons. unfold chunkHash, chunk_hash. rewrite HS. change (digest_octets h) with (hash_size h). lia.
  Qed.

  Lemma digestChunk_spec total input off n done data : zlen done < total ->
    ds_write input off n = Some data -> n = zlen data ->
    forall hs, digestChunk E input off n (zlen done) (map (fun h => (h, bufferOf total done h)) hs) =
               Ret (Some (map (fun h => (h, bufferOf total (done ++ [data]) h)) hs)).
  Proof using HS.
    intros T W N. induction hs as [|h hs IH]; [reflexivity|]. cbn [map digestChunk]. rewrite W.
    assert (Hsum : e_hash E h ((xa5 :: le_enc 4 n) ++ data) = chunkHash h data) by (subst n; reflexivity).
    rewrite Hsum. pose proof (hash_size_pos h) as P. pose proof (zlen_nonneg done).
    assert (Ls : zlen (chunkHash h data) = hash_size h) by apply HS.
    replace (copyAt (bufferOf total done h) (5 + zlen done * zlen (chunkHash h data)) (chunkHash h data))
      with (@Ret bytes (bufferOf total (done ++ [data]) h)).
    - cbn [obind]. rewrite IH. reflexivity.
    - unfold bufferOf. rewrite map_app, concat_app. cbn [map concat]. rewrite app_nil_r.
      rewrite zlen_app. change (zlen [data]) with 1.
      replace ((total - zlen done) * hash_size h) with (hash_size h + (total - (zlen done + 1)) * hash_size h) by lia.
      rewrite zeros_split by nia.
      rewrite (app_assoc _ _ (zeros (hash_size h) ++ _)). replace (5 + zlen done * zlen (chunkHash h data)) with (zlen ((x5a :: le_enc 4 total) ++ concat (map (chunkHash h) done))).
      2:{ rewrite zlen_app, concat_hash_len, Ls, zlen_cons, le_enc_zlen. lia. }
      rewrite copyAt_app by (rewrite zeros_len; lia). now rewrite <- !app_assoc.
  Qed.

  Lemma digestInput_spec total hs input content : represents input content ->
    forall fuel off done cs, 0 <= off <= zlen content -> chunked (dropZ off content) cs ->
    (Z.to_nat (zlen content - off) <= fuel)%nat -> zlen done + zlen cs <= total ->
    digestInput E fuel input off (zlen content - off) (zlen done) (map (fun h => (h, bufferOf total done h)) hs) =
    Ret (Some (zlen (done ++ cs), map (fun h => (h, bufferOf total (done ++ cs) h)) hs)).
  Proof using HS.
    intro R. induction fuel as [|fuel IH]; intros off done cs O C F T.
    - assert (zlen content - off = 0) by lia. assert (Nil : dropZ off content = []) by (apply dropZ_all; lia).
      rewrite Nil in C. inversion C; subst.
      + cbn [digestInput]. now rewrite app_nil_r.
      + unfold zlen in *. cbn in *. lia.
      + match goal with H : _ ++ _ = [] |- _ => apply app_eq_nil in H as [-> ->] end. contradiction.
    - cbn [digestInput]. destruct (Z.leb_spec (zlen content - off) 0).
      { assert (Nil : dropZ off content = []) by (apply dropZ_all; lia).
        rewrite Nil in C. inversion C; subst.
        + now rewrite app_nil_r.
        + unfold zlen in *. cbn in *. lia.
        + match goal with H : _ ++ _ = [] |- _ => apply app_eq_nil in H as [-> ->] end. contradiction. }
      unfold maxChunkSize. set (n := if 1048576 <? zlen content - off then 1048576 else zlen content - off).
      assert (Ld : zlen (dropZ off content) = zlen content - off) by (rewrite zlen_dropZ; lia).
      assert (Cn : exists c cs', cs = c :: cs' /\ c = slice content off (off + n) /\ chunked (dropZ (off + n) content) cs' /\ zlen c = n).
      { unfold slice. replace (off + n - off) with n by lia. unfold n. rewrite <- !Ld.
        inversion C as [Hn|c [C1 C2]|c rest cs' C1 C2 C3]; subst.
        - exfalso. rewrite <- Hn in Ld. unfold zlen in *. cbn in *. lia.
        - destruct (Z.ltb_spec 1048576 (zlen (dropZ off content))); [lia|].
          exists (dropZ off content), []. split; [reflexivity|]. split; [symmetry; apply takeZ_all; lia|]. split; [|reflexivity].
          rewrite dropZ_all by lia. constructor.
        - destruct (Z.ltb_spec 1048576 (zlen (c ++ rest))).
          2:{ rewrite zlen_app in *. assert (0 < zlen rest) by (destruct rest; [contradiction | unfold zlen; cbn; lia]). lia. }
          exists c, cs'. split; [reflexivity|].
          split; [symmetry; now apply takeZ_app|]. split; [|assumption].
          replace (off + 1048576) with (1048576 + off) by lia. rewrite <- dropZ_dropZ by lia.
          match goal with H : c ++ rest = _ |- _ => rewrite <- H end. now rewrite dropZ_app. }
      destruct Cn as (c & cs' & -> & Ec & C' & Ln).
      assert (Rn : 0 < n <= zlen content - off) by (unfold n; destruct (Z.ltb_spec 1048576 (zlen content - off)); lia).
      rewrite zlen_cons in T. pose proof (zlen_nonneg cs').
      rewrite (digestChunk_spec total input off n done c); [|lia| |congruence].
      2:{ rewrite (rp_read _ _ R) by lia. now rewrite Ec. }
      cbn [obind]. replace (zlen content - off - n) with (zlen content - (off + n)) by lia.
      replace (zlen done + 1) with (zlen (done ++ [c])) by (rewrite zlen_app; reflexivity).
      rewrite (IH (off + n) (done ++ [c]) cs'); [now rewrite <- app_assoc | lia | assumption | lia |].
      rewrite zlen_app. change (zlen [c]) with 1. lia.
  Qed.

  Lemma digestInputs_spec total hs dss sections : Forall2 represents dss sections ->
    forall done css, Forall2 chunked sections css -> zlen done + zlen (concat css) <= total ->
    digestInputs E dss (zlen done) (map (fun h => (h, bufferOf total done h)) hs) =
    Ret (Some (map (fun h => (h, bufferOf total (done ++ concat css) h)) hs)).
  Proof using HS.
    induction 1 as [|d c dss sections R _ IH]; intros done css F T; inversion F; subst; cbn [digestInputs].
    - cbn. now rewrite app_nil_r.
    - cbn [concat] in *. rewrite zlen_app in T. rewrite (rp_length _ _ R).
      pose proof (zlen_nonneg (concat l')). pose proof (zlen_nonneg c).
      replace (zlen c) with (zlen c - 0) at 2 by lia.
      rewrite (digestInput_spec total hs d c R (Z.to_nat (zlen c)) 0 done y); [|lia|now rewrite dropZ_0 by lia|lia|lia].
      cbn [obind]. rewrite (IH (done ++ y) l'); [now rewrite <- app_assoc | assumption|].
      rewrite zlen_app. lia.
  Qed.

  Lemma represents_chunkSum dss sections css : Forall2 represents dss sections -> Forall2 chunked sections css ->
    sumZ (map ds_chunkCount dss) = zlen (concat css).
  Proof.
    intro F. revert css. induction F as [|d c dss sections R _ IH]; intros css C; inversion C; subst; [reflexivity|].
    cbn [map concat]. rewrite sumZ_cons, zlen_app, (rp_chunks _ _ R), (IH l') by assumption.
    f_equal. symmetry. now apply chunked_count.
  Qed.

  Lemma omap_hash algos hs : omap digestHash algos = Ret hs -> Forall2 (fun a h => digestHash a = Ret h) algos hs.
  Proof.
    revert hs. induction algos as [|a algos IH]; intros hs H; cbn in H; [inversion H; constructor|].
    apply obind_ret in H as (h & H1 & H). apply obind_ret in H as (hs' & H2 & H). inversion H; subst. constructor; auto.
  Qed.

  Definition digestsOf (f : hash_id -> bytes) (algos : list Z) (hs : list hash_id) (m0 : digests) : digests :=
    fold_left (fun m kv => zset (fst kv) (e_hash E (fst (snd kv)) (snd (snd kv))) m)
              (combine algos (map (fun h => (h, f h)) hs)) m0.

  Lemma digestsOf_other f algos : forall hs m0 a, ~ In a algos -> zget a (digestsOf f algos hs m0) = zget a m0.
  Proof.
    induction algos as [|x algos IH]; intros hs m0 a N; [reflexivity|]. destruct hs as [|h hs]; [reflexivity|].
    unfold digestsOf in *. cbn [map combine fold_left fst snd]. rewrite IH by (intro; apply N; now right).
    rewrite zget_zset. destruct (Z.eqb_spec a x); [|reflexivity]. exfalso. apply N. now left.
  Qed.
  Lemma digestsOf_get f algos : forall hs m0 a h, NoDup algos -> Forall2 (fun a h => digestHash a = Ret h) algos hs ->
    In a algos -> digestHash a = Ret h -> zget a (digestsOf f algos hs m0) = Some (e_hash E h (f h)).
  Proof.
    induction algos as [|x algos IH]; intros hs m0 a h ND F I Hh; [destruct I|].
    inversion F as [|? h' ? hs' Hx F']; subst. inversion ND; subst.
    unfold digestsOf in *. cbn [map combine fold_left fst snd]. destruct I as [->|I].
    - pose proof (digestsOf_other f algos hs' (zset a (e_hash E h' (f h')) m0) a) as O. unfold digestsOf in O. rewrite O by assumption.
      rewrite zget_zset, Z.eqb_refl. congruence.
    - apply IH; assumption.
  Qed.

  (** computeOneMbChunkContentDigests: succeeds exactly below the chunk limit, with the chunked digests. *)
  Theorem computeOneMb_spec algos hs dss sections css :
    NoDup algos -> omap digestHash algos = Ret hs -> Forall2 represents dss sections -> Forall2 chunked sections css ->
    (zlen (concat css) < 2097151 ->
     exists m, computeOneMbChunkContentDigests E algos dss = Ret (Some m) /\
       (forall a h, In a algos -> digestHash a = Ret h -> zget a m = Some (top_hash (e_hash E h) (concat css))) /\
       (forall a, ~ In a algos -> zget a m = None)) /\
    (2097151 <= zlen (concat css) -> computeOneMbChunkContentDigests E algos dss = Ret None).
  Proof using HS.
    intros ND Hs R C. unfold computeOneMbChunkContentDigests. rewrite (represents_chunkSum _ _ _ R C).
    change (max_int32 / 1024) with 2097151. split; intro L.
    - destruct (Z.leb_spec 2097151 (zlen (concat css))); [lia|]. rewrite Hs. cbn [obind].
      set (total := zlen (concat css)) in *.
      replace (map (fun h => (h, (x5a :: le_enc 4 total) ++ zeros (total * hash_size h))) hs)
        with (map (fun h => (h, bufferOf total [] h)) hs).
      2:{ apply map_ext. intro h. unfold bufferOf. cbn [map concat]. do 3 f_equal. change (zlen []) with 0. cbn [app]. f_equal. lia. }
      change 0 with (zlen (@nil bytes)) at 1.
      rewrite (digestInputs_spec total hs dss sections R [] css C) by (change (zlen []) with 0; unfold total; lia).
      cbn [obind app]. apply omap_hash in Hs.
      eexists. split; [reflexivity|]. split.
      + intros a h I Hh. fold (digestsOf (bufferOf total (concat css)) algos hs []).
        rewrite (digestsOf_get _ _ _ _ a h ND Hs I Hh). f_equal. unfold top_hash, bufferOf.
        fold total. rewrite Z.sub_diag. cbn [Z.mul]. rewrite (zeros_nil 0) by lia. rewrite app_nil_r. reflexivity.
      + intros a N. fold (digestsOf (bufferOf total (concat css)) algos hs []). now rewrite digestsOf_other.
    - destruct (Z.leb_spec 2097151 (zlen (concat css))); [reflexivity | lia].
  Qed.
End WithEnv.
