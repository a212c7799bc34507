(** Lemmas about Model/Digest.v: the verity tree *)
From Coq Require Import Lia.
From Verif.Model Require Import Bytes Env Utils SigBlock DataSource Result Digest.
From Verif.Spec Require Import Encoding Algorithms ApkLayout Digests.
From Verif.Proofs Require Import BytesFacts UtilsFacts DataSourceFacts DigestFacts.

Definition is_block (b : bytes) : Prop := zlen b = 4096.

Lemma concat_block_len full : Forall is_block full -> zlen (concat full) = 4096 * zlen full.
Proof.
  induction 1 as [|b full H _ IH]; [reflexivity|]. cbn [concat]. rewrite zlen_app, zlen_cons, IH, H. lia.
Qed.

Lemma split_blocks (c : bytes) : exists full tail, c = concat full ++ tail /\ Forall is_block full /\ zlen tail < 4096.
Proof.
  remember (length c) as n eqn:Hn. revert c Hn. induction n as [n IH] using lt_wf_ind. intros c ->.
  destruct (Z.lt_ge_cases (zlen c) 4096).
  - exists [], c. repeat split; [constructor | assumption].
  - assert (Lt : zlen (takeZ 4096 c) = 4096) by (rewrite zlen_takeZ; lia).
    assert (Ld : zlen (dropZ 4096 c) = zlen c - 4096) by (rewrite zlen_dropZ; lia).
    destruct (IH (length (dropZ 4096 c))) with (c := dropZ 4096 c) as (full & tail & E & F & L); [unfold zlen in *; lia | reflexivity|].
    exists (takeZ 4096 c :: full), tail. split; [|split; [constructor; assumption | assumption]].
    cbn [concat]. rewrite <- app_assoc, <- E. now rewrite take_drop.
Qed.

Section WithEnv.
  Variable E : env.
  Hypothesis HS : hash_sizes_ok E.
  Notation H := (e_hash E HSha256).
  Definition bh (b : bytes) : bytes := H (zeros 8 ++ b).

  Lemma bh_len b : zlen (bh b) = 32.
  Proof using HS. apply HS. Qed.
  Lemma concat_bh_len bs : zlen (concat (map bh bs)) = 32 * zlen bs.
  Proof using HS.
    induction bs as [|b bs IH]; [reflexivity|]. cbn [map concat]. rewrite zlen_app, IH, zlen_cons, bh_len. lia.
  Qed.

  Lemma byteWrite_app done old rest p : zlen old = zlen p -> 0 < zlen p ->
    byteWrite (done ++ old ++ rest) (zlen done) p = Some (done ++ p ++ rest, zlen done + zlen p).
  Proof.
    intros L P. unfold byteWrite. rewrite !zlen_app. pose proof (zlen_nonneg rest).
    destruct (Z.leb_spec (zlen done + (zlen old + zlen rest)) (zlen done)); [lia|].
    destruct (Z.ltb_spec (zlen done + (zlen old + zlen rest) - zlen done) (zlen p)); [lia|].
    rewrite takeZ_app by reflexivity. do 4 f_equal. rewrite app_assoc. apply dropZ_app. rewrite zlen_app. lia.
  Qed.

  Lemma take_app_drop (n : Z) (l : bytes) : 0 <= n <= zlen l -> exists a b, l = a ++ b /\ zlen a = n.
  Proof. intro. exists (takeZ n l), (dropZ n l). rewrite take_drop, zlen_takeZ. split; [reflexivity | lia]. Qed.

  Lemma digestDataLoop_spec src c : represents src c -> forall full fuel off done old rest tail,
    0 <= off <= zlen c -> dropZ off c = concat full ++ tail -> Forall is_block full -> zlen tail < 4096 ->
    (length full < fuel)%nat -> zlen old = 32 * zlen full ->
    digestDataLoop E fuel (zeros 8) src off (done ++ old ++ rest, zlen done) =
    Some (off + 4096 * zlen full, (done ++ concat (map bh full) ++ rest, zlen done + 32 * zlen full)).
  Proof using HS.
    intro R. induction full as [|b full IH]; intros fuel off done old rest tail O D F T Fu L.
    - destruct fuel as [|fuel]; [cbn in Fu; lia|]. cbn [digestDataLoop]. rewrite (rp_length _ _ R).
      assert (Lt : zlen (dropZ off c) = zlen tail) by (rewrite D; reflexivity). rewrite zlen_dropZ in Lt.
      unfold verityChunkSize. destruct (Z.leb_spec (off + 4096) (zlen c)); [lia|].
      assert (old = []) by (destruct old; [reflexivity | unfold zlen in L; cbn in L; lia]). subst old.
      cbn [map concat app]. change (zlen []) with 0. do 2 f_equal; [|f_equal]; lia.
    - destruct fuel as [|fuel]; [cbn in Fu; lia|]. cbn [digestDataLoop]. rewrite (rp_length _ _ R).
      inversion F as [|? ? Fb F']; subst. cbn [concat] in D. rewrite <- app_assoc in D. unfold is_block in Fb.
      rewrite zlen_cons in L. pose proof (zlen_nonneg full). pose proof (zlen_nonneg tail).
      assert (Lt : zlen (dropZ off c) = 4096 + 4096 * zlen full + zlen tail).
      { rewrite D, !zlen_app, (concat_block_len full F'), Fb. lia. }
      rewrite zlen_dropZ in Lt. unfold verityChunkSize. destruct (Z.leb_spec (off + 4096) (zlen c)); [|lia].
      rewrite (rp_read _ _ R) by lia.
      assert (Sl : slice c off (off + 4096) = b).
      { unfold slice. replace (off + 4096 - off) with 4096 by lia. rewrite D. now apply takeZ_app. }
      rewrite Sl. unfold saltedDigest. fold (bh b). cbn [fst snd].
      destruct (take_app_drop 32 old) as (o1 & o2 & -> & L1); [lia|].
      rewrite <- app_assoc. rewrite zlen_app in L.
      rewrite byteWrite_app by (rewrite bh_len; lia).
      replace (zlen done + zlen (bh b)) with (zlen (done ++ bh b)) by (now rewrite zlen_app).
      rewrite (app_assoc done (bh b)).
      rewrite (IH fuel (off + 4096) (done ++ bh b) o2 rest tail); [|lia| |assumption|assumption| cbn in Fu; lia | lia].
      + f_equal. rewrite zlen_cons. cbn [map concat]. rewrite zlen_app, bh_len, <- !app_assoc. f_equal; [lia | f_equal; lia].
      + replace (off + 4096) with (4096 + off) by lia. rewrite <- dropZ_dropZ by lia. rewrite D. now apply dropZ_app.
  Qed.

  (** the padded blocks of a content *)
  Definition padded (c : bytes) (blocks : list bytes) : Prop :=
    exists p, 0 <= p < 4096 /\ c ++ zeros p = concat blocks /\ Forall is_block blocks.

  Lemma padded_exists c : exists blocks, padded c blocks.
  Proof.
    destruct (split_blocks c) as (full & tail & -> & F & L). pose proof (zlen_nonneg tail).
    destruct tail as [|b t].
    - exists full, 0. split; [lia|]. rewrite (zeros_nil 0) by lia. now rewrite !app_nil_r.
    - set (tail := b :: t) in *. assert (1 <= zlen tail) by (unfold tail, zlen; cbn; lia).
      exists (full ++ [tail ++ zeros (4096 - zlen tail)]), (4096 - zlen tail). split; [lia|].
      rewrite concat_app. cbn [concat]. rewrite app_nil_r, app_assoc. split; [reflexivity|].
      apply Forall_app. split; [assumption|]. constructor; [|constructor]. unfold is_block. rewrite zlen_app, zeros_len; lia.
  Qed.

  Lemma ceil_mul a b p : 0 < b -> 0 <= p < b -> a = b * (a / b) + a mod b -> (exists q, a + p = b * q) -> (a + b - 1) / b = (a + p) / b.
  Proof.
    intros B P _ (q & Q). rewrite Q. rewrite (Z.mul_comm b q), Z.div_mul by lia.
    replace (a + b - 1) with (q * b + (b - 1 - p)) by lia. rewrite Z.div_add_l by lia.
    rewrite Z.div_small by lia. lia.
  Qed.

  Lemma padded_count c blocks : padded c blocks -> zlen blocks = divideRoundup (zlen c) 4096.
  Proof.
    intros (p & P & Ec & F). apply (f_equal zlen) in Ec. rewrite zlen_app, zeros_len, (concat_block_len _ F) in Ec by lia.
    unfold divideRoundup. replace (zlen c + 4096 - 1) with (zlen blocks * 4096 + (4095 - p)) by lia.
    rewrite Z.div_add_l by lia. rewrite (Z.div_small (4095 - p)) by lia. lia.
  Qed.

  (** The blocks in terms of full blocks and tail. *)
  Lemma padded_split full tail blocks : Forall is_block full -> zlen tail < 4096 -> padded (concat full ++ tail) blocks ->
    (tail = [] /\ blocks = full) \/ (tail <> [] /\ blocks = full ++ [tail ++ zeros (4096 - zlen tail)]).
  Proof.
    intros F T (p & P & Ec & Fb). revert blocks Ec Fb. induction F as [|b full Hb F IH]; intros blocks Ec Fb.
    - cbn [concat app] in *. pose proof (f_equal zlen Ec) as L. rewrite zlen_app, zeros_len, (concat_block_len _ Fb) in L by lia.
      pose proof (zlen_nonneg tail). destruct tail as [|x t].
      + left. split; [reflexivity|]. destruct blocks as [|b blocks]; [reflexivity|]. exfalso.
        rewrite zlen_cons in L. pose proof (zlen_nonneg blocks). change (zlen []) with 0 in L. lia.
      + right. split; [discriminate|]. set (tail := x :: t) in *.
        assert (1 <= zlen tail) by (unfold tail, zlen; cbn; lia).
        destruct blocks as [|b [|b' blocks]].
        * change (zlen []) with 0 in L. lia.
        * cbn [concat] in Ec. rewrite app_nil_r in Ec. change (zlen [b]) with 1 in L. replace (4096 - zlen tail) with p by lia. congruence.
        * rewrite !zlen_cons in L. pose proof (zlen_nonneg blocks). lia.
    - destruct blocks as [|b' blocks].
      + exfalso. pose proof (f_equal zlen Ec) as L. cbn [concat] in L. rewrite !zlen_app, Hb in L. change (zlen []) with 0 in L.
        pose proof (zlen_nonneg (concat full)). pose proof (zlen_nonneg tail). pose proof (zlen_nonneg (zeros p)). lia.
      + inversion Fb as [|? ? Hb' Fb']; subst. cbn [concat] in Ec. rewrite <- !app_assoc in Ec.
        apply app_take_eq in Ec as [-> Ec]; [|unfold is_block in *; congruence]. rewrite app_assoc in Ec.
        destruct (IH blocks Ec Fb') as [[-> ->]|[N ->]]; [left | right]; split; auto.
  Qed.

  Lemma digestData_spec src c blocks old rest : represents src c -> padded c blocks ->
    zlen old = 32 * zlen blocks ->
    digestDataByChunks E (zeros 8) src (old ++ rest, 0) = Some (concat (map bh blocks) ++ rest, 32 * zlen blocks).
  Proof using HS.
    intros R Pd L. unfold digestDataByChunks. rewrite (rp_length _ _ R).
    destruct (split_blocks c) as (full & tail & Ec & F & T). pose proof (zlen_nonneg tail) as NT. pose proof (zlen_nonneg full).
    assert (Lc : zlen c = zlen full * 4096 + zlen tail) by (rewrite Ec, zlen_app, (concat_block_len _ F); lia).
    unfold verityChunkSize. rewrite Lc. rewrite Z.div_add_l by lia. rewrite (Z.div_small (zlen tail)) by lia.
    rewrite (Z.add_comm (zlen full * 4096)), Z.mod_add by lia. rewrite (Z.mod_small (zlen tail)) by lia.
    subst c. destruct (padded_split full tail blocks F T Pd) as [[-> ->]|[N ->]].
    - change (old ++ rest) with (@nil byte ++ old ++ rest). change 0 with (zlen (@nil byte)) at 2.
      rewrite (digestDataLoop_spec src _ R full _ 0 [] old rest []); try assumption.
      2:{ pose proof (zlen_nonneg (concat full ++ [])). lia. }
      2:{ now rewrite dropZ_0 by lia. }
      2:{ unfold zlen. lia. }
      change (zlen []) with 0. cbn [app]. destruct (Z.ltb_spec 0 0); [lia|]. reflexivity.
    - assert (1 <= zlen tail) by (destruct tail; [contradiction | rewrite zlen_cons; pose proof (zlen_nonneg tail); lia]).
      rewrite zlen_app in L. change (zlen [tail ++ zeros (4096 - zlen tail)]) with 1 in L.
      destruct (take_app_drop (32 * zlen full) old) as (o1 & o2 & -> & L1); [lia|]. rewrite zlen_app in L.
      rewrite <- app_assoc. change (o1 ++ o2 ++ rest) with ([] ++ o1 ++ o2 ++ rest). change 0 with (zlen (@nil byte)) at 2.
      rewrite (digestDataLoop_spec src _ R full _ 0 [] o1 (o2 ++ rest) tail); try assumption.
      2:{ pose proof (zlen_nonneg (concat full ++ tail)). lia. }
      2:{ now rewrite dropZ_0 by lia. }
      2:{ unfold zlen. lia. }
      change (zlen []) with 0. rewrite !Z.add_0_l. cbn [app].
      destruct (Z.ltb_spec 0 (zlen tail)); [|lia].
      rewrite (rp_read _ _ R) by (rewrite ?zlen_app, ?(concat_block_len _ F); lia).
      assert (Sl : slice (concat full ++ tail) (4096 * zlen full) (4096 * zlen full + zlen tail) = tail).
      { unfold slice. rewrite dropZ_app by (now rewrite (concat_block_len _ F)). apply takeZ_all. lia. }
      rewrite Sl. unfold saltedDigest. fold (bh (tail ++ zeros (4096 - zlen tail))). cbn [fst snd].
      rewrite <- (concat_bh_len full) at 1.
      rewrite byteWrite_app by (rewrite bh_len; lia).
      rewrite map_app, concat_app. cbn [map concat]. rewrite app_nil_r, <- app_assoc. rewrite bh_len, concat_bh_len.
      rewrite zlen_app. change (zlen [tail ++ zeros (4096 - zlen tail)]) with 1. do 2 f_equal. lia.
  Qed.

  (** size of a level *)
  Definition levelLen (n : Z) : Z := 4096 * divideRoundup (divideRoundup n 4096 * 32) 4096.

  Lemma roundup_eq n : exists q, 0 <= q < 4096 /\ 4096 * divideRoundup n 4096 = n + q /\ q = (if n mod 4096 =? 0 then 0 else 4096 - n mod 4096).
  Proof.
    unfold divideRoundup. pose proof (Z.div_mod n 4096 ltac:(lia)) as D. pose proof (Z.mod_pos_bound n 4096 ltac:(lia)) as M.
    destruct (Z.eqb_spec (n mod 4096) 0) as [Z0|Z0].
    - exists 0. split; [lia|]. split; [|reflexivity]. replace (n + 4096 - 1) with (n / 4096 * 4096 + 4095) by lia.
      rewrite Z.div_add_l by lia. rewrite (Z.div_small 4095) by lia. lia.
    - exists (4096 - n mod 4096). split; [lia|]. split; [|reflexivity].
      replace (n + 4096 - 1) with ((n / 4096 + 1) * 4096 + (n mod 4096 - 1)) by lia.
      rewrite Z.div_add_l by lia. rewrite (Z.div_small (n mod 4096 - 1)) by lia. lia.
  Qed.

  (** verityLevel writes the next level in its window. *)
  Lemma verityLevel_spec src c pre win post : represents src c -> 0 < zlen c -> zlen win = levelLen (zlen c) ->
    exists l, verity_level H c l /\ zlen l = levelLen (zlen c) /\
      verityLevel E (zeros 8) src (pre ++ win ++ post) (zlen pre) (zlen pre + zlen win) = Ret (Some (pre ++ l ++ post)).
  Proof using HS.
    intros R P W. destruct (padded_exists c) as (blocks & Pd). pose proof (padded_count _ _ Pd) as Cnt.
    unfold levelLen in *. rewrite <- Cnt in *.
    assert (Pb : 0 < zlen blocks).
    { destruct Pd as (p & Hp & Ec & F). apply (f_equal zlen) in Ec. rewrite zlen_app, zeros_len, (concat_block_len _ F) in Ec by lia. lia. }
    destruct (roundup_eq (zlen blocks * 32)) as (q & Q & Eq & Hq). rewrite Eq in *.
    exists (concat (map bh blocks) ++ zeros q).
    assert (Ll : zlen (concat (map bh blocks) ++ zeros q) = zlen blocks * 32 + q) by (rewrite zlen_app, concat_bh_len, zeros_len; lia).
    split.
    { destruct Pd as (p & Hp & Ec & F). exists p, blocks, q. repeat split; try assumption; try lia.
      rewrite Ll, <- Eq. rewrite Z.mul_comm. apply Z.mod_mul. lia. }
    split; [assumption|].
    unfold verityLevel. rewrite !zlen_app. pose proof (zlen_nonneg pre). pose proof (zlen_nonneg post).
    destruct (Z.ltb_spec (zlen pre) 0); [lia|]. destruct (Z.ltb_spec (zlen pre + zlen win) (zlen pre)); [lia|].
    destruct (Z.ltb_spec (zlen pre + (zlen win + zlen post)) (zlen pre + zlen win)); [lia|]. cbn [orb].
    assert (Sl : slice (pre ++ win ++ post) (zlen pre) (zlen pre + zlen win) = win).
    { unfold slice. rewrite dropZ_app by reflexivity. apply takeZ_app. lia. }
    rewrite Sl. destruct (take_app_drop (zlen blocks * 32) win) as (o1 & o2 & Ew & L1); [lia|].
    assert (L2 : zlen o2 = q) by (rewrite Ew, zlen_app in W; lia).
    rewrite Ew at 1. rewrite (digestData_spec src c blocks o1 o2 R Pd) by lia.
    rewrite (rp_length _ _ R). unfold verityChunkSize. rewrite <- Cnt. change (hash_size HSha256) with 32. cbn [fst snd].
    replace (dropZ (zlen pre + zlen win) (pre ++ win ++ post)) with post.
    2:{ symmetry. rewrite app_assoc. apply dropZ_app. now rewrite zlen_app. }
    rewrite takeZ_app by reflexivity.
    destruct (Z.eqb_spec ((zlen blocks * 32) mod 4096) 0) as [Z0|Z0].
    - rewrite Z0. cbn [Z.ltb Z.compare]. assert (o2 = []) by (destruct o2; [reflexivity | rewrite zlen_cons in L2; pose proof (zlen_nonneg o2); lia]).
      subst o2. rewrite (zeros_nil q) by lia. reflexivity.
    - pose proof (Z.mod_pos_bound (zlen blocks * 32) 4096 ltac:(lia)).
      destruct (Z.ltb_spec 0 ((zlen blocks * 32) mod 4096)); [|lia].
      rewrite <- Hq. replace (32 * zlen blocks) with (zlen (concat (map bh blocks))) by apply concat_bh_len.
      rewrite <- (app_nil_r o2). rewrite byteWrite_app by (rewrite zeros_len; lia). now rewrite app_nil_r.
  Qed.

  (** The whole tree, bottom level first. *)
  Inductive tree : bytes -> list bytes -> Prop :=
  | tree_top c l : verity_level H c l -> zlen l = 4096 -> tree c [l]
  | tree_up c l ls : verity_level H c l -> 4096 < zlen l -> tree l ls -> tree c (l :: ls).

  Lemma tree_root c ls : tree c ls -> verity_root H c (bh (last ls [])).
  Proof.
    induction 1 as [c l L Z|c l ls L Z T IH].
    - now constructor.
    - eapply vroot_up; [eassumption | assumption|]. destruct T; exact IH.
  Qed.

  Lemma roundup_pos n : 0 < n -> 0 < divideRoundup n 4096.
  Proof. intro. destruct (roundup_eq n) as (q & Q & Eq & _). lia. Qed.

  Lemma levelSizes_pos fuel : forall n, 0 < n -> Forall (fun z => 0 < z) (levelSizes fuel n 32).
  Proof.
    induction fuel as [|fuel IH]; intros n P; cbn [levelSizes]; [constructor|]. unfold verityChunkSize.
    pose proof (roundup_pos n P). pose proof (roundup_pos (divideRoundup n 4096 * 32) ltac:(lia)).
    destruct (_ <=? _); repeat constructor; try lia. apply IH. lia.
  Qed.

  Lemma sumZ_nonneg l : Forall (fun z => 0 < z) l -> 0 <= sumZ l.
  Proof. induction 1; [cbn; lia|]. rewrite sumZ_cons. lia. Qed.

  (** suffix sums *)
  Fixpoint sufs (sizes : list Z) : list Z :=
    match sizes with [] => [0] | s :: t => (s + sumZ t) :: sufs t end.

  Lemma sufs_head sizes : exists r, sufs sizes = sumZ sizes :: r.
  Proof. destruct sizes as [|s t]; cbn [sufs]; [exists []; reflexivity|]. exists (sufs t). now rewrite sumZ_cons. Qed.

  Lemma roundup_idem n : divideRoundup (4096 * divideRoundup n 4096) 4096 = divideRoundup n 4096.
  Proof.
    unfold divideRoundup at 1. replace (4096 * divideRoundup n 4096 + 4096 - 1) with (divideRoundup n 4096 * 4096 + 4095) by lia.
    rewrite Z.div_add_l by lia. rewrite (Z.div_small 4095) by lia. lia.
  Qed.

  Lemma verityLevels_cons contents hi lo t next buffer :
    verityLevels E (zeros 8) contents (hi :: lo :: t) next buffer =
      (b <- verityLevel E (zeros 8) match next with Some h2 => dataSourceBytes (slice buffer hi h2) | None => contents end buffer lo hi ;;
       match b with None => Ret None | Some buffer' => verityLevels E (zeros 8) contents (lo :: t) (Some hi) buffer' end).
  Proof. reflexivity. Qed.

  (** The level-by-level loop: [buffer] = room for the levels still to compute, then what is done *)
  Lemma verityLevels_spec contents : forall sizes c next pre_done buffer src,
    buffer = zeros (sumZ sizes) ++ pre_done ->
    src = match next with None => contents | Some h2 => dataSourceBytes (slice buffer (sumZ sizes) h2) end ->
    represents src c -> 0 < zlen c ->
    (exists fuel n, sizes = levelSizes fuel n 32 /\ divideRoundup n 4096 = divideRoundup (zlen c) 4096 /\
       (Z.to_nat n < fuel)%nat /\ 0 < n) ->
    exists ls, tree c ls /\ map zlen ls = sizes /\
      verityLevels E (zeros 8) contents (sufs sizes) next buffer = Ret (Some (concat (rev ls) ++ pre_done)).
  Proof using HS.
    induction sizes as [|s sizes IH]; intros c next pd buffer src Hb Hsrc R P (fuel & n & Hs & Hn & Hf & Pn).
    - exfalso. destruct fuel as [|fuel]; [lia|]. cbn [levelSizes] in Hs. destruct (_ <=? _) in Hs; discriminate.
    - destruct fuel as [|fuel]; [lia|]. pose proof (levelSizes_pos (S fuel) n Pn) as Pos. rewrite <- Hs in Pos.
      inversion Pos as [|? ? Ps Pss]; subst x l. pose proof (sumZ_nonneg _ Pss) as NN.
      cbn [levelSizes] in Hs. unfold verityChunkSize in Hs. rewrite Hn in Hs.
      assert (Es : s = levelLen (zlen c)) by (unfold levelLen; destruct (_ <=? _) in Hs; inversion Hs; reflexivity).
      rewrite sumZ_cons in *. rewrite Z.add_comm, zeros_split, <- app_assoc in Hb by lia.
      destruct (verityLevel_spec src c (zeros (sumZ sizes)) (zeros s) pd R P) as (l & VL & Ll & Ev).
      { rewrite zeros_len by lia. assumption. }
      rewrite !zeros_len in Ev by lia.
      cbn [sufs]. destruct (sufs_head sizes) as (rs & Er). rewrite Er.
      rewrite verityLevels_cons. rewrite <- Er.
      replace (match next with Some h2 => dataSourceBytes (slice buffer (s + sumZ sizes) h2) | None => contents end) with src
        by (rewrite Hsrc; reflexivity).
      rewrite <- Hb in Ev. rewrite (Z.add_comm s), Ev. cbn [obind].
      set (buffer' := zeros (sumZ sizes) ++ l ++ pd).
      assert (Lpos : 0 < zlen l) by lia.
      destruct (Z.leb_spec (divideRoundup (zlen c) 4096 * 32) 4096) as [Top|Up].
      + inversion Hs; subst sizes. exists [l].
        assert (L4 : levelLen (zlen c) = 4096).
        { unfold levelLen. pose proof (roundup_pos (zlen c) P). destruct (roundup_eq (divideRoundup (zlen c) 4096 * 32)) as (q & Q & Eq & _).
          pose proof (roundup_pos (divideRoundup (zlen c) 4096 * 32) ltac:(lia)). lia. }
        split; [constructor; [assumption | lia]|]. split; [cbn; congruence|].
        cbn [sufs verityLevels rev concat app]. unfold buffer'. cbn [sumZ fold_left]. rewrite (zeros_nil 0) by lia.
        now rewrite app_nil_r.
      + assert (Hs2 : sizes = levelSizes fuel (divideRoundup (zlen c) 4096 * 32) 32) by (injection Hs; intros; assumption). clear Hs.
        destruct (IH l (Some (sumZ sizes + s)) (l ++ pd) buffer' (dataSourceBytes l)) as (ls & T & M & V).
        * reflexivity.
        * unfold buffer'. f_equal. unfold slice. rewrite dropZ_app by (rewrite zeros_len; lia). symmetry. apply takeZ_app. lia.
        * apply represents_bytes.
        * assumption.
        * exists fuel, (divideRoundup (zlen c) 4096 * 32). split; [assumption|].
          split. { rewrite Ll. unfold levelLen. now rewrite roundup_idem. }
          split; [|lia]. destruct (roundup_eq n) as (q & Q & Eq & _). rewrite Hn in Eq. lia.
        * exists (l :: ls). split.
          { constructor; [assumption | | assumption]. rewrite Ll. unfold levelLen.
            destruct (roundup_eq (divideRoundup (zlen c) 4096 * 32)) as (q & Q & Eq & _). lia. }
          split; [cbn; congruence|]. rewrite V. cbn [rev]. rewrite concat_app. cbn [concat]. now rewrite app_nil_r, <- app_assoc.
  Qed.

  (** offsets *)
  Fixpoint psums (l : list Z) (acc : Z) : list Z :=
    match l with [] => [] | s :: t => (acc + s) :: psums t (acc + s) end.

  Lemma levelOffsets_psums l : forall acc, Forall (fun z => 0 < z) l -> 0 <= acc -> acc + sumZ l <= max_int32 ->
    levelOffsets l acc = Some (psums l acc).
  Proof.
    unfold max_int32. induction l as [|s t IH]; intros acc F A L; [reflexivity|]. inversion F; subst.
    rewrite sumZ_cons in L. pose proof (sumZ_nonneg t ltac:(assumption)). cbn [levelOffsets psums]. unfold min_int32, max_int32.
    destruct (Z.ltb_spec s (-2147483648)); [lia|]. destruct (Z.ltb_spec 2147483647 s); [lia|]. cbn [orb].
    rewrite wrap32_id by (unfold min_int32, max_int32; lia). rewrite IH by (assumption || lia). reflexivity.
  Qed.

  Lemma psums_app a : forall b acc, psums (a ++ b) acc = psums a acc ++ psums b (acc + sumZ a).
  Proof.
    induction a as [|x a IH]; intros b acc; cbn [app psums]; [f_equal; cbn; lia|].
    rewrite IH, sumZ_cons. cbn [app]. do 3 f_equal. lia.
  Qed.
  Lemma sumZ_app a b : sumZ (a ++ b) = sumZ a + sumZ b.
  Proof. induction a as [|x a IH]; [reflexivity|]. cbn [app]. rewrite !sumZ_cons, IH. lia. Qed.
  Lemma sumZ_rev a : sumZ (rev a) = sumZ a.
  Proof. induction a as [|x a IH]; [reflexivity|]. cbn [rev]. rewrite sumZ_app, !sumZ_cons, IH. change (sumZ []) with 0. lia. Qed.

  Lemma rev_psums sizes : rev (0 :: psums (rev sizes) 0) = sufs sizes.
  Proof.
    induction sizes as [|s t IH]; [reflexivity|]. cbn [rev sufs]. rewrite psums_app. cbn [psums].
    change (0 :: psums (rev t) 0 ++ [0 + sumZ (rev t) + s]) with ((0 :: psums (rev t) 0) ++ [0 + sumZ (rev t) + s]).
    cbn [rev] in IH. rewrite rev_app_distr. cbn [rev app]. rewrite IH. f_equal. rewrite sumZ_rev. lia.
  Qed.

  Lemma last_rev_hd (l : list Z) d : last l d = hd d (rev l).
  Proof.
    destruct l as [|x l] using rev_ind; [reflexivity|]. rewrite last_last, rev_app_distr. reflexivity.
  Qed.

  Lemma levelSizes_sum fuel : forall n, 0 < n -> sumZ (levelSizes fuel n 32) <= n / 32 + 8192.
  Proof.
    induction fuel as [|fuel IH]; intros n P; cbn [levelSizes].
    - pose proof (Z.div_pos n 32). cbn. lia.
    - unfold verityChunkSize. destruct (roundup_eq n) as (q & Q & Eq & _).
      set (n' := divideRoundup n 4096 * 32) in *. pose proof (roundup_pos n P).
      destruct (roundup_eq n') as (q' & Q' & Eq' & _). pose proof (Z.div_pos n 32 ltac:(lia) ltac:(lia)).
      destruct (Z.leb_spec n' 4096).
      + rewrite sumZ_cons. change (sumZ []) with 0. lia.
      + rewrite sumZ_cons. pose proof (IH n' ltac:(lia)) as I.
        pose proof (Z.div_mod n 32 ltac:(lia)). pose proof (Z.mod_pos_bound n 32 ltac:(lia)).
        pose proof (Z.div_mod n' 32 ltac:(lia)). pose proof (Z.mod_pos_bound n' 32 ltac:(lia)). lia.
  Qed.

  Theorem generateTreeRootHash_spec contents c : represents contents c -> 0 < zlen c < 34359738368 ->
    exists root, generateTreeRootHash E (zeros 8) contents = Ret (Some root) /\ verity_root H c root /\ zlen root = 32.
  Proof using HS.
    intros R [P U]. unfold generateTreeRootHash, calculateLevelOffset. rewrite (rp_length _ _ R).
    change (hash_size HSha256) with 32. set (fuel := Z.to_nat (zlen c + 1)).
    set (sizes := levelSizes fuel (zlen c) 32).
    pose proof (levelSizes_pos fuel (zlen c) P) as Pos. fold sizes in Pos.
    pose proof (levelSizes_sum fuel (zlen c) P) as Sum. fold sizes in Sum.
    assert (zlen c / 32 < 1073741824) by (apply Z.div_lt_upper_bound; lia).
    rewrite levelOffsets_psums; [|now apply Forall_rev | lia | rewrite sumZ_rev; unfold max_int32; lia].
    rewrite rev_psums. rewrite last_rev_hd, rev_psums. destruct (sufs_head sizes) as (rs & Er). rewrite Er. cbn [hd]. rewrite <- Er.
    pose proof (sumZ_nonneg _ Pos). destruct (Z.ltb_spec (sumZ sizes) 0); [lia|].
    destruct (verityLevels_spec contents sizes c None [] (zeros (sumZ sizes)) contents) as (ls & T & M & V).
    { now rewrite app_nil_r. } { reflexivity. } { assumption. } { assumption. }
    { exists fuel, (zlen c). repeat split; try assumption. unfold fuel. lia. }
    rewrite V. cbn [obind]. rewrite app_nil_r.
    assert (Top : exists l ls', rev ls = l :: ls' /\ zlen l = 4096 /\ last ls [] = l).
    { clear - T. induction T as [c l L Z|c l ls L Z T IH].
      - exists l, []. auto.
      - destruct IH as (t & ls' & Er & Lt & La). exists t, (ls' ++ [l]). cbn [rev]. rewrite Er. split; [reflexivity|]. split; [assumption|].
        destruct T; exact La. }
    destruct Top as (l & ls' & Erl & L4 & La). rewrite Erl. cbn [concat].
    unfold verityChunkSize. rewrite zlen_app. pose proof (zlen_nonneg (concat ls')).
    destruct (Z.ltb_spec (zlen l + zlen (concat ls')) 4096); [lia|].
    rewrite takeZ_app by congruence. exists (bh l). split; [reflexivity|]. split; [|apply bh_len].
    rewrite <- La. now apply tree_root.
  Qed.

  Theorem computeVerity_spec dss sections : Forall2 represents dss sections -> sections <> [] ->
    0 < zlen (concat sections) < 34359738368 ->
    (zlen (hd [] sections) mod 4096 = 0 ->
      exists d, computeVerityContentDigest E dss = Ret (Some d) /\ verity_digest H sections d) /\
    (zlen (hd [] sections) mod 4096 <> 0 -> computeVerityContentDigest E dss = Ret None).
  Proof using HS.
    intros F N B. pose proof (represents_chained _ _ F) as RC. pose proof (rp_length _ _ RC) as Lc.
    inversion F as [|d0 c0 dss' sections' R0 F']; subst; [contradiction|].
    unfold computeVerityContentDigest. cbn [hd]. rewrite (rp_length _ _ R0). unfold verityChunkSize. split; intro M.
    - rewrite M. cbn [Z.eqb negb].
      destruct (generateTreeRootHash_spec (dataSourceChained (d0 :: dss')) (concat (c0 :: sections')) RC B) as (root & -> & VR & L32).
      cbn [obind]. change (32 + 8) with 40.
      assert (Cp : copyAt (zeros 40) 0 root = Ret (root ++ zeros 8)).
      { change (zeros 40) with ([] ++ zeros 32 ++ zeros 8). change 0 with (zlen (@nil byte)).
        rewrite copyAt_app by (rewrite zeros_len; lia). reflexivity. }
      rewrite Cp. cbn [obind]. rewrite takeZ_app by lia. rewrite Lc.
      eexists. split; [reflexivity|]. exists root. split; [assumption | reflexivity].
    - destruct (Z.eqb_spec (zlen c0 mod 4096) 0); [contradiction|]. reflexivity.
  Qed.
End WithEnv.
