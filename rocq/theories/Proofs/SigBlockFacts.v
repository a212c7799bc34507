(** Lemmas about Model/SigBlock.v *)
From Coq Require Import Lia.
From Verif.Model Require Import Bytes ApiLevel SigBlock.
From Verif.Spec Require Import Encoding ApkLayout.
From Verif.Proofs Require Import BytesFacts.

Lemma le_at_app n pre x post pos :
  zlen pre = pos -> length x = n -> le_at n (pre ++ x ++ post) pos = le_dec x.
Proof.
  intros <- <-. unfold le_at. rewrite dropZ_app by reflexivity.
  rewrite firstn_app, Nat.sub_diag, firstn_all. simpl. now rewrite app_nil_r.
Qed.

Lemma le_at_drop n b off p : 0 <= p -> 0 <= off -> le_at n (dropZ off b) p = le_at n b (p + off).
Proof. intros. unfold le_at. now rewrite dropZ_dropZ. Qed.

Lemma le_at_range n b pos : 0 <= le_at n b pos < 256 ^ Z.of_nat n.
Proof.
  unfold le_at. pose proof (le_dec_range (firstn n (dropZ pos b))) as [A B]. split; [assumption|].
  eapply Z.lt_le_trans; [eassumption|]. apply Z.pow_le_mono_r; [lia|].
  unfold zlen. rewrite firstn_length. lia.
Qed.

Lemma le_enc_at n b pos : 0 <= pos -> pos + Z.of_nat n <= zlen b ->
  le_enc n (le_at n b pos) = firstn n (dropZ pos b).
Proof.
  intros. unfold le_at.
  assert (L : length (firstn n (dropZ pos b)) = n).
  { rewrite firstn_length. pose proof (zlen_dropZ pos b) as Z. unfold zlen in *. lia. }
  rewrite <- L at 1. apply le_enc_dec.
Qed.

Lemma firstn_as_take {A} (n : nat) (l : list A) : firstn n l = takeZ (Z.of_nat n) l.
Proof. rewrite takeZ_firstn. now rewrite Nat2Z.id. Qed.

(** cut b at consecutive positions *)
Lemma drop_split {A} (b : list A) (a n : Z) : 0 <= a -> 0 <= n -> dropZ a b = takeZ n (dropZ a b) ++ dropZ (n + a) b.
Proof. intros. rewrite <- dropZ_dropZ by assumption. symmetry. apply take_drop. Qed.

Lemma eocd_at_fields file off sz cd rec :
  eocd_at file off sz cd rec ->
  0 <= off /\ off + 22 <= zlen file /\
  le_at 4 file off = eocdRecMagic /\
  le_at 2 file (off + 20) = zlen file - off - 22 /\
  le_at 4 file (off + 12) = sz /\ le_at 4 file (off + 16) = cd /\
  rec = dropZ off file /\ zlen file - off - 22 <= 65535.
Proof.
  intros (pre & mid & comment & -> & <- & -> & Lm & Lc & Hs & Hc).
  unfold is_uint32, le32 in *.
  pose proof (zlen_nonneg pre). pose proof (zlen_nonneg comment).
  rewrite !zlen_app, !le_enc_zlen, Lm.
  split; [lia|]. split; [lia|].
  assert (D4 : forall z, 0 <= z < 4294967296 -> le_dec (le_enc 4 z) = z).
  { intros. rewrite le_dec_enc. apply Z.mod_small. simpl. lia. }
  split; [rewrite (le_at_app 4) by (reflexivity || apply le_enc_length); reflexivity|].
  split.
  { rewrite (app_assoc pre), (app_assoc _ mid), (app_assoc _ (le_enc 4 sz)), (app_assoc _ (le_enc 4 cd)).
    rewrite (le_at_app 2).
    - rewrite le_dec_enc, Z.mod_small by (simpl; lia). lia.
    - rewrite !zlen_app, !le_enc_zlen, Lm. lia.
    - apply le_enc_length. }
  split.
  { rewrite (app_assoc pre), (app_assoc _ mid).
    rewrite (le_at_app 4).
    - apply D4; lia.
    - rewrite !zlen_app, !le_enc_zlen, Lm. lia.
    - apply le_enc_length. }
  split.
  { rewrite (app_assoc pre), (app_assoc _ mid), (app_assoc _ (le_enc 4 sz)).
    rewrite (le_at_app 4).
    - apply D4; lia.
    - rewrite !zlen_app, !le_enc_zlen, Lm. lia.
    - apply le_enc_length. }
  split; [now rewrite dropZ_app by reflexivity | lia].
Qed.

Lemma eocd_at_intro file off :
  0 <= off -> off + 22 <= zlen file -> le_at 4 file off = eocdRecMagic ->
  le_at 2 file (off + 20) = zlen file - off - 22 ->
  eocd_at file off (le_at 4 file (off + 12)) (le_at 4 file (off + 16)) (dropZ off file).
Proof.
  intros H0 H1 M C.
  exists (takeZ off file), (takeZ 8 (dropZ (4 + off) file)), (dropZ (22 + off) file).
  split; [now rewrite take_drop|].
  split; [rewrite zlen_takeZ; lia|].
  assert (Lc : zlen (dropZ (22 + off) file) = zlen file - off - 22) by (rewrite zlen_dropZ; lia).
  split.
  { rewrite Lc, <- C. unfold le32. change 101010256 with eocdRecMagic. rewrite <- M.
    rewrite !le_enc_at by lia. rewrite !firstn_as_take.
    rewrite (drop_split file off 4) at 1 by lia. f_equal.
    rewrite (drop_split file (4 + off) 8) at 1 by lia. f_equal.
    replace (8 + (4 + off)) with (off + 12) by lia.
    rewrite (drop_split file (off + 12) 4) at 1 by lia. f_equal.
    replace (4 + (off + 12)) with (off + 16) by lia.
    rewrite (drop_split file (off + 16) 4) at 1 by lia. f_equal.
    replace (4 + (off + 16)) with (off + 20) by lia.
    rewrite (drop_split file (off + 20) 2) at 1 by lia. f_equal.
    f_equal. lia. }
  split; [rewrite zlen_takeZ, zlen_dropZ; lia|].
  split.
  { rewrite Lc, <- C. pose proof (le_at_range 2 file (off + 20)) as R. simpl in R. lia. }
  unfold is_uint32. pose proof (le_at_range 4 file (off + 12)) as R1. pose proof (le_at_range 4 file (off + 16)) as R2.
  simpl in R1, R2. lia.
Qed.

(** The loop on a suffix of the file is the loop on the file. *)
Lemma eocdLoop_suffix fuel : forall file bo c,
  0 <= bo -> bo <= zlen file -> 0 <= c -> c + Z.of_nat fuel <= zlen file - bo - 22 + 1 ->
  eocdLoop fuel (dropZ bo file) bo c = eocdLoop fuel file 0 c.
Proof.
  induction fuel as [|fuel IH]; intros file bo c H0 H1 H2 H3; [reflexivity|].
  cbn [eocdLoop]. unfold eocdRecMinSize, eocdCommentSizeOffset, eocdCentralDirOffsetOffset, eocdCentralDirSizeOffset.
  assert (L : zlen (dropZ bo file) = zlen file - bo) by (rewrite zlen_dropZ; lia).
  rewrite !L. set (pos := zlen file - bo - 22 - c).
  assert (P : 0 <= pos) by (unfold pos; lia).
  rewrite !le_at_drop by lia.
  replace (zlen file - 22 - c) with (pos + bo) by (unfold pos; lia).
  replace (pos + 20 + bo) with (pos + bo + 20) by lia.
  replace (pos + 16 + bo) with (pos + bo + 16) by lia.
  replace (pos + 12 + bo) with (pos + bo + 12) by lia.
  replace (bo + pos) with (pos + bo) by lia. rewrite dropZ_dropZ by lia.
  rewrite Z.add_0_l. rewrite IH by lia. reflexivity.
Qed.

Lemma findEocdMax_loop file m :
  22 <= zlen file -> 0 <= m <= maxUint16 ->
  findEocdMaxCommentSize file m = eocdLoop (Z.to_nat (Z.min m (zlen file - 22) + 1)) file 0 0.
Proof.
  intros L M. unfold findEocdMaxCommentSize, eocdRecMinSize, maxUint16 in *.
  set (m1 := if zlen file - 22 <? m then zlen file - 22 else m).
  assert (Hm1 : m1 = Z.min m (zlen file - 22)) by (unfold m1; destruct (Z.ltb_spec (zlen file - 22) m); lia).
  clearbody m1. subst m1. set (m1 := Z.min m (zlen file - 22)).
  assert (R : read_at file (zlen file - (22 + m1)) (22 + m1) = Some (dropZ (zlen file - (22 + m1)) file)).
  { apply read_at_some. repeat split; try (unfold m1; lia).
    symmetry. apply takeZ_all. rewrite zlen_dropZ. unfold m1; lia. }
  rewrite R. assert (Lb : zlen (dropZ (zlen file - (22 + m1)) file) = 22 + m1) by (rewrite zlen_dropZ; unfold m1; lia).
  rewrite Lb. replace (22 + m1 - 22) with m1 by lia.
  replace (65535 <? m1) with false by (symmetry; apply Z.ltb_ge; unfold m1; lia).
  apply eocdLoop_suffix; unfold m1; lia.
Qed.

Lemma eocdLoop_prefix a : forall b file c i, eocdLoop a file 0 c = EocdFound i -> (a <= b)%nat -> eocdLoop b file 0 c = EocdFound i.
Proof.
  induction a as [|a IH]; intros b file c i H L; [discriminate|].
  destruct b as [|b]; [lia|]. cbn [eocdLoop] in *.
  destruct ((le_at 4 file (zlen file - eocdRecMinSize - c) =? eocdRecMagic) &&
            (le_at 2 file (zlen file - eocdRecMinSize - c + eocdCommentSizeOffset) =? c)); [assumption|].
  apply IH; [assumption | lia].
Qed.

Definition eocd_scan (file : bytes) : eocd_result :=
  eocdLoop (Z.to_nat (Z.min maxUint16 (zlen file - 22) + 1)) file 0 0.

Lemma findEocd_scan file : 22 <= zlen file -> findEocd file = eocd_scan file.
Proof.
  intro L. unfold findEocd, eocdRecMinSize. destruct (Z.ltb_spec (zlen file) 22); [lia|].
  rewrite !findEocdMax_loop by (unfold maxUint16; lia). fold (eocd_scan file).
  destruct (eocdLoop (Z.to_nat (Z.min 0 (zlen file - 22) + 1)) file 0 0) eqn:H0; try reflexivity.
  symmetry. unfold eocd_scan. eapply eocdLoop_prefix; [eassumption|]. unfold maxUint16. lia.
Qed.

(** Characterisation of the scan: everything before the deciding comment size is not a record. *)
Definition cand (file : bytes) (c : Z) : Prop :=
  le_at 4 file (zlen file - 22 - c) = eocdRecMagic /\ le_at 2 file (zlen file - 22 - c + 20) = c.

Lemma eocdLoop_spec fuel : forall file c, 0 <= c -> c + Z.of_nat fuel <= zlen file - 22 + 1 ->
  (eocdLoop fuel file 0 c = EocdNotFound /\ forall c', c <= c' < c + Z.of_nat fuel -> ~ cand file c')
  \/ exists c', c <= c' < c + Z.of_nat fuel /\ cand file c' /\ (forall c'', c <= c'' < c' -> ~ cand file c'') /\
     let off := zlen file - 22 - c' in
     let cd := le_at 4 file (off + 16) in
     let sz := le_at 4 file (off + 12) in
     eocdLoop fuel file 0 c =
       (if off <=? cd then EocdCdOutOfRange
        else if negb (cd + sz =? off) then EocdCdNotAdjacent
        else EocdFound {| ei_eocdOffset := off; ei_centralDirOffset := cd; ei_centralDirSize := sz;
                          ei_eocd := dropZ off file |}).
Proof.
  induction fuel as [|fuel IH]; intros file c H0 H1.
  - left. split; [reflexivity | intros; lia].
  - cbn [eocdLoop]. unfold eocdRecMinSize, eocdCommentSizeOffset, eocdCentralDirOffsetOffset, eocdCentralDirSizeOffset.
    destruct (Z.eqb_spec (le_at 4 file (zlen file - 22 - c)) eocdRecMagic) as [A|A];
      [destruct (Z.eqb_spec (le_at 2 file (zlen file - 22 - c + 20)) c) as [B|B]|]; cbn [andb].
    + right. exists c. split; [lia|]. split; [now split|]. split; [intros; lia|].
      cbn zeta. rewrite Z.add_0_l. reflexivity.
    + destruct (IH file (c + 1)) as [[E N]|(c' & R & C & N & E)]; [lia | lia | |].
      * left. split; [assumption|]. intros c' Hc'. destruct (Z.eq_dec c' c) as [->|]; [intros [_ K]; contradiction|].
        apply N. lia.
      * right. exists c'. split; [lia|]. split; [assumption|]. split; [|assumption].
        intros c'' Hc''. destruct (Z.eq_dec c'' c) as [->|]; [intros [_ K]; contradiction|]. apply N. lia.
    + destruct (IH file (c + 1)) as [[E N]|(c' & R & C & N & E)]; [lia | lia | |].
      * left. split; [assumption|]. intros c' Hc'. destruct (Z.eq_dec c' c) as [->|]; [intros [K _]; contradiction|].
        apply N. lia.
      * right. exists c'. split; [lia|]. split; [assumption|]. split; [|assumption].
        intros c'' Hc''. destruct (Z.eq_dec c'' c) as [->|]; [intros [K _]; contradiction|]. apply N. lia.
Qed.

Lemma cand_eocd file off s cd r : eocd_at file off s cd r ->
  let c := zlen file - 22 - off in 0 <= c <= Z.min maxUint16 (zlen file - 22) /\ cand file c.
Proof.
  intro H. apply eocd_at_fields in H as (H0 & H1 & M & C & _ & _ & _ & B).
  cbn zeta. unfold maxUint16. split; [lia|].
  unfold cand. replace (zlen file - 22 - (zlen file - 22 - off)) with off by lia.
  split; [assumption | rewrite C; lia].
Qed.

Theorem findEocd_iff file off sz cd rec :
  findEocd file = EocdFound {| ei_eocdOffset := off; ei_centralDirOffset := cd; ei_centralDirSize := sz; ei_eocd := rec |}
  <-> good_eocd file off sz cd rec /\ last_eocd file off.
Proof.
  destruct (Z.lt_ge_cases (zlen file) 22) as [S|S].
  { unfold findEocd, eocdRecMinSize. destruct (Z.ltb_spec (zlen file) 22); [|lia].
    split; [discriminate|]. intros [[G _] _]. apply eocd_at_fields in G. lia. }
  rewrite findEocd_scan by assumption. unfold eocd_scan.
  set (fuel := Z.to_nat (Z.min maxUint16 (zlen file - 22) + 1)).
  assert (Hf : Z.of_nat fuel = Z.min maxUint16 (zlen file - 22) + 1) by (unfold fuel, maxUint16; lia).
  clearbody fuel.
  destruct (eocdLoop_spec fuel file 0) as [[E N]|(c & R & C & N & E)]; [lia | lia | |].
  - rewrite E. split; [discriminate|]. intros [[G _] _]. exfalso.
    apply cand_eocd in G as [R C]. eapply N; [|exact C]. lia.
  - cbn zeta in E. rewrite E. set (o := zlen file - 22 - c) in *.
    assert (Ho : 0 <= o /\ o + 22 <= zlen file) by (unfold o, maxUint16 in *; lia).
    assert (G : eocd_at file o (le_at 4 file (o + 12)) (le_at 4 file (o + 16)) (dropZ o file)).
    { destruct C as [C1 C2]. fold o in C1, C2. apply eocd_at_intro; lia || assumption || (rewrite C2; unfold o; lia). }
    assert (Last : last_eocd file o).
    { intros off' s' c' r' H'. apply cand_eocd in H' as [R' C']. cbn zeta in *.
      destruct (Z.le_gt_cases off' o); [assumption|]. exfalso.
      apply (N (zlen file - 22 - off')); [unfold o in *; lia | assumption]. }
    assert (Uniq : forall s' c' r', eocd_at file off s' c' r' -> last_eocd file off -> off = o).
    { intros s' c' r' H' L'. apply L' in G. apply Last in H'. lia. }
    split.
    + destruct (Z.leb_spec o (le_at 4 file (o + 16))); [discriminate|].
      destruct (Z.eqb_spec (le_at 4 file (o + 16) + le_at 4 file (o + 12)) o); [|discriminate].
      cbn [negb]. intro H'. injection H'; intros; subst.
      split; [|assumption]. split; [assumption|]. split; lia.
    + intros [[G' [A B]] L']. assert (Eo : off = o) by (eapply Uniq; eassumption). rewrite Eo in *.
      apply eocd_at_fields in G' as (_ & _ & _ & _ & F1 & F2 & F3 & _).
      rewrite F1, F2. destruct (Z.leb_spec o cd); [lia|].
      replace (cd + sz =? o) with true by (symmetry; apply Z.eqb_eq; lia). cbn [negb].
      now rewrite F3.
Qed.

(** findApkSigningBlock *)
Lemma magic_bytes : apk_sig_block_magic = le_enc 8 apkSigBlockMagicLo ++ le_enc 8 apkSigBlockMagicHi.
Proof. reflexivity. Qed.

Lemma signing_block_len pairs : zlen (signing_block pairs) = zlen pairs + 32.
Proof.
  unfold signing_block, le64. rewrite !zlen_app, !le_enc_zlen.
  change (zlen apk_sig_block_magic) with 16. lia.
Qed.

Lemma le_dec_enc_id n z : 0 <= z < 256 ^ Z.of_nat n -> le_dec (le_enc n z) = z.
Proof. intro. rewrite le_dec_enc. now apply Z.mod_small. Qed.

Theorem findApkSigningBlock_iff file cdOff block off :
  findApkSigningBlock file cdOff = SigBlockFound block off <->
  exists pairs, block = signing_block pairs /\ block_before file cdOff off pairs.
Proof.
  split.
  - unfold findApkSigningBlock, apkSigBlockMinSize.
    destruct (Z.ltb_spec cdOff 32); [discriminate|].
    destruct (read_at file (cdOff - 24) 24) as [footer|] eqn:RF; [|discriminate].
    destruct (Z.eqb_spec (le_at 8 footer 8) apkSigBlockMagicLo) as [M1|]; [|discriminate].
    destruct (Z.eqb_spec (le_at 8 footer 16) apkSigBlockMagicHi) as [M2|]; [|discriminate].
    cbn [negb orb]. set (sz := le_at 8 footer 0) in *.
    destruct (Z.ltb_spec sz 24); [discriminate|].
    destruct (Z.ltb_spec (max_int32 - 8) sz); [discriminate|]. cbn [orb].
    destruct (Z.ltb_spec (sz + 8) 32); [discriminate|].
    destruct (Z.ltb_spec (cdOff - (sz + 8)) 0); [discriminate|].
    destruct (read_at file (cdOff - (sz + 8)) (sz + 8)) as [b|] eqn:RB; [|discriminate].
    destruct (Z.eqb_spec (le_at 8 b 0) sz) as [Hs|]; [|discriminate].
    cbn [negb]. intro H'. inversion H'; subst; clear H'.
    apply read_at_split in RB as (pre & post & Efile & Lpre & Lb).
    apply read_at_some in RF as (_ & _ & Rf & Efoot).
    assert (Lf : zlen footer = 24) by (rewrite Efoot, zlen_takeZ, zlen_dropZ; lia).
    (* the footer is the end of the block *)
    assert (Ff : footer = dropZ (sz - 16) block).
    { rewrite Efoot, Efile. replace (cdOff - 24) with ((sz - 16) + zlen pre) by lia.
      rewrite <- dropZ_dropZ by (pose proof (zlen_nonneg pre); lia). rewrite dropZ_app by reflexivity.
      rewrite <- (take_drop (sz - 16) block) at 1. rewrite <- app_assoc.
      rewrite dropZ_app by (rewrite zlen_takeZ; lia). apply takeZ_app. rewrite zlen_dropZ. lia. }
    exists (takeZ (sz - 24) (dropZ 8 block)).
    assert (Lp : zlen (takeZ (sz - 24) (dropZ 8 block)) = sz - 24) by (rewrite zlen_takeZ, zlen_dropZ; lia).
    assert (EB : block = signing_block (takeZ (sz - 24) (dropZ 8 block))).
    { unfold signing_block, le64. rewrite Lp. replace (sz - 24 + 24) with sz by lia.
      rewrite magic_bytes, <- M1, <- M2.
      replace (le_enc 8 sz) with (takeZ 8 block) at 1.
      2:{ rewrite <- Hs. rewrite le_enc_at by lia. rewrite dropZ_0 by lia. now rewrite firstn_as_take. }
      replace (le_enc 8 sz) with (takeZ 8 footer).
      2:{ unfold sz. rewrite le_enc_at by lia. rewrite dropZ_0 by lia. now rewrite firstn_as_take. }
      rewrite !le_enc_at by lia. rewrite !firstn_as_take.
      rewrite <- (take_drop 8 block) at 1. f_equal.
      rewrite (drop_split block 8 (sz - 24)) at 1 by lia. f_equal.
      replace (sz - 24 + 8) with (sz - 16) by lia. rewrite <- Ff.
      rewrite <- (take_drop 8 footer) at 1. f_equal.
      rewrite (drop_split footer 8 8) at 1 by lia. f_equal.
      symmetry. apply takeZ_all. rewrite zlen_dropZ. lia. }
    split; [assumption|].
    exists pre, post. split; [congruence|]. split; [lia|].
    rewrite signing_block_len, Lp. split; [lia|]. unfold max_int32 in *. lia.
  - intros (pairs & -> & pre & post & -> & <- & Hcd & Hsz).
    pose proof (zlen_nonneg pairs) as NP. pose proof (zlen_nonneg pre) as Npre.
    rewrite signing_block_len in Hcd.
    unfold findApkSigningBlock, apkSigBlockMinSize.
    destruct (Z.ltb_spec cdOff 32); [lia|].
    set (sz := zlen pairs + 24) in *.
    assert (RF : read_at (pre ++ signing_block pairs ++ post) (cdOff - 24) 24 = Some (le64 sz ++ apk_sig_block_magic)).
    { apply read_at_split. exists (pre ++ le64 sz ++ pairs), post.
      split; [unfold signing_block; fold sz; now rewrite <- !app_assoc|].
      unfold le64. rewrite !zlen_app, !le_enc_zlen. change (zlen apk_sig_block_magic) with 16. unfold sz in *. lia. }
    rewrite RF. rewrite magic_bytes.
    assert (A1 : le_at 8 (le64 sz ++ le_enc 8 apkSigBlockMagicLo ++ le_enc 8 apkSigBlockMagicHi) 8 = apkSigBlockMagicLo).
    { rewrite le_at_app by (unfold le64; now rewrite ?le_enc_zlen, ?le_enc_length). reflexivity. }
    assert (A2 : le_at 8 (le64 sz ++ le_enc 8 apkSigBlockMagicLo ++ le_enc 8 apkSigBlockMagicHi) 16 = apkSigBlockMagicHi).
    { rewrite app_assoc. rewrite <- (app_nil_r (le_enc 8 apkSigBlockMagicHi)).
      rewrite le_at_app by (unfold le64; rewrite ?zlen_app, ?le_enc_zlen, ?le_enc_length; reflexivity). reflexivity. }
    assert (A3 : le_at 8 (le64 sz ++ le_enc 8 apkSigBlockMagicLo ++ le_enc 8 apkSigBlockMagicHi) 0 = sz).
    { change (le64 sz ++ le_enc 8 apkSigBlockMagicLo ++ le_enc 8 apkSigBlockMagicHi) with ([] ++ le_enc 8 sz ++ (le_enc 8 apkSigBlockMagicLo ++ le_enc 8 apkSigBlockMagicHi)).
      rewrite le_at_app by (apply le_enc_length || reflexivity). apply le_dec_enc_id. simpl. lia. }
    rewrite A1, A2, A3, !Z.eqb_refl. cbn [negb orb].
    destruct (Z.ltb_spec sz 24); [lia|]. destruct (Z.ltb_spec (max_int32 - 8) sz); [unfold max_int32 in *; lia|].
    cbn [orb]. destruct (Z.ltb_spec (sz + 8) 32); [lia|].
    destruct (Z.ltb_spec (cdOff - (sz + 8)) 0); [lia|].
    assert (RB : read_at (pre ++ signing_block pairs ++ post) (cdOff - (sz + 8)) (sz + 8) = Some (signing_block pairs)).
    { apply read_at_split. exists pre, post. rewrite signing_block_len. unfold sz. repeat split; lia. }
    rewrite RB.
    assert (A4 : le_at 8 (signing_block pairs) 0 = sz).
    { unfold signing_block. fold sz.
      change (le64 sz ++ pairs ++ le64 sz ++ apk_sig_block_magic) with ([] ++ le_enc 8 sz ++ (pairs ++ le64 sz ++ apk_sig_block_magic)).
      rewrite le_at_app by (apply le_enc_length || reflexivity). apply le_dec_enc_id. simpl. lia. }
    rewrite A4, Z.eqb_refl. cbn [negb]. f_equal. lia.
Qed.

Lemma signing_block_pairs pairs : slice (signing_block pairs) 8 (zlen (signing_block pairs) - 24) = pairs.
Proof.
  unfold slice. rewrite signing_block_len. replace (zlen pairs + 32 - 24 - 8) with (zlen pairs) by lia.
  unfold signing_block. rewrite dropZ_app by (unfold le64; now rewrite le_enc_zlen).
  apply takeZ_app. reflexivity.
Qed.

(** nextEntry *)
Lemma nextEntry_enc e rest : entry_fits e ->
  nextEntry (enc_entry e ++ rest) =
  Entry (fst e) (snd e) (match snd e ++ rest with [] => true | _ => false end) rest.
Proof.
  destruct e as [id p]. unfold entry_fits, is_uint32. cbn [fst snd]. intros [Hi Hp].
  unfold nextEntry, enc_entry, le64, le32. cbn [fst snd].
  pose proof (zlen_nonneg p). pose proof (zlen_nonneg rest).
  rewrite !zlen_app, !le_enc_zlen. destruct (Z.ltb_spec (Z.of_nat 8 + (Z.of_nat 4 + zlen p) + zlen rest) 8); [lia|].
  rewrite <- !app_assoc. rewrite read_i64_enc_id by lia.
  destruct (Z.ltb_spec (4 + zlen p) 4); [lia|].
  destruct (Z.ltb_spec max_int32 (4 + zlen p)); [unfold max_int32 in *; lia|]. cbn [orb].
  rewrite !zlen_app, le_enc_zlen. destruct (Z.ltb_spec (Z.of_nat 4 + (zlen p + zlen rest)) (4 + zlen p)); [lia|].
  rewrite read_u32_enc by lia. replace (4 + zlen p - 4) with (zlen p) by lia.
  rewrite takeZ_app, dropZ_app by reflexivity. reflexivity.
Qed.

Lemma nextEntry_inv pairs id p eof rest :
  nextEntry pairs = Entry id p eof rest ->
  pairs = enc_entry (id, p) ++ rest /\ entry_fits (id, p) /\
  eof = match p ++ rest with [] => true | _ => false end.
Proof.
  unfold nextEntry. destruct (Z.ltb_spec (zlen pairs) 8); [discriminate|].
  destruct (read_i64 pairs) as [[len r]|] eqn:R; [|discriminate].
  apply read_i64_inv in R.
  destruct (Z.ltb_spec len 4); [discriminate|].
  destruct (Z.ltb_spec max_int32 len); [discriminate|]. cbn [orb].
  destruct (Z.ltb_spec (zlen r) len); [discriminate|].
  destruct (read_u32 r) as [[i r']|] eqn:R2; [|discriminate].
  apply read_u32_inv in R2 as [-> Hi]. intro E; inversion E; subst; clear E.
  rewrite zlen_app, le_enc_zlen in *.
  assert (L : zlen (takeZ (len - 4) r') = len - 4) by (rewrite zlen_takeZ; lia).
  split; [|split].
  - unfold enc_entry, le64, le32. cbn [fst snd]. rewrite L. replace (4 + (len - 4)) with len by lia.
    rewrite <- !app_assoc, take_drop. reflexivity.
  - unfold entry_fits, is_uint32. cbn [fst snd]. rewrite L. unfold max_int32 in *. lia.
  - now rewrite take_drop.
Qed.
