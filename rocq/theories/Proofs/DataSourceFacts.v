(** Lemmas about Model/DataSource.v *)
From Coq Require Import Lia.
From Verif.Model Require Import Bytes SigBlock DataSource.
From Verif.Proofs Require Import BytesFacts.

(** [ds] is a source of exactly [content]. *)
Record represents (ds : dataSource) (content : bytes) : Prop := {
  rp_length : ds_length ds = zlen content;
  rp_chunks : ds_chunkCount ds = (zlen content + 1048575) / 1048576;
  rp_read : forall off n, 0 <= off -> 0 < n -> off + n <= zlen content ->
            ds_write ds off n = Some (slice content off (off + n));
  rp_oob : forall off n, 0 <= off -> 0 <= n -> zlen content < off + n -> ds_write ds off n = None
}.

Lemma slice_len {A} (b : list A) i j : 0 <= i <= j -> j <= zlen b -> zlen (slice b i j) = j - i.
Proof. intros. unfold slice. rewrite zlen_takeZ, zlen_dropZ. lia. Qed.

Lemma slice_slice {A} (b : list A) s e i j : 0 <= s -> 0 <= i <= j -> j <= e - s -> e <= zlen b ->
  slice (slice b s e) i j = slice b (s + i) (s + j).
Proof.
  intros. unfold slice. rewrite !takeZ_firstn, !dropZ_skipn.
  rewrite skipn_firstn_comm, firstn_firstn, skipn_skipn'. f_equal; [|f_equal]; lia.
Qed.

Lemma slice_app_l {A} (a b : list A) i j : 0 <= i <= j -> j <= zlen a -> slice (a ++ b) i j = slice a i j.
Proof.
  intros. unfold slice. rewrite !takeZ_firstn, !dropZ_skipn. unfold zlen in *.
  rewrite skipn_app, firstn_app, skipn_length.
  replace (Z.to_nat (j - i) - (length a - Z.to_nat i))%nat with 0%nat by lia. now rewrite app_nil_r.
Qed.
Lemma slice_app_r {A} (a b : list A) i j : zlen a <= i -> i <= j -> slice (a ++ b) i j = slice b (i - zlen a) (j - zlen a).
Proof.
  intros. unfold slice, zlen in *. rewrite !takeZ_firstn, !dropZ_skipn.
  rewrite skipn_app, skipn_all2 by lia. cbn [app].
  f_equal; [|f_equal]; lia.
Qed.
Lemma slice_split {A} (b : list A) i m j : 0 <= i <= m -> m <= j -> slice b i j = slice b i m ++ slice b m j.
Proof.
  intros. unfold slice. replace (j - i) with ((m - i) + (j - m)) by lia. rewrite takeZ_add by lia.
  rewrite dropZ_dropZ by lia. do 2 f_equal. f_equal. lia.
Qed.
Lemma slice_all {A} (b : list A) : slice b 0 (zlen b) = b.
Proof. unfold slice. rewrite dropZ_0, takeZ_all by lia. reflexivity. Qed.
Lemma slice_drop {A} (b : list A) i : 0 <= i <= zlen b -> slice b i (zlen b) = dropZ i b.
Proof. intros. unfold slice. apply takeZ_all. rewrite zlen_dropZ. lia. Qed.

Lemma represents_apk file s e : 0 <= s <= e -> e <= zlen file ->
  represents (dataSourceApk file s e) (slice file s e).
Proof.
  intros H1 H2. pose proof (slice_len file s e H1 H2) as L. constructor; cbn.
  - lia.
  - rewrite L. unfold maxChunkSize. f_equal. lia.
  - intros off n O N B. rewrite L in B. pose proof L.
    destruct (Z.ltb_spec e off); [lia|]. destruct (Z.ltb_spec (e - s) off); [lia|].
    destruct (Z.ltb_spec (e - s) n); [lia|]. destruct (Z.ltb_spec (e - s) (off + n)); [lia|]. cbn.
    apply read_at_some. repeat split; try lia.
    rewrite slice_slice by lia. unfold slice. f_equal. lia.
  - intros off n O N B. rewrite L in B.
    destruct (Z.ltb_spec e off); [reflexivity|]. destruct (Z.ltb_spec (e - s) off); [reflexivity|].
    destruct (Z.ltb_spec (e - s) n); [reflexivity|]. destruct (Z.ltb_spec (e - s) (off + n)); [reflexivity|lia].
Qed.

Lemma represents_bytes data : represents (dataSourceBytes data) data.
Proof.
  constructor; cbn.
  - reflexivity.
  - unfold maxChunkSize. f_equal. lia.
  - intros off n O N B. destruct (Z.leb_spec (zlen data) off); [lia|].
    destruct (Z.ltb_spec (zlen data) n); [lia|]. destruct (Z.ltb_spec (zlen data) (off + n)); [lia|]. reflexivity.
  - intros off n O N B. destruct (Z.leb_spec (zlen data) off); [reflexivity|].
    destruct (Z.ltb_spec (zlen data) n); [reflexivity|]. destruct (Z.ltb_spec (zlen data) (off + n)); [reflexivity|lia].
Qed.

Lemma sumZ_acc l : forall a, fold_left Z.add l a = a + sumZ l.
Proof.
  unfold sumZ. induction l as [|x l IH]; intro a; cbn [fold_left]; [lia|]. rewrite IH, (IH (0 + x)). lia.
Qed.
Lemma sumZ_cons x l : sumZ (x :: l) = x + sumZ l.
Proof. unfold sumZ at 1. cbn [fold_left]. rewrite sumZ_acc. lia. Qed.

Lemma represents_sum dss cs : Forall2 represents dss cs -> sumZ (map ds_length dss) = zlen (concat cs).
Proof.
  induction 1 as [|d c dss cs H _ IH]; [reflexivity|]. cbn [map concat]. rewrite sumZ_cons, IH, zlen_app, (rp_length _ _ H). reflexivity.
Qed.

Lemma chainedWrite_spec dss cs : Forall2 represents dss cs -> forall off n, 0 <= off -> 0 < n -> off + n <= zlen (concat cs) ->
  chainedWrite dss off n = Some (slice (concat cs) off (off + n)).
Proof.
  induction 1 as [|d c dss cs H F IH]; intros off n O N B; cbn [concat chainedWrite].
  - cbn in B. unfold zlen in B. cbn in B. lia.
  - rewrite (rp_length _ _ H). cbn [concat] in B. rewrite zlen_app in B.
    destruct (Z.leb_spec (zlen c) off).
    + rewrite IH by lia. rewrite slice_app_r by lia. do 2 f_equal. lia.
    + destruct (Z.leb_spec n (zlen c - off)).
      * rewrite (rp_read _ _ H) by lia. rewrite slice_app_l by lia. reflexivity.
      * rewrite (rp_read _ _ H) by lia. rewrite IH by lia. f_equal.
        rewrite (slice_split (c ++ concat cs) off (zlen c)) by lia. pose proof (zlen_nonneg c). rewrite (slice_app_l c _ off (zlen c)) by lia. rewrite (slice_app_r c) by lia.
        f_equal; f_equal; lia.
Qed.

Lemma represents_chained dss cs : Forall2 represents dss cs -> represents (dataSourceChained dss) (concat cs).
Proof.
  intro F. pose proof (represents_sum _ _ F) as S. constructor; cbn.
  - assumption.
  - rewrite S. unfold maxChunkSize. f_equal. lia.
  - intros off n O N B. rewrite S. destruct (Z.leb_spec (zlen (concat cs)) off); [lia|].
    destruct (Z.ltb_spec (zlen (concat cs)) n); [lia|]. destruct (Z.ltb_spec (zlen (concat cs)) (off + n)); [lia|].
    cbn. now apply chainedWrite_spec.
  - intros off n O N B. rewrite S. destruct (Z.leb_spec (zlen (concat cs)) off); [reflexivity|].
    destruct (Z.ltb_spec (zlen (concat cs)) n); [reflexivity|]. destruct (Z.ltb_spec (zlen (concat cs)) (off + n)); [reflexivity|lia].
Qed.

From Verif.Spec Require Import Sources.
Scheme source_of_mind := Minimality for source_of Sort Prop
  with sources_of_mind := Minimality for sources_of Sort Prop.

Lemma source_represents : forall d c, source_of d c -> represents d c.
Proof.
  apply (source_of_mind (fun d c => represents d c) (fun ds cs => Forall2 represents ds cs)).
  - intros pre content post. pose proof (zlen_nonneg pre). pose proof (zlen_nonneg content). pose proof (zlen_nonneg post).
    replace content with (slice (pre ++ content ++ post) (zlen pre) (zlen pre + zlen content)) at 3.
    + apply represents_apk; [lia|]. rewrite !zlen_app. lia.
    + unfold slice. rewrite dropZ_app by reflexivity. apply takeZ_app. lia.
  - apply represents_bytes.
  - intros dss cs _ F. now apply represents_chained.
  - constructor.
  - intros. now constructor.
Qed.
Lemma sources_represent ds cs : sources_of ds cs -> Forall2 represents ds cs.
Proof. induction 1; constructor; [now apply source_represents | assumption]. Qed.

Theorem source_reads d content : source_of d content ->
  ds_length d = zlen content /\
  (forall pre out post, content = pre ++ out ++ post -> out <> [] -> ds_write d (zlen pre) (zlen out) = Some out) /\
  (forall off n, 0 <= off -> 0 <= n -> zlen content < off + n -> ds_write d off n = None).
Proof.
  intro S. apply source_represents in S. split; [apply (rp_length _ _ S)|]. split.
  - intros pre out post -> N. pose proof (zlen_nonneg pre). pose proof (zlen_nonneg post).
    assert (0 < zlen out) by (destruct out; [contradiction | rewrite zlen_cons; pose proof (zlen_nonneg out); lia]).
    rewrite (rp_read _ _ S) by (rewrite ?zlen_app; lia). f_equal. unfold slice. rewrite dropZ_app by reflexivity. apply takeZ_app. lia.
  - apply (rp_oob _ _ S).
Qed.
