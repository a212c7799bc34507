(** Frosting *)
From Coq Require Import String.
From Coq Require Import Lia.
From Verif.Model Require Import Bytes Env ApiLevel SigBlock Result Frosting Verify.
From Verif.Spec Require Import Encoding ApkLayout Digests Entries Frosting.
From Verif.Proofs Require Import BytesFacts UtilsFacts SigBlockFacts.

Lemma lor_shift a b n : 0 <= n -> 0 <= a < 2 ^ n -> Z.lor a (Z.shiftl b n) = a + 2 ^ n * b.
Proof.
  intros Hn Ha. assert (L : Z.land a (Z.shiftl b n) = 0).
  { apply Z.bits_inj'. intros i Hi. rewrite Z.land_spec, Z.bits_0. destruct (Z.ltb_spec i n).
    - now rewrite Z.shiftl_spec_low, Bool.andb_false_r.
    - rewrite <- (Z.mod_small a (2 ^ n)) by lia. now rewrite Z.mod_pow2_bits_high by lia. }
  rewrite <- (Z.mul_comm b), <- Z.shiftl_mul_pow2 by assumption.
  rewrite Z.add_nocarry_lxor by assumption. now rewrite Z.lxor_lor.
Qed.

Lemma lor7 a b : 0 <= a < 128 -> Z.lor a (Z.shiftl b 7) = a + 128 * b.
Proof. exact (lor_shift a b 7 ltac:(lia)). Qed.
Lemma lor14 a b : 0 <= a < 16384 -> Z.lor a (Z.shiftl b 14) = a + 16384 * b.
Proof. exact (lor_shift a b 14 ltac:(lia)). Qed.
Lemma lor21 a b : 0 <= a < 2097152 -> Z.lor a (Z.shiftl b 21) = a + 2097152 * b.
Proof. exact (lor_shift a b 21 ltac:(lia)). Qed.
Lemma lor28 a b : 0 <= a < 268435456 -> Z.lor a (Z.shiftl b 28) = a + 268435456 * b.
Proof. exact (lor_shift a b 28 ltac:(lia)). Qed.

Lemma dropZ_cons_nth {A} (l : list A) n : 0 <= n ->
  dropZ n l = match nth_error l (Z.to_nat n) with Some x => x :: dropZ (n + 1) l | None => [] end.
Proof.
  intro Hn. rewrite !dropZ_skipn. replace (Z.to_nat (n + 1)) with (S (Z.to_nat n)) by lia.
  generalize (Z.to_nat n). clear. intro n. revert l. induction n; intros [|x l]; cbn; try reflexivity. now rewrite IHn.
Qed.

Lemma readInt8_inv data pos v p : 0 <= pos -> readInt8 data pos = Some (v, p) ->
  exists b, dropZ pos data = b :: dropZ p data /\ p = pos + 1 /\ v = (if b2z b <? 128 then b2z b else b2z b - 256).
Proof.
  intros H. unfold readInt8. pose proof (dropZ_cons_nth data pos H) as D. destruct (nth_error data (Z.to_nat pos)) as [b|]; [|discriminate].
  destruct (Z.ltb_spec pos 0); [lia|]. intro Q. injection Q as Qv Qp. subst v p. exists b. auto.
Qed.
Lemma readInt8_cons data pos b r : 0 <= pos -> dropZ pos data = b :: r ->
  readInt8 data pos = Some ((if b2z b <? 128 then b2z b else b2z b - 256), pos + 1) /\ dropZ (pos + 1) data = r.
Proof.
  intros H D. rewrite dropZ_cons_nth in D by assumption. unfold readInt8. destruct (nth_error data (Z.to_nat pos)); [|discriminate].
  injection D as -> ->. destruct (Z.ltb_spec pos 0); [lia|]. auto.
Qed.

Lemma varint_range z bs : varint z bs -> 0 <= z < 128 ^ zlen bs /\ 0 < zlen bs.
Proof.
  induction 1 as [z H|low z bs H V [IH1 IH2]].
  - cbn. lia.
  - rewrite zlen_cons, Z.pow_add_r by lia. lia.
Qed.

Lemma varint_last' b : b2z b < 128 -> varint (b2z b) [b].
Proof. intro H. pose proof (b2z_range b). rewrite <- (z2b_b2z b) at 2. constructor. lia. Qed.
Lemma varint_more' b z bs : 128 <= b2z b -> varint z bs -> varint (b2z b - 128 + 128 * z) (b :: bs).
Proof.
  intros H V. pose proof (b2z_range b). rewrite <- (z2b_b2z b) at 2. replace (b2z b) with (b2z b - 128 + 128) at 2 by lia.
  constructor; [lia|assumption].
Qed.

Ltac byte_cases H b := destruct (Z.ltb_spec (b2z b) 128) as [H|H].

Ltac inv_some R := match type of R with Some (?a, ?b) = Some (?c, ?d) =>
  let H1 := fresh in let H2 := fresh in assert (H1 : c = a) by congruence; assert (H2 : d = b) by congruence; clear R; subst c d end.

Lemma readInt32_inv data pos v p : 0 <= pos -> readInt32 data pos = Some (v, p) ->
  exists bs, varint32 v bs /\ dropZ pos data = bs ++ dropZ p data /\ p = pos + zlen bs.
Proof.
  intros H0 R. unfold readInt32 in R.
  destruct (readInt8 data pos) as [[v0 p1]|] eqn:R0; [|discriminate]. apply readInt8_inv in R0 as (b0 & D0 & P1 & V0); [|assumption].
  pose proof (b2z_range b0). destruct (Z.leb_spec 0 v0) as [L0|L0].
  { inv_some R. exists [b0]. byte_cases B0 b0; [|lia]. subst v0. split; [|split; [assumption|cbn; lia]].
    exists (b2z b0). split; [now apply varint_last'|]. split; [cbn; lia|]. symmetry. apply wrap32_id. unfold min_int32, max_int32. lia. }
  byte_cases B0 b0; [lia|].
  destruct (readInt8 data p1) as [[v1 p2]|] eqn:R1; [|discriminate]. apply readInt8_inv in R1 as (b1 & D1 & P2 & V1); [|lia].
  pose proof (b2z_range b1). destruct (Z.leb_spec 0 v1) as [L1|L1].
  { inv_some R. exists [b0; b1]. byte_cases B1 b1; [|lia]. rewrite D0, D1. split; [|split; [reflexivity|cbn; lia]].
    exists (b2z b0 - 128 + 128 * b2z b1). split; [apply varint_more'; [lia|]; now apply varint_last'|]. split; [cbn; lia|].
    first [rewrite lor7 by lia | rewrite lor14 by lia | rewrite lor21 by lia]. rewrite wrap32_id by (unfold min_int32, max_int32; lia). lia. }
  byte_cases B1 b1; [lia|].
  destruct (readInt8 data p2) as [[v2 p3]|] eqn:R2; [|discriminate]. apply readInt8_inv in R2 as (b2 & D2 & P3 & V2); [|lia].
  rewrite lor7 in R by lia.
  pose proof (b2z_range b2). destruct (Z.leb_spec 0 v2) as [L2|L2].
  { inv_some R. exists [b0; b1; b2]. byte_cases B2 b2; [|lia]. rewrite D0, D1, D2. split; [|split; [reflexivity|cbn; lia]].
    exists (b2z b0 - 128 + 128 * (b2z b1 - 128 + 128 * b2z b2)). split; [repeat (apply varint_more'; [lia|]); now apply varint_last'|]. split; [cbn; lia|].
    first [rewrite lor7 by lia | rewrite lor14 by lia | rewrite lor21 by lia]. rewrite wrap32_id by (unfold min_int32, max_int32; lia). lia. }
  byte_cases B2 b2; [lia|].
  destruct (readInt8 data p3) as [[v3 p4]|] eqn:R3; [|discriminate]. apply readInt8_inv in R3 as (b3 & D3 & P4 & V3); [|lia].
  rewrite lor14 in R by lia.
  pose proof (b2z_range b3). destruct (Z.leb_spec 0 v3) as [L3|L3].
  { inv_some R. exists [b0; b1; b2; b3]. byte_cases B3 b3; [|lia]. rewrite D0, D1, D2, D3. split; [|split; [reflexivity|cbn; lia]].
    exists (b2z b0 - 128 + 128 * (b2z b1 - 128 + 128 * (b2z b2 - 128 + 128 * b2z b3))). split; [repeat (apply varint_more'; [lia|]); now apply varint_last'|]. split; [cbn; lia|].
    first [rewrite lor7 by lia | rewrite lor14 by lia | rewrite lor21 by lia]. rewrite wrap32_id by (unfold min_int32, max_int32; lia). lia. }
  byte_cases B3 b3; [lia|].
  destruct (readInt8 data p4) as [[v4 p5]|] eqn:R4; [|discriminate]. apply readInt8_inv in R4 as (b4 & D4 & P5 & V4); [|lia].
  rewrite lor21 in R by lia. rewrite lor28 in R by lia.
  pose proof (b2z_range b4). destruct (Z.ltb_spec v4 0) as [L4|L4]; [discriminate|].
  inv_some R. exists [b0; b1; b2; b3; b4]. byte_cases B4 b4; [|lia]. rewrite D0, D1, D2, D3, D4. split; [|split; [reflexivity|cbn; lia]].
  exists (b2z b0 - 128 + 128 * (b2z b1 - 128 + 128 * (b2z b2 - 128 + 128 * (b2z b3 - 128 + 128 * b2z b4)))).
  split; [repeat (apply varint_more'; [lia|]); now apply varint_last'|]. split; [cbn; lia|].
  f_equal. lia.
Qed.

Lemma varint_cons_inv z b bs : varint z (b :: bs) ->
  (b2z b < 128 /\ bs = [] /\ z = b2z b) \/ (128 <= b2z b /\ exists z', varint z' bs /\ z = b2z b - 128 + 128 * z').
Proof.
  intro V. inversion V as [z' H Q|low z' bs' H V' Q]; subst.
  - left. rewrite b2z_z2b, Z.mod_small by lia. split; [lia|auto].
  - right. rewrite b2z_z2b, Z.mod_small by lia. split; [lia|]. exists z'. split; [assumption|lia].
Qed.

Lemma readInt32_varint data pos z bs r : 0 <= pos -> varint z bs -> zlen bs <= 5 -> dropZ pos data = bs ++ r ->
  readInt32 data pos = Some (wrap32 z, pos + zlen bs).
Proof.
  intros H0 V L D. unfold readInt32.
  assert (H1 : 0 <= pos + 1) by lia. assert (H2 : 0 <= pos + 1 + 1) by lia. assert (H3 : 0 <= pos + 1 + 1 + 1) by lia. assert (H4 : 0 <= pos + 1 + 1 + 1 + 1) by lia.
  assert (Small : forall x, 0 <= x < 2147483648 -> wrap32 x = x) by (intros; apply wrap32_id; unfold min_int32, max_int32; lia).
  destruct bs as [|b0 bs]; [inversion V|]. pose proof (b2z_range b0). destruct (readInt8_cons _ _ _ _ H0 D) as [R0 D0]. rewrite R0.
  apply varint_cons_inv in V as [(B0 & -> & ->)|(B0 & z1 & V & ->)].
  { destruct (Z.ltb_spec (b2z b0) 128); [|lia]. destruct (Z.leb_spec 0 (b2z b0)); [|lia]. rewrite Small by lia. reflexivity. }
  destruct (Z.ltb_spec (b2z b0) 128); [lia|]. destruct (Z.leb_spec 0 (b2z b0 - 256)); [lia|].
  destruct bs as [|b1 bs]; [inversion V|]. pose proof (b2z_range b1). destruct (readInt8_cons _ _ _ _ H1 D0) as [R1 D1]. rewrite R1.
  apply varint_cons_inv in V as [(B1 & -> & ->)|(B1 & z2 & V & ->)].
  { destruct (Z.ltb_spec (b2z b1) 128); [|lia]. destruct (Z.leb_spec 0 (b2z b1)); [|lia]. first [rewrite lor7 by lia | rewrite lor14 by lia | rewrite lor21 by lia]. rewrite Small by lia. f_equal. f_equal; [lia|rewrite ?zlen_cons, zlen_nil; lia]. }
  destruct (Z.ltb_spec (b2z b1) 128); [lia|]. destruct (Z.leb_spec 0 (b2z b1 - 256)); [lia|]. rewrite lor7 by lia.
  destruct bs as [|b2 bs]; [inversion V|]. pose proof (b2z_range b2). destruct (readInt8_cons _ _ _ _ H2 D1) as [R2 D2]. rewrite R2.
  apply varint_cons_inv in V as [(B2 & -> & ->)|(B2 & z3 & V & ->)].
  { destruct (Z.ltb_spec (b2z b2) 128); [|lia]. destruct (Z.leb_spec 0 (b2z b2)); [|lia]. first [rewrite lor7 by lia | rewrite lor14 by lia | rewrite lor21 by lia]. rewrite Small by lia. f_equal. f_equal; [lia|rewrite ?zlen_cons, zlen_nil; lia]. }
  destruct (Z.ltb_spec (b2z b2) 128); [lia|]. destruct (Z.leb_spec 0 (b2z b2 - 256)); [lia|]. rewrite lor14 by lia.
  destruct bs as [|b3 bs]; [inversion V|]. pose proof (b2z_range b3). destruct (readInt8_cons _ _ _ _ H3 D2) as [R3 D3]. rewrite R3.
  apply varint_cons_inv in V as [(B3 & -> & ->)|(B3 & z4 & V & ->)].
  { destruct (Z.ltb_spec (b2z b3) 128); [|lia]. destruct (Z.leb_spec 0 (b2z b3)); [|lia]. first [rewrite lor7 by lia | rewrite lor14 by lia | rewrite lor21 by lia]. rewrite Small by lia. f_equal. f_equal; [lia|rewrite ?zlen_cons, zlen_nil; lia]. }
  destruct (Z.ltb_spec (b2z b3) 128); [lia|]. destruct (Z.leb_spec 0 (b2z b3 - 256)); [lia|]. rewrite lor21 by lia.
  destruct bs as [|b4 bs]; [inversion V|]. pose proof (b2z_range b4). destruct (readInt8_cons _ _ _ _ H4 D3) as [R4 D4]. rewrite R4.
  rewrite lor28 by lia.
  apply varint_cons_inv in V as [(B4 & -> & ->)|(B4 & z5 & V & ->)].
  { destruct (Z.ltb_spec (b2z b4) 128); [|lia]. destruct (Z.ltb_spec (b2z b4) 0); [lia|]. f_equal. f_equal; [f_equal; lia|rewrite ?zlen_cons, zlen_nil; lia]. }
  exfalso. destruct bs; [inversion V|]. rewrite !zlen_cons in L. pose proof (zlen_nonneg bs). lia.
Qed.

Lemma varint_canonical_ok fuel z : 0 <= z < 128 ^ Z.of_nat fuel -> (0 < fuel)%nat ->
  varint z (varint_canonical fuel z) /\ zlen (varint_canonical fuel z) <= Z.of_nat fuel.
Proof.
  revert z. induction fuel as [|f IH]; intros z Hz Hf; [lia|]. cbn [varint_canonical]. destruct (Z.ltb_spec z 128).
  - split; [constructor; lia|]. rewrite zlen_cons, zlen_nil. lia.
  - destruct f as [|f]; [cbn in Hz; lia|]. rewrite Nat2Z.inj_succ, Z.pow_succ_r in Hz by lia.
    pose proof (Z.mod_pos_bound z 128). pose proof (Z.div_mod z 128).
    destruct (IH (z / 128)) as [V L]; [|lia|].
    { split; [apply Z.div_pos; lia|]. apply Z.div_lt_upper_bound; lia. }
    split; [|rewrite zlen_cons; lia]. replace z with (z mod 128 + 128 * (z / 128)) at 1 by lia. constructor; [lia|assumption].
Qed.

Lemma varint32_pos v bs : varint32 v bs -> 0 < zlen bs <= 5.
Proof. intros (z & V & L & _). pose proof (varint_range _ _ V). lia. Qed.
Lemma readInt32_bound data pos v p : 0 <= pos -> readInt32 data pos = Some (v, p) -> pos < p <= zlen data /\ p <= pos + 5 /\ min_int32 <= v <= max_int32.
Proof.
  intros H R. apply readInt32_inv in R as (bs & V & D & ->); [|assumption]. pose proof (varint32_pos _ _ V).
  apply (f_equal zlen) in D. rewrite zlen_app, !zlen_dropZ in D. split; [lia|]. split; [lia|].
  destruct V as (z & _ & _ & ->). apply wrap32_range.
Qed.

Lemma rdRead_full data pos n d : 0 <= pos -> 0 <= n -> pos + n <= zlen data -> rdRead data pos n = Some d ->
  zlen d = n /\ dropZ pos data = d ++ dropZ (pos + n) data.
Proof.
  intros Hp Hn L. unfold rdRead. destruct (zlen data <=? pos); [discriminate|]. intro Q.
  assert (Ln : zlen (takeZ n (dropZ pos data)) = n) by (rewrite zlen_takeZ, zlen_dropZ; lia).
  rewrite Ln in Q. replace (n - n) with 0 in Q by lia. unfold zeros in Q. cbn [Z.to_nat repeat] in Q. rewrite app_nil_r in Q.
  assert (d = takeZ n (dropZ pos data)) by congruence. subst d. split; [assumption|].
  rewrite (drop_split data pos n) at 1 by lia. now rewrite (Z.add_comm n).
Qed.

Lemma vfield_at data pos v p : 0 <= pos -> 0 <= v -> p + v <= zlen data -> readInt32 data pos = Some (v, p) ->
  exists x enc, zlen x = v /\ vfield x enc /\ dropZ pos data = enc ++ dropZ (p + v) data /\ zlen enc = p - pos + v /\
    dropZ p data = x ++ dropZ (p + v) data.
Proof.
  intros Hp Hv L R. pose proof (readInt32_bound _ _ _ _ Hp R). apply readInt32_inv in R as (bs & V & D & Q); [|assumption].
  assert (Lx : zlen (takeZ v (dropZ p data)) = v) by (rewrite zlen_takeZ, zlen_dropZ; lia).
  assert (Dx : dropZ p data = takeZ v (dropZ p data) ++ dropZ (p + v) data).
  { rewrite (drop_split data p v) at 1 by lia. now rewrite (Z.add_comm v). }
  exists (takeZ v (dropZ p data)), (bs ++ takeZ v (dropZ p data)).
  split; [assumption|]. split; [|split; [|split]].
  - exists bs. now rewrite Lx.
  - rewrite D. rewrite Dx at 1. now rewrite app_assoc.
  - rewrite zlen_app, Lx. lia.
  - assumption.
Qed.

Lemma skipEntries_inv k : forall data pos limit p, 0 <= pos -> limit <= zlen data -> skipEntries k data pos limit = Some p ->
  exists encs, length encs = k /\ Forall (fun b => exists x, vfield x b) encs /\ dropZ pos data = concat encs ++ dropZ p data /\ p = pos + zlen (concat encs).
Proof.
  induction k as [|k IH]; intros data pos limit p Hp Hl; cbn [skipEntries].
  - intro Q. injection Q as <-. exists []. cbn [concat length app]. split; [reflexivity|]. split; [constructor|]. split; [reflexivity|]. rewrite zlen_nil. lia.
  - destruct (readInt32 data pos) as [[es q]|] eqn:R; [|discriminate]. pose proof (readInt32_bound _ _ _ _ Hp R).
    destruct (Z.ltb_spec es 0); [discriminate|]. destruct (Z.leb_spec limit (q + es)); [discriminate|]. cbn [orb]. intro Q.
    destruct (vfield_at data pos es q Hp ltac:(lia) ltac:(lia) R) as (x & enc & Lx & V & D & Le & _).
    apply IH in Q as (encs & Ln & F & D' & P); [|lia|assumption]. exists (enc :: encs). cbn [length concat].
    split; [lia|]. split; [constructor; eauto|]. split; [rewrite D, D'; apply app_assoc|]. rewrite zlen_app. lia.
Qed.

Lemma readArrayItem_inv data pos k sig : 0 <= pos -> readArrayItem data pos k = Some sig ->
  exists sigs arr junk before sigE after, dropZ pos data = sigs ++ arr ++ junk /\ varint32 (zlen arr) sigs /\
    arr = concat before ++ sigE ++ after /\ vfield sig sigE /\ length before = k /\ Forall (fun b => exists x, vfield x b) before /\
    pos + 2 + zlen sig <= zlen data.
Proof.
  intros Hp. unfold readArrayItem. destruct (readInt32 data pos) as [[total st]|] eqn:R; [|discriminate]. pose proof (readInt32_bound _ _ _ _ Hp R).
  unfold rdLen. destruct (Z.leb_spec total 0); [discriminate|]. cbn [orb].
  destruct (Z.leb_spec (zlen data) st).
  { destruct (Z.ltb_spec 0 total); [discriminate|]. intros. lia. }
  destruct (Z.ltb_spec (zlen data - st) total); [discriminate|].
  destruct (skipEntries k data st (st + total)) as [p|] eqn:Sk; [|discriminate].
  apply skipEntries_inv in Sk as (encs & Ln & F & D & P); [|lia|lia].
  pose proof (zlen_nonneg (concat encs)).
  destruct (readInt32 data p) as [[size q]|] eqn:R2; [|discriminate]. pose proof (readInt32_bound data p _ _ ltac:(lia) R2).
  destruct (Z.ltb_spec size 0); [discriminate|]. destruct (Z.ltb_spec (total + st) (q + size)); [discriminate|]. cbn [orb]. intro Rd.
  destruct (vfield_at data p size q ltac:(lia) ltac:(lia) ltac:(lia) R2) as (x & enc & Lx & V & D2 & Le & Dx).
  apply rdRead_full in Rd as [Ls Ds]; [|lia|lia|lia]. assert (sig = x).
  { rewrite Dx in Ds. apply app_take_eq in Ds; [symmetry; tauto|lia]. }
  subst x. destruct (vfield_at data pos total st Hp ltac:(lia) ltac:(lia) R) as (arr & encA & La & VA & DA & LeA & DA').
  apply readInt32_inv in R as (bs & V32 & DR & Q); [|assumption].
  (* the array, cut *)
  exists bs, arr, (dropZ (st + total) data), encs, enc, (takeZ (total + st - (q + size)) (dropZ (q + size) data)).
  split; [rewrite DR, DA'; reflexivity|]. split; [now rewrite La|]. split; [|split; [assumption|split; [assumption|split; [assumption|lia]]]].
  assert (X : arr ++ dropZ (st + total) data = (concat encs ++ enc ++ takeZ (total + st - (q + size)) (dropZ (q + size) data)) ++ dropZ (st + total) data).
  { rewrite <- DA', D, D2. rewrite <- !app_assoc. do 2 f_equal. rewrite (drop_split data (q + size) (total + st - (q + size))) at 1 by lia. f_equal. f_equal. lia. }
  apply app_inv_tail in X. assumption.
Qed.

Section Parse.
  Variable E : env.

  (** Facts established when the loop accepts the entry at [q] with [k] entries before it. *)
  Definition accepted (data : bytes) (off pm ps psz limit q : Z) (k : nat) (f : frostingInfo) : Prop :=
    exists nk p1 p2 p3 sig signed spki,
      readInt32 data q = Some (nk, p1) /\ readInt32 data p1 = Some (0, p2) /\ readInt32 data p2 = Some (0, p3) /\
      nk = p3 + 32 - p1 /\ p3 + 32 <= limit /\ rdRead data p3 32 = Some (f_fileSha256 f) /\
      readArrayItem data (off + pm) k = Some sig /\ rdRead data off (p3 + 32 - off) = Some signed /\
      e_base64 E (hd [] frostingPublicKeys) = Some spki /\ ecdsa_sha256_ok E spki signed sig /\
      f_usedKeySha256 f = hex_encode (e_hash E HSha256 spki) /\ rdRead data ps psz = Some (f_protobufInfo f).

  Lemma frostingVerifySignature_ok signed sig key used : frostingVerifySignature E signed sig key = (used, None) ->
    exists spki, e_base64 E key = Some spki /\ ecdsa_sha256_ok E spki signed sig /\ used = hex_encode (e_hash E HSha256 spki).
  Proof.
    unfold frostingVerifySignature. destruct (e_base64 E key) as [spki|]; [|discriminate].
    destruct (e_pkix_std E spki) as [[| |k|]|] eqn:K; try discriminate.
    destruct (e_asn1_rs_std E sig) as [[[r s] []]|] eqn:A; try discriminate.
    destruct (Z.leb_spec r 0); [discriminate|]. destruct (Z.leb_spec s 0); [discriminate|]. cbn [orb].
    destruct (e_ecdsa E k _ r s) eqn:V; [|discriminate]. intro Q. injection Q as <-. exists spki.
    split; [reflexivity|]. split; [|reflexivity]. exists k, r, s. auto.
  Qed.

  Lemma frostingLoop_inv fuel : forall data off pm ps psz limit pos idx f, zlen data <= max_int32 -> 0 <= pos ->
    frostingLoop E fuel data off pm ps psz limit pos idx = Ret (f, None) ->
    exists skipped skipE q, (length skipped < fuel)%nat /\ vfields skipped skipE /\ Forall disabled_entry skipped /\ dropZ pos data = skipE ++ dropZ q data /\
      q = pos + zlen skipE /\ accepted data off pm ps psz limit q (idx + length skipped) f.
  Proof.
    induction fuel as [|fuel IH]; intros data off pm ps psz limit pos idx f Ld Hp; cbn [frostingLoop]; [discriminate|].
    destruct (limit <=? pos); [discriminate|].
    destruct (readInt32 data pos) as [[nk p1]|] eqn:R1; [|discriminate]. pose proof (readInt32_bound _ _ _ _ Hp R1) as B1.
    rewrite (wrap32_id p1) by (unfold min_int32; lia).
    set (next := wrap32 (nk + p1)). assert (Nx : 0 < next -> next = nk + p1).
    { subst next. intro Pos. unfold wrap32, min_int32, max_int32 in *. destruct (Z_lt_ge_dec (nk + p1) 2147483648).
      - rewrite Z.mod_small by lia. lia.
      - exfalso. rewrite <- (Z.mod_add _ (-1)) in Pos by lia. rewrite Z.mod_small in Pos by lia. lia. }
    clearbody next. destruct (Z.ltb_spec limit next); [discriminate|]. destruct (Z.leb_spec next 0); [discriminate|]. cbn [orb]. specialize (Nx ltac:(assumption)).
    destruct (readInt32 data p1) as [[dis p2]|] eqn:R2; [|discriminate]. pose proof (readInt32_bound data p1 _ _ ltac:(lia) R2) as B2.
    destruct (Z.ltb_spec next p2); [discriminate|].
    destruct (Z.eqb_spec dis 0) as [->|Nd]; cbn [negb].
    - destruct (readInt32 data p2) as [[ki p3]|] eqn:R3; [|discriminate]. pose proof (readInt32_bound data p2 _ _ ltac:(lia) R3) as B3.
      destruct (Z.leb_spec (zlen frostingPublicKeys) ki) as [|Lk]; [discriminate|].
      destruct (Z.eqb_spec (next - p3) 32) as [E32|]; [|discriminate]. cbn [negb].
      destruct (rdRead data p3 32) as [sha|] eqn:Rs; [|discriminate].
      destruct (readArrayItem data (off + pm) idx) as [sig|] eqn:Ra; [|discriminate].
      destruct (rdRead data off (next - off)) as [signed|] eqn:Rg; [|discriminate].
      destruct (Z.ltb_spec ki 0); [discriminate|]. assert (ki = 0) by (change (zlen frostingPublicKeys) with 1 in Lk; lia). subst ki.
      change (nth_error frostingPublicKeys (Z.to_nat 0)) with (Some (hd [] frostingPublicKeys)). cbv iota beta.
      destruct (frostingVerifySignature E signed sig (hd [] frostingPublicKeys)) as [used [e|]] eqn:V; [discriminate|].
      destruct (rdRead data ps psz) as [proto|] eqn:Rp; [|discriminate].
      intro Q. assert (Qf : f = mkFrosting sha proto used) by congruence. clear Q. subst f.
      apply frostingVerifySignature_ok in V as (spki & Eb & V & Us).
      exists [], [], pos. split; [cbn; lia|]. split; [exists []; split; constructor|]. split; [constructor|]. split; [reflexivity|]. split; [rewrite zlen_nil; lia|].
      exists nk, p1, p2, p3, sig, signed, spki. cbn [f_fileSha256 f_protobufInfo f_usedKeySha256 length]. rewrite Nat.add_0_r.
      assert (next = p3 + 32) by lia. subst next. replace (p3 + 32) with (nk + p1) in * by lia.
      repeat (split; [assumption || lia|]). assumption.
    - intro Q. apply IH in Q as (sk & skE & q & Lsk & (encs & F & Ec) & Ds & D & Qq & A); [|assumption|lia].
      assert (Bq : q < zlen data).
      { destruct A as (nk' & p1' & _ & _ & _ & _ & _ & R & _). pose proof (zlen_nonneg skE). pose proof (readInt32_bound data q nk' p1' ltac:(lia) R). lia. }
      pose proof (zlen_nonneg skE).
      destruct (vfield_at data pos nk p1 ltac:(lia) ltac:(lia) ltac:(lia) R1) as (x & enc & Lx & V & D1 & Le & Dx).
      apply readInt32_inv in R2 as (bs & Vd & Dd & Pd); [|lia].
      exists (x :: sk), (enc ++ skE), q. split; [cbn; lia|]. split; [exists (enc :: encs); split; [now constructor|cbn; congruence]|].
      split; [constructor; [|assumption]|].
      { exists dis, bs, (takeZ (nk - zlen bs) (dropZ p2 data)). split; [assumption|]. split; [assumption|].
        assert (X : x ++ dropZ (p1 + nk) data = (bs ++ takeZ (nk - zlen bs) (dropZ p2 data)) ++ dropZ (p1 + nk) data).
        { rewrite <- Dx, Dd, <- app_assoc. f_equal. rewrite (drop_split data p2 (nk - zlen bs)) at 1 by lia. do 2 f_equal. lia. }
        apply app_inv_tail in X. assumption. }
      split; [rewrite D1, <- app_assoc; f_equal; rewrite <- D; f_equal; lia|].
      split; [rewrite zlen_app; lia|]. cbn [length]. now rewrite <- Nat.add_succ_comm.
  Qed.

  Theorem frostingParse_sound block f : zlen block <= max_int32 -> ecdsa_sig_min E -> frostingParse E block = Ret (f, None) ->
    exists skipped e sig signed spki, frosting_block block (f_protobufInfo f) skipped e sig signed /\ Forall disabled_entry skipped /\
      enabled_entry 0 (f_fileSha256 f) e /\ zlen skipped < 32767 /\ f_protobufInfo f <> [] /\ e_base64 E (hd [] frostingPublicKeys) = Some spki /\ ecdsa_sha256_ok E spki signed sig /\
      f_usedKeySha256 f = hex_encode (e_hash E HSha256 spki).
  Proof.
    intros Lb Min. unfold frostingParse.
    destruct (readInt32 block 0) as [[pm off]|] eqn:R0; [|discriminate]. pose proof (readInt32_bound block 0 _ _ ltac:(lia) R0) as B0.
    destruct (Z.leb_spec pm 0); [discriminate|]. cbn [orb]. unfold rdLen. destruct (Z.leb_spec (zlen block) off).
    { destruct (Z.ltb_spec 0 pm); [discriminate|lia]. }
    destruct (Z.ltb_spec (zlen block - off) pm); [discriminate|].
    destruct (readInt32 block off) as [[psz ps]|] eqn:R1; [|discriminate]. pose proof (readInt32_bound block off _ _ ltac:(lia) R1) as B1.
    destruct (Z.leb_spec psz 0); [discriminate|]. cbn [orb]. destruct (Z.leb_spec (zlen block) ps).
    { destruct (Z.ltb_spec 0 psz); [discriminate|lia]. }
    destruct (Z.ltb_spec (zlen block - ps) psz); [discriminate|]. destruct (Z.ltb_spec (pm - (ps - off)) psz); [discriminate|]. cbn [orb].
    destruct (readInt32 block (ps + psz)) as [[ms p]|] eqn:R2; [|discriminate]. pose proof (readInt32_bound block (ps + psz) _ _ ltac:(lia) R2) as B2.
    destruct (Z.leb_spec ms 0); [discriminate|]. destruct (Z.ltb_spec (pm - psz) ms); [discriminate|]. cbn [orb]. intro Lo.
    apply frostingLoop_inv in Lo as (sk & skE & q & Lsk & Vs & Ds & D & Q & nk & p1 & p2 & p3 & sig & signed & spki & A1 & A2 & A3 & A4 & A5 & A6 & A7 & A8 & A9 & A10 & A11 & A12); [|assumption|lia].
    pose proof (zlen_nonneg skE).
    pose proof (readInt32_bound block q _ _ ltac:(lia) A1). pose proof (readInt32_bound block p1 _ _ ltac:(lia) A2). pose proof (readInt32_bound block p2 _ _ ltac:(lia) A3).
    apply readArrayItem_inv in A7 as (sigs & arr & junk & before & sigE & after & Da & Va & Qa & Vf & Lk & Fb & Ls); [|lia].
    assert (8 <= zlen sig) by (destruct A10 as (k & r & s & _ & Rs & _); exact (Min _ _ Rs)).
    assert (p3 + 32 <= zlen block) by lia.
    apply rdRead_full in A6 as [L6 D6]; [|lia|lia|lia].
    apply rdRead_full in A8 as [L8 D8]; [|lia|lia|lia].
    apply rdRead_full in A12 as [L12 D12]; [|lia|lia|lia].
    destruct (vfield_at block q nk p1 ltac:(lia) ltac:(lia) ltac:(lia) A1) as (e & eE & Le & Ve & De & LeE & De').
    destruct (vfield_at block off psz ps ltac:(lia) ltac:(lia) ltac:(lia) R1) as (pr & prE & Lpr & Vpr & Dpr & LprE & Dpr').
    assert (pr = f_protobufInfo f). { rewrite D12 in Dpr'. apply app_take_eq in Dpr'; [symmetry; tauto|lia]. } subst pr.
    apply readInt32_inv in R0 as (totals & Vt & Dt & Qt); [|lia]. apply readInt32_inv in R2 as (metas & Vm & Dm & Qm); [|lia].
    apply readInt32_inv in A2 as (ds & Vds & Dds & Qds); [|lia]. apply readInt32_inv in A3 as (ks & Vks & Dks & Qks); [|lia].
    rewrite (dropZ_0 block 0) in Dt by lia.
    assert (QS : signed = prE ++ metas ++ skE ++ eE).
    { assert (X : signed ++ dropZ (p3 + 32) block = (prE ++ metas ++ skE ++ eE) ++ dropZ (p3 + 32) block).
      { replace (off + (p3 + 32 - off)) with (p3 + 32) in D8 by lia. rewrite <- D8, Dpr, Dm, D, De. replace (p1 + nk) with (p3 + 32) by lia. now rewrite !app_assoc. }
      now apply app_inv_tail in X. }
    exists sk, e, sig, signed, spki. split; [|split; [assumption|]].
    - exists pm, totals, prE, metas, ms, skE, eE, (dropZ (p3 + 32) block).
      split; [assumption|]. split; [assumption|]. split; [assumption|]. split; [assumption|]. split; [assumption|]. split; [assumption|].
      split; [rewrite Dt at 1; f_equal; rewrite D8 at 1; do 2 f_equal; lia|]. split; [rewrite zlen_app; lia|]. split; [lia|].
      exists (takeZ pm (dropZ off block)), sigs, arr, junk, before, sigE, after.
      split; [rewrite Dt at 1; f_equal; rewrite (drop_split block off pm) at 1 by lia; f_equal; rewrite (Z.add_comm pm); assumption|].
      split; [rewrite zlen_takeZ, zlen_dropZ; lia|]. repeat (split; [assumption|]). assumption.
    - split; [|split; [unfold zlen; clear - Lsk; apply Nat2Z.inj_lt in Lsk; rewrite Z2Nat.id in Lsk by (unfold maxInt16; lia); unfold maxInt16 in Lsk; lia
                 |split; [intro Nil; rewrite Nil, zlen_nil in L12; lia | auto]]].
      exists ds, ks. split; [assumption|]. split; [assumption|]. split; [|assumption].
      assert (X : e ++ dropZ (p3 + 32) block = (ds ++ ks ++ f_fileSha256 f) ++ dropZ (p3 + 32) block).
      { replace (p1 + nk) with (p3 + 32) in De' by lia. rewrite <- De', Dds, Dks, D6. now rewrite !app_assoc. }
      now apply app_inv_tail in X.
  Qed.
End Parse.
