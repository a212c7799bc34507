(** Lemmas about Model/Utils.v *)
From Coq Require Import Lia.
From Verif.Model Require Import Bytes ApiLevel Env Utils.
From Verif.Spec Require Import Encoding Algorithms.
From Verif.Proofs Require Import BytesFacts.

Lemma lp_length x : zlen (lp x) = 4 + zlen x.
Proof. unfold lp, le32. rewrite zlen_app, le_enc_zlen. lia. Qed.

Lemma getLP_enc x r : fits x -> getLengthPrefixedSlice (lp x ++ r) = Some (x, r).
Proof.
  unfold fits. intro F. unfold getLengthPrefixedSlice.
  rewrite zlen_app, lp_length. pose proof (zlen_nonneg x). pose proof (zlen_nonneg r).
  destruct (Z.ltb_spec (4 + zlen x + zlen r) 4); [lia|].
  unfold lp, le32. rewrite <- app_assoc, read_i32_enc_id by (unfold min_int32, max_int32; lia).
  destruct (Z.ltb_spec (zlen x) 0); [lia|].
  rewrite zlen_app. destruct (Z.ltb_spec (zlen x + zlen r) (zlen x)); [lia|].
  rewrite takeZ_app, dropZ_app by reflexivity. reflexivity.
Qed.

Lemma getLP_inv b x r : getLengthPrefixedSlice b = Some (x, r) -> b = lp x ++ r /\ fits x.
Proof.
  unfold getLengthPrefixedSlice. destruct (Z.ltb_spec (zlen b) 4); [discriminate|].
  destruct (read_i32 b) as [[len r']|] eqn:R; [|discriminate].
  apply read_i32_inv in R as [-> B].
  destruct (Z.ltb_spec len 0); [discriminate|].
  destruct (Z.ltb_spec (zlen r') len); [discriminate|].
  intro E; inversion E; subst; clear E.
  assert (L : zlen (takeZ len r') = len) by (rewrite zlen_takeZ; lia).
  unfold lp, le32, fits. rewrite L. rewrite <- app_assoc, take_drop.
  split; [reflexivity | unfold max_int32 in *; lia].
Qed.

Lemma getLP_iff b x r : getLengthPrefixedSlice b = Some (x, r) <-> b = lp x ++ r /\ fits x.
Proof. split; [apply getLP_inv | intros [-> F]; now apply getLP_enc]. Qed.

Lemma getLP_none b : getLengthPrefixedSlice b = None <-> (forall x r, b = lp x ++ r -> ~ fits x).
Proof.
  split.
  - intros H x r -> F. rewrite getLP_enc in H by assumption. discriminate.
  - intro H. destruct (getLengthPrefixedSlice b) as [[x r]|] eqn:G; [|reflexivity].
    apply getLP_inv in G as [-> F]. exfalso. now apply (H x r).
Qed.

(** lpItems *)
Lemma lpItemsFuel_enc xs : forall fuel, Forall fits xs -> (length (lps xs) <= fuel)%nat ->
  lpItemsFuel fuel (lps xs) = (xs, true).
Proof.
  induction xs as [|x xs IH]; intros fuel F L.
  - destruct fuel; reflexivity.
  - inversion F as [|? ? F1 F2]; subst.
    assert (Hx : lps (x :: xs) = lp x ++ lps xs) by reflexivity.
    pose proof (lp_length x) as LL. pose proof (zlen_nonneg x) as NN.
    assert (L4 : (4 <= length (lp x))%nat) by (unfold zlen in *; lia).
    rewrite Hx in *. rewrite app_length in L.
    destruct fuel as [|fuel]; [lia|].
    destruct (lp x ++ lps xs) as [|b0 t] eqn:Eq.
    + apply (f_equal (@length byte)) in Eq. rewrite app_length in Eq. simpl in Eq. lia.
    + cbn [lpItemsFuel]. rewrite <- Eq. rewrite getLP_enc by assumption.
      rewrite IH by (assumption || lia). reflexivity.
Qed.

Lemma lpItems_enc xs : Forall fits xs -> lpItems (lps xs) = (xs, true).
Proof. intro. apply lpItemsFuel_enc; auto. Qed.

Lemma lpItemsFuel_inv fuel : forall b xs, lpItemsFuel fuel b = (xs, true) -> b = lps xs /\ Forall fits xs.
Proof.
  induction fuel as [|fuel IH]; intros b xs H.
  - destruct b; simpl in H; inversion H; subst. split; [reflexivity | constructor].
  - destruct b as [|b0 t]; cbn [lpItemsFuel] in H.
    + inversion H; subst. split; [reflexivity | constructor].
    + destruct (getLengthPrefixedSlice (b0 :: t)) as [[x r]|] eqn:G; [|discriminate].
      destruct (lpItemsFuel fuel r) as [ys ok] eqn:R.
      inversion H; subst; clear H. apply IH in R as [-> F]. apply getLP_inv in G as [-> Fx].
      split; [reflexivity | now constructor].
Qed.

Lemma lpItems_inv b xs : lpItems b = (xs, true) -> b = lps xs /\ Forall fits xs.
Proof. apply lpItemsFuel_inv. Qed.

(** In general (malformed tail): the items are a prefix and the rest is not a field. *)
Lemma lpItemsFuel_false fuel : forall b xs, (length b <= fuel)%nat -> lpItemsFuel fuel b = (xs, false) ->
  exists tail, b = lps xs ++ tail /\ Forall fits xs /\ tail <> [] /\ getLengthPrefixedSlice tail = None.
Proof.
  induction fuel as [|fuel IH]; intros b xs L H.
  - destruct b; simpl in *; [inversion H | lia].
  - destruct b as [|b0 t]; cbn [lpItemsFuel] in H; [inversion H|].
    destruct (getLengthPrefixedSlice (b0 :: t)) as [[x r]|] eqn:G.
    + destruct (lpItemsFuel fuel r) as [ys ok] eqn:R.
      inversion H; subst; clear H. apply getLP_inv in G as [G Fx].
      assert (Lr : (length r <= fuel)%nat).
      { apply (f_equal (@length byte)) in G. rewrite app_length in G.
        pose proof (lp_length x) as LL. pose proof (zlen_nonneg x). unfold zlen in *. simpl length in *. lia. }
      apply IH in R as (tail & -> & F & N & T); [|assumption].
      exists tail. rewrite G. split; [unfold lps; simpl; now rewrite app_assoc|].
      split; [now constructor | auto].
    + inversion H; subst. exists (b0 :: t). split; [reflexivity|]. split; [constructor|]. split; [discriminate | assumption].
Qed.

Lemma lpItems_false b xs : lpItems b = (xs, false) ->
  exists tail, b = lps xs ++ tail /\ Forall fits xs /\ tail <> [] /\ getLengthPrefixedSlice tail = None.
Proof. apply lpItemsFuel_false. auto. Qed.

Lemma lps_inj xs : forall ys, Forall fits xs -> Forall fits ys -> lps xs = lps ys -> xs = ys.
Proof.
  intros ys Fx Fy H. pose proof (lpItems_enc xs Fx) as A. rewrite H in A.
  rewrite lpItems_enc in A by assumption. congruence.
Qed.

(** algorithm tables *)
Lemma table_ids : map (fun r => fst (fst r)) algorithm_table =
  [SigRsaPssWithSha256; SigRsaPssWithSha512; SigRsaPkcs1V15WithSha256; SigRsaPkcs1V15WithSha512;
   SigEcdsaWithSha256; SigEcdsaWithSha512; SigDsaWithSha256;
   SigVerityRsaPkcs1V15WithSha256; SigVerityEcdsaWithSha256; SigVerityDsaWithSha256].
Proof. reflexivity. Qed.

Lemma zmem_in x l : zmem x l = true <-> In x l.
Proof.
  unfold zmem. rewrite existsb_exists. split.
  - intros (y & H & E). apply Z.eqb_eq in E. now subst.
  - intro H. exists x. split; [assumption | apply Z.eqb_refl].
Qed.

Lemma isSupported_iff a : isSupported a = true <-> supported a.
Proof.
  unfold isSupported. rewrite zmem_in, <- table_ids. unfold supported. rewrite in_map_iff. split.
  - intros ([[i k] m] & <- & H). eauto.
  - intros (k & m & H). exists (a, k, m). auto.
Qed.

Lemma isSupported_false a : isSupported a = false <-> ~ supported a.
Proof.
  rewrite <- isSupported_iff. destruct (isSupported a); split; congruence.
Qed.

Ltac in_table H :=
  cbv [algorithm_table In] in H;
  repeat (destruct H as [H|H]; [injection H; intros; subst; clear H|]); [.. | destruct H].

Lemma getDigestType_kind a k m : In (a, k, m) algorithm_table -> getDigestType a = Ret (kind_id k).
Proof. intro H. in_table H; reflexivity. Qed.

Lemma getMinSdkJca_row a k m : In (a, k, m) algorithm_table -> getMinSdkVersionJca a = m.
Proof. intro H. in_table H; reflexivity. Qed.

Lemma has_kind_type a k : has_kind a k -> getDigestType a = Ret (kind_id k).
Proof. intros [m H]. eapply getDigestType_kind; eassumption. Qed.

Lemma kind_id_inj k k' : kind_id k = kind_id k' -> k = k'.
Proof. destruct k, k'; simpl; congruence. Qed.

Lemma has_kind_fun a k k' : has_kind a k -> has_kind a k' -> k = k'.
Proof.
  intros H H'. apply has_kind_type in H, H'. rewrite H in H'. inversion H'. now apply kind_id_inj.
Qed.

Lemma supported_kind a : supported a -> exists k, has_kind a k.
Proof. intros (k & m & H). exists k. now exists m. Qed.
Lemma kind_supported a k : has_kind a k -> supported a.
Proof. intros (m & H). now exists k, m. Qed.

Lemma getDigestType_ret a d : getDigestType a = Ret d -> exists k, has_kind a k /\ d = kind_id k.
Proof.
  intro H.
  destruct (isSupported a) eqn:S.
  - apply isSupported_iff, supported_kind in S as [k K]. exists k. split; [assumption|].
    apply has_kind_type in K. congruence.
  - exfalso. unfold isSupported in S. unfold getDigestType in H.
    assert (N : forall l, (forall x, In x l -> In x [SigRsaPssWithSha256; SigRsaPssWithSha512; SigRsaPkcs1V15WithSha256; SigRsaPkcs1V15WithSha512;
             SigEcdsaWithSha256; SigEcdsaWithSha512; SigDsaWithSha256;
             SigVerityRsaPkcs1V15WithSha256; SigVerityEcdsaWithSha256; SigVerityDsaWithSha256]) -> zmem a l = false).
    { intros l Hl. destruct (zmem a l) eqn:Z; [|reflexivity].
      apply zmem_in, Hl, zmem_in in Z. congruence. }
    rewrite !N in H by (simpl; intuition). discriminate.
Qed.

Lemma compareAlgos_strength a b ka kb : has_kind a ka -> has_kind b kb ->
  exists d, compareAlgos a b = Ret d /\ (d > 0 <-> strength ka > strength kb) /\ (d = 0 <-> ka = kb)
            /\ (d < 0 <-> strength ka < strength kb).
Proof.
  intros Ha Hb. apply has_kind_type in Ha, Hb.
  unfold compareAlgos. rewrite Ha, Hb. cbn [obind].
  destruct ka, kb; simpl; eexists; (split; [reflexivity|]); repeat split; intro; try lia; try discriminate; reflexivity.
Qed.

(** verifySignature *)
Lemma verifySignature_true E key algo data sig :
  verifySignature E key algo data sig = Ret true <-> sig_valid E key algo data sig.
Proof.
  split.
  - unfold verifySignature, zmem. cbn [existsb].
    repeat match goal with
    | |- context [Z.eqb ?a ?b] => destruct (Z.eqb_spec a b); subst
    end; cbn [orb]; try discriminate;
    destruct key; try discriminate; intro H;
    try (destruct (e_asn1_ints E sig) as [[|r [|t l]]|] eqn:P; try discriminate);
    repeat match goal with
    | H : context [Z.ltb ?a ?b] |- _ => destruct (Z.ltb_spec a b); try discriminate
    end;
    injection H; clear H; intro H;
    solve [ econstructor; eassumption | econstructor; first [eassumption | lia] ].
  - intro H; destruct H; unfold verifySignature; cbn;
    repeat match goal with
    | H : e_asn1_ints _ _ = Some _ |- _ => rewrite H
    | H : ?a <= ?b |- context [?b <? ?a] => destruct (Z.ltb_spec b a); [lia|]
    end; congruence.
Qed.

Lemma lpItems_iff b xs : lpItems b = (xs, true) <-> b = lps xs /\ Forall fits xs.
Proof. split; [apply lpItems_inv|]. intros [-> F]. now apply lpItems_enc. Qed.
