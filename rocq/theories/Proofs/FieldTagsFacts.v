(** Struct tags: parseFieldParameters against Spec/FieldTags.v. *)
From Coq Require Import String Lia.
From Verif.Model Require Import Bytes GoStrings Asn1 FieldTags.
From Verif.Spec Require Import AndroidManifest FieldTags.
From Verif.Proofs Require Import BytesFacts GoStringsFacts V1DigestFacts TopFacts ChainFacts.

Lemma parseInt64_iff s v : parseInt64Text s = Some v <-> int64_numeral s v.
Proof.
  unfold int64_numeral, parseInt64Text. destruct s as [|c t].
  { split; [discriminate|]. intros (_ & sign & ds & n & Hd & Hs & _). symmetry in Hs. apply app_eq_nil in Hs as [_ ->].
    apply digits_spec in Hd as (Hd & _). congruence. }
  destruct (byte_eqb c "-"%byte) eqn:E1.
  { apply byte_eqb_eq in E1. subst c. split.
    - destruct (parseUint t) as [n|] eqn:Ep; [|discriminate]. apply parseUint_iff in Ep. pose proof (digits_nonneg _ _ Ep).
      destruct (Z.ltb_spec 9223372036854775808 n); [discriminate|]. intros Hv. assert (v = - n) as -> by congruence. split; [lia|].
      exists ["-"%byte], t, n. split; [exact Ep|]. split; [reflexivity|]. right. right. auto.
    - intros (Hr & sign & ds & n & Hd & Hs & [(-> & _)|[(-> & _)|(-> & ->)]]).
      + cbn [app] in Hs. subst ds. apply digits_head in Hd. discriminate.
      + discriminate.
      + assert (t = ds) as -> by (cbn [app] in Hs; congruence). apply parseUint_iff in Hd. rewrite Hd. destruct (Z.ltb_spec 9223372036854775808 n); [lia|reflexivity]. }
  assert (HX : forall u, parseUint u = Some v -> (if 9223372036854775807 <? v then None else Some v) = Some v <-> -9223372036854775808 <= v <= 9223372036854775807).
  { intros u Hu. apply parseUint_iff in Hu. pose proof (digits_nonneg _ _ Hu). destruct (Z.ltb_spec 9223372036854775807 v); split; intros H1; try lia; try discriminate; reflexivity. }
  destruct (byte_eqb c "+"%byte) eqn:E2.
  { apply byte_eqb_eq in E2. subst c. split.
    - destruct (parseUint t) as [n|] eqn:Ep; [|discriminate]. intros Hv. assert (n = v) as -> by (destruct (9223372036854775807 <? n); congruence).
      apply (HX _ Ep) in Hv. split; [exact Hv|]. apply parseUint_iff in Ep. exists ["+"%byte], t, v. split; [exact Ep|]. split; [reflexivity|]. right. left. auto.
    - intros (Hr & sign & ds & n & Hd & Hs & [(-> & _)|[(-> & ->)|(-> & ->)]]).
      + cbn [app] in Hs. subst ds. apply digits_head in Hd. discriminate.
      + assert (t = ds) as -> by (cbn [app] in Hs; congruence). apply parseUint_iff in Hd. rewrite Hd. apply (HX _ Hd). exact Hr.
      + discriminate. }
  split.
  - destruct (parseUint (c :: t)) as [n|] eqn:Ep; [|discriminate]. intros Hv. assert (n = v) as -> by (destruct (9223372036854775807 <? n); congruence).
    apply (HX _ Ep) in Hv. split; [exact Hv|]. apply parseUint_iff in Ep. exists [], (c :: t), v. split; [exact Ep|]. split; [reflexivity|]. left. auto.
  - intros (Hr & sign & ds & n & Hd & Hs & [(-> & ->)|[(-> & _)|(-> & _)]]).
    + cbn [app] in Hs. subst ds. apply parseUint_iff in Hd. rewrite Hd. apply (HX _ Hd). exact Hr.
    + cbn [app] in Hs. assert (c = "+"%byte) as -> by congruence. discriminate.
    + cbn [app] in Hs. assert (c = "-"%byte) as -> by congruence. discriminate.
Qed.

(** ** Splitting *)
Lemma tag_split l : options l -> splitByte (tag_text l) ","%byte = l.
Proof.
  intros (HN & HF). change ","%byte with comma. revert HN HF. induction l as [|x t IH]; intros HN HF; [contradiction|]. inversion HF as [|? ? Hx Ht]; subst.
  destruct t as [|y t]; cbn [tag_text].
  - apply splitByte_nosep. exact Hx.
  - rewrite splitByte_app, (splitByte_nosep x comma Hx). change (match t with [] => y | _ :: _ => y ++ comma :: tag_text t end) with (tag_text (y :: t)).
    rewrite IH by (try discriminate; assumption). reflexivity.
Qed.
Lemma split_tag s : tag_text (splitByte s ","%byte) = s /\ options (splitByte s ","%byte).
Proof.
  change ","%byte with comma. split; [|split; [apply splitByte_nonempty|]].
  - induction s as [|c t IH]; [reflexivity|]. cbn [splitByte]. destruct (byte_eqb c comma) eqn:E.
    + apply byte_eqb_eq in E. subst c. destruct (splitByte t comma) as [|y r] eqn:EE; [destruct (splitByte_nonempty t comma EE)|].
      change (tag_text ([] :: y :: r)) with (comma :: tag_text (y :: r)). rewrite IH. reflexivity.
    + destruct (splitByte t comma) as [|y r] eqn:EE; [destruct (splitByte_nonempty t comma EE)|].
      destruct r; cbn [tag_text] in *; rewrite <- IH; reflexivity.
  - induction s as [|c t IH]; [constructor; [intros []|constructor]|]. cbn [splitByte]. destruct (byte_eqb c comma) eqn:E.
    + constructor; [intros []|exact IH].
    + destruct (splitByte t comma) as [|y r] eqn:EE; [constructor; [|constructor]|].
      * intros [C|[]]. subst c. rewrite (proj2 (byte_eqb_eq comma comma) eq_refl) in E. discriminate.
      * inversion IH as [|? ? Hy Hr]; subst. constructor; [|exact Hr]. intros [C|C]; [|exact (Hy C)]. subst c. rewrite (proj2 (byte_eqb_eq comma comma) eq_refl) in E. discriminate.
Qed.

(** ** One more option *)
Lemma has_snoc w l x : has w (l ++ [x]) <-> has w l \/ x = s2b w.
Proof. unfold has. rewrite in_app_iff. cbn [In]. intuition congruence. Qed.
Lemma has_keep w l x : x <> s2b w -> (has w (l ++ [x]) <-> has w l).
Proof. intros H. rewrite has_snoc. intuition. Qed.
Lemma has_new w l : has w (l ++ [s2b w]).
Proof. apply has_snoc. right. reflexivity. Qed.
Definition quiet (pr : string) (x : bytes) : Prop := forall s v, x = s2b pr ++ s -> ~ int64_numeral s v.
Lemma no_snoc pr l x : quiet pr x -> no_number pr l -> no_number pr (l ++ [x]).
Proof. intros Q N s v H. apply in_app_iff in H as [H|[H|[]]]; [exact (N _ _ H)|exact (Q _ _ H)]. Qed.
Lemma last_keep pr l x v : quiet pr x -> last_number pr l v -> last_number pr (l ++ [x]) v.
Proof. intros Q (b & s & a & -> & H & N). exists b, s, (a ++ [x]). split; [rewrite <- app_assoc; reflexivity|]. split; [exact H|apply no_snoc; assumption]. Qed.
Lemma last_new pr l s v : int64_numeral s v -> last_number pr (l ++ [s2b pr ++ s]) v.
Proof. intros H. exists l, s, []. split; [reflexivity|]. split; [exact H|intros ? ? []]. Qed.
Lemma none_snoc ws l x : (forall w n, In (w, n) ws -> x <> s2b w) -> none_of ws l -> none_of ws (l ++ [x]).
Proof. intros Q N w n Hw C. apply has_snoc in C as [C|C]; [exact (N _ _ Hw C)|exact (Q _ _ Hw C)]. Qed.
Lemma word_keep ws l x n : (forall w n, In (w, n) ws -> x <> s2b w) -> last_of ws l n -> last_of ws (l ++ [x]) n.
Proof.
  intros Q [(N & ->)|(w & b & a & Hw & -> & N)]; [left; split; [apply none_snoc; assumption|reflexivity]|]. right.
  exists w, b, (a ++ [x]). split; [exact Hw|]. split; [rewrite <- app_assoc; reflexivity|apply none_snoc; assumption].
Qed.
Lemma word_new ws l w n : In (w, n) ws -> last_of ws (l ++ [s2b w]) n.
Proof. intros H. right. exists w, l, []. split; [exact H|]. split; [reflexivity|intros ? ? ? []]. Qed.

Definition default_says (l : list bytes) (d : option Z) : Prop := match d with Some d => last_number "default:" l d | None => no_number "default:" l end.
Definition tag_says (l : list bytes) (t : option Z) : Prop :=
  match t with Some t => last_number "tag:" l t \/ (no_number "tag:" l /\ needs_tag l /\ t = 0) | None => no_number "tag:" l /\ ~ needs_tag l end.
Lemma default_keep l x d : quiet "default:" x -> default_says l d -> default_says (l ++ [x]) d.
Proof. intros Q. destruct d; cbn; [apply last_keep|apply no_snoc]; exact Q. Qed.
Lemma needs_keep l x : x <> s2b "explicit" -> x <> s2b "application" -> x <> s2b "private" -> (needs_tag (l ++ [x]) <-> needs_tag l).
Proof. intros H1 H2 H3. unfold needs_tag. rewrite !has_keep by assumption. reflexivity. Qed.
Lemma tag_keep l x t : quiet "tag:" x -> x <> s2b "explicit" -> x <> s2b "application" -> x <> s2b "private" -> tag_says l t -> tag_says (l ++ [x]) t.
Proof.
  intros Q H1 H2 H3. destruct t as [t|]; cbn; rewrite needs_keep by assumption.
  - intros [H|(H & H')]; [left; apply last_keep; assumption|right; split; [apply no_snoc; assumption|exact H']].
  - intros (H & H'). split; [apply no_snoc; assumption|exact H'].
Qed.
Lemma tag_needs l x t : quiet "tag:" x -> needs_tag (l ++ [x]) -> tag_says l t -> tag_says (l ++ [x]) (someTag t).
Proof.
  intros Q H. destruct t as [t|]; cbn.
  - intros [H1|(H1 & _ & H3)]; [left; apply last_keep; assumption|right; split; [apply no_snoc; assumption|split; assumption]].
  - intros (H1 & _). right. split; [apply no_snoc; assumption|split; [exact H|reflexivity]].
Qed.

Lemma bytes_neq x w : bytes_eqb x (s2b w) = false -> x <> s2b w.
Proof. intros H ->. rewrite (proj2 (bytes_eqb_eq _ _) eq_refl) in H. discriminate. Qed.
Ltac words := let H := fresh in intros ? ? H; cbn [In string_words time_words] in H;
  repeat (destruct H as [H|H]; [injection H as <- <-; first [discriminate|assumption|apply bytes_neq; assumption]|]); destruct H.


Ltac neq := first [discriminate|assumption].
Ltac hush := first [assumption|let C := fresh in intros ? ? C; discriminate C].
Ltac clause :=
  match goal with
  | |- true = true <-> has _ (_ ++ _) => split; [intros _; apply has_new|reflexivity]
  | |- _ = true <-> has _ (_ ++ _) => rewrite has_keep by neq; assumption
  | |- default_says _ _ => apply default_keep; [hush|assumption]
  | |- tag_says _ (someTag _) => apply tag_needs; [hush|unfold needs_tag; rewrite !has_snoc; tauto|assumption]
  | |- tag_says _ _ => apply tag_keep; [hush|neq|neq|neq|assumption]
  | |- last_of _ _ _ => first [apply word_new; cbn; tauto|apply word_keep; [words|assumption]]
  end.
Ltac open_says := match goal with |- says ?l (fst (?p, ?t)) _ =>
  constructor; cbn [fst snd fp_optional fp_explicit fp_application fp_private fp_default fp_tag fp_stringType fp_set fp_omitEmpty];
  try match goal with |- match ?dd with Some _ => last_number "default:" _ _ | None => _ end => change (default_says l dd) | |- match ?dd with Some _ => last_number "tag:" _ _ \/ _ | None => _ end => change (tag_says l dd) end end.
Ltac word W := match goal with |- context [bytes_eqb ?x (s2b W)] => let E := fresh "E" in destruct (bytes_eqb x (s2b W)) eqn:E; [apply bytes_eqb_eq in E; subst x|apply bytes_neq in E] end.

Lemma step_says l p time x : says l p time -> says (l ++ [x]) (fst (fieldOption (p, time) x)) (snd (fieldOption (p, time) x)).
Proof.
  intros [H1 H2 H3 H4 H5 H6 H7 H8 H9 H10]. destruct p as [o e a pr d t st s oe]. cbn [fp_optional fp_explicit fp_application fp_private fp_default fp_tag fp_stringType fp_set fp_omitEmpty] in *.
  fold (default_says l d) in H7. fold (tag_says l t) in H8. unfold fieldOption.
  word "optional"%string; [open_says; clause|].
  word "explicit"%string; [open_says; clause|].
  word "generalized"%string; [open_says; clause|].
  word "utc"%string; [open_says; clause|].
  word "ia5"%string; [open_says; clause|].
  word "printable"%string; [open_says; clause|].
  word "numeric"%string; [open_says; clause|].
  word "utf8"%string; [open_says; clause|].
  destruct (hasPrefix x (s2b "default:")) eqn:P1.
  { apply hasPrefix_iff in P1 as (r & ->). change (skipn 8 (s2b "default:" ++ r)) with r.
    assert (HD : default_says (l ++ [s2b "default:" ++ r]) (match parseInt64Text r with Some i => Some i | None => d end)).
    { destruct (parseInt64Text r) as [i|] eqn:Ei.
      - apply parseInt64_iff in Ei. exact (last_new "default:" l r i Ei).
      - apply default_keep; [|exact H7]. intros s' v C. apply app_inv_head in C. subst s'. intros C. apply parseInt64_iff in C. congruence. }
    open_says; try exact HD; clause. }
  destruct (hasPrefix x (s2b "tag:")) eqn:P2.
  { apply hasPrefix_iff in P2 as (r & ->). change (skipn 4 (s2b "tag:" ++ r)) with r.
    assert (HD : tag_says (l ++ [s2b "tag:" ++ r]) (match parseInt64Text r with Some i => Some i | None => t end)).
    { destruct (parseInt64Text r) as [i|] eqn:Ei.
      - apply parseInt64_iff in Ei. left. exact (last_new "tag:" l r i Ei).
      - apply tag_keep; try discriminate; [|exact H8]. intros s' v C. apply app_inv_head in C. subst s'. intros C. apply parseInt64_iff in C. congruence. }
    open_says; try exact HD; clause. }
  assert (Q1 : quiet "default:" x) by (intros s' v C; exfalso; exact (proj1 (hasPrefix_false _ _) P1 _ C)).
  assert (Q2 : quiet "tag:" x) by (intros s' v C; exfalso; exact (proj1 (hasPrefix_false _ _) P2 _ C)).
  word "set"%string; [open_says; clause|].
  word "application"%string; [open_says; clause|].
  word "private"%string; [open_says; clause|].
  word "omitempty"%string; [open_says; clause|].
  open_says; clause.
Qed.

Lemma says_nil : says [] noParams 0.
Proof.
  constructor; cbn; try (split; [discriminate|intros []]).
  - intros s v [].
  - split; [intros s v []|]. intros [[]|[[]|[]]].
  - left. split; [intros ? ? ? []|reflexivity].
  - left. split; [intros ? ? ? []|reflexivity].
Qed.
Lemma fold_says l' : forall l p time, says l p time -> says (l ++ l') (fst (fold_left fieldOption l' (p, time))) (snd (fold_left fieldOption l' (p, time))).
Proof.
  induction l' as [|x l' IH]; intros l p time H; cbn [fold_left]; [rewrite app_nil_r; exact H|].
  apply step_says with (x := x) in H. destruct (fieldOption (p, time) x) as [p' t']. cbn [fst snd] in H. specialize (IH _ _ _ H). rewrite <- app_assoc in IH. exact IH.
Qed.
