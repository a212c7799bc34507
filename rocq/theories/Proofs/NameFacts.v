(** The canonical form of names *)
From Coq Require Import String.
From Coq Require Import Lia Permutation Sorted DecimalString DecimalFacts DecimalZ Decimal.
From Verif.Model Require Import Bytes Env GoStrings PkixName.
From Verif.Spec Require Import JarManifest Nondet Names.
From Verif.Proofs Require Import BytesFacts ManifestFacts.

(** ** itoa *)
Definition oid_byte (c : byte) : Prop := (48 <= b2z c <= 57) \/ c = "-"%byte \/ c = "."%byte.
Lemma string_of_uint_digits d : Forall (fun c => 48 <= b2z c <= 57) (s2b (NilEmpty.string_of_uint d)).
Proof. induction d; cbn; constructor; try assumption; vm_compute; split; discriminate. Qed.
Lemma itoa_chars z : Forall (fun c => (48 <= b2z c <= 57) \/ c = "-"%byte) (itoa z).
Proof.
  assert (Hu : forall d, Forall (fun c => (48 <= b2z c <= 57) \/ c = "-"%byte) (s2b (NilZero.string_of_uint d))).
  { intros d. unfold NilZero.string_of_uint. destruct d;
    try (eapply Forall_impl; [|apply string_of_uint_digits]; intros a Ha; left; exact Ha).
    constructor; [|constructor]. left. vm_compute. split; discriminate. }
  unfold itoa. destruct (Z.to_int z); cbn [NilZero.string_of_int].
  - apply Hu.
  - change (s2b (String (Ascii.Ascii true false true true false true false false) (NilZero.string_of_uint d))) with ("-"%byte :: s2b (NilZero.string_of_uint d)). constructor; [right; reflexivity|apply Hu].
Qed.
Lemma s2b_inj a : forall b, s2b a = s2b b -> a = b.
Proof.
  unfold s2b. intros b H. rewrite <- (string_of_list_byte_of_string a), <- (string_of_list_byte_of_string b). congruence.
Qed.
Lemma itoa_inj x y : itoa x = itoa y -> x = y.
Proof.
  unfold itoa. intros H. apply s2b_inj in H.
  assert (Hn : forall z, NilZero.int_of_string (NilZero.string_of_int (Z.to_int z)) = Some (Z.to_int z)).
  { intros z. apply NilZero.isi. 
    - intros C. assert (Hz : Z.of_int (Z.to_int z) = Z.of_int (Pos Nil)) by (rewrite C; reflexivity). rewrite of_to in Hz. cbn in Hz. subst z. discriminate C.
    - intros C. assert (Hz : Z.of_int (Z.to_int z) = Z.of_int (Neg Nil)) by (rewrite C; reflexivity). rewrite of_to in Hz. cbn in Hz. subst z. discriminate C. }
  assert (Hi : Some (Z.to_int x) = Some (Z.to_int y)) by (rewrite <- !Hn, H; reflexivity).
  rewrite <- (of_to x), <- (of_to y). congruence.
Qed.
Lemma itoa_nonempty z : itoa z <> [].
Proof.
  unfold itoa. intros H. change (@nil byte) with (s2b "") in H. apply s2b_inj in H.
  destruct (Z.to_int z) as [d|d]; cbn [NilZero.string_of_int] in H; [|discriminate].
  unfold NilZero.string_of_uint in H. destruct d; cbn in H; discriminate.
Qed.

(** ** join *)
Lemma cut_unique (sep : byte) a b c d : ~ In sep a -> ~ In sep c -> a ++ sep :: b = c ++ sep :: d -> a = c /\ b = d.
Proof.
  revert c. induction a as [|x a IH]; intros [|y c] Ha Hc H; cbn [app] in H.
  - split; [reflexivity|congruence].
  - exfalso. apply Hc. left. congruence.
  - exfalso. apply Ha. left. congruence.
  - assert (x = y /\ a ++ sep :: b = c ++ sep :: d) as [<- H'] by (split; congruence).
    destruct (IH c (fun C => Ha (or_intror C)) (fun C => Hc (or_intror C)) H') as [<- <-]. auto.
Qed.
Lemma join_inj (sep : byte) l : forall l', l <> [] -> l' <> [] -> Forall (fun x => ~ In sep x) l -> Forall (fun x => ~ In sep x) l' ->
  joinBytes [sep] l = joinBytes [sep] l' -> l = l'.
Proof.
  assert (Hcons : forall x y t, joinBytes [sep] (x :: y :: t) = x ++ sep :: joinBytes [sep] (y :: t)) by reflexivity.
  induction l as [|x l IH]; intros [|y l'] Hne Hne' HF HF' H; try congruence.
  inversion HF as [|? ? Hx HFt]; subst. inversion HF' as [|? ? Hy HFt']; subst.
  destruct l as [|x2 l], l' as [|y2 l'].
  - cbn [joinBytes] in H. congruence.
  - exfalso. rewrite Hcons in H. cbn [joinBytes] in H. apply Hx. rewrite H. apply in_or_app. right. left. reflexivity.
  - exfalso. rewrite Hcons in H. cbn [joinBytes] in H. apply Hy. rewrite <- H. apply in_or_app. right. left. reflexivity.
  - rewrite !Hcons in H. apply cut_unique in H as [-> H]; [|assumption|assumption]. f_equal. apply IH; try discriminate; assumption.
Qed.
Lemma join_in (sep : bytes) l c : In c (joinBytes sep l) -> In c sep \/ exists x, In x l /\ In c x.
Proof.
  induction l as [|x [|y t] IH]; intros H.
  - destruct H.
  - right. exists x. split; [left; reflexivity|exact H].
  - change (joinBytes sep (x :: y :: t)) with (x ++ sep ++ joinBytes sep (y :: t)) in H.
    apply in_app_or in H as [H|H]; [right; exists x; split; [left; reflexivity|exact H]|].
    apply in_app_or in H as [H|H]; [left; exact H|]. destruct (IH H) as [H'|(z & Hz & Hc)]; [left; exact H'|right; exists z; split; [right; exact Hz|exact Hc]].
Qed.
Lemma join_map (f : byte -> byte) sep l : map f (joinBytes sep l) = joinBytes (map f sep) (map (map f) l).
Proof.
  induction l as [|x [|y t] IH]; [reflexivity|reflexivity|].
  change (joinBytes sep (x :: y :: t)) with (x ++ sep ++ joinBytes sep (y :: t)). rewrite !map_app, IH. reflexivity.
Qed.
Lemma join_snoc sep l x : l <> [] -> joinBytes sep (l ++ [x]) = joinBytes sep l ++ sep ++ x.
Proof.
  induction l as [|a [|b t] IH]; intros H; [congruence|reflexivity|].
  change ((a :: b :: t) ++ [x]) with (a :: (b :: t) ++ [x]).
  change (joinBytes sep (a :: (b :: t) ++ [x])) with (a ++ sep ++ joinBytes sep ((b :: t) ++ [x])).
  rewrite IH by discriminate. change (joinBytes sep (a :: b :: t)) with (a ++ sep ++ joinBytes sep (b :: t)).
  rewrite !app_assoc. reflexivity.
Qed.

(** ** OIDs *)
Lemma oidString_chars o : Forall oid_byte (oidString o).
Proof.
  apply Forall_forall. intros c Hc. unfold oidString in Hc. apply join_in in Hc as [[<-|[]]|(x & Hx & Hc)]; [right; right; reflexivity|].
  apply in_map_iff in Hx as (z & <- & _). pose proof (itoa_chars z) as HF. rewrite Forall_forall in HF. destruct (HF c Hc) as [H|H]; [left; exact H|right; left; exact H].
Qed.
Lemma oidString_inj a b : oidString a = oidString b -> a = b.
Proof.
  unfold oidString. intros H.
  assert (HF : forall o, Forall (fun x => ~ In "."%byte x) (map itoa o)).
  { intros o. apply Forall_forall. intros x Hx. apply in_map_iff in Hx as (z & <- & _). intros C. pose proof (itoa_chars z) as Hc. rewrite Forall_forall in Hc.
    destruct (Hc _ C) as [Hd|Hd]; [vm_compute in Hd; destruct Hd as [Hd _]; apply Hd; reflexivity|discriminate Hd]. }
  assert (Hinj : map itoa a = map itoa b -> a = b).
  { clear. revert b. induction a as [|x a IH]; intros [|y b] H; [reflexivity|discriminate|discriminate|].
    cbn [map] in H. f_equal; [apply itoa_inj; congruence|apply IH; congruence]. }
  assert (Hnil : forall o, joinBytes (s2b ".") (map itoa o) = [] -> o = []).
  { intros [|x [|y t]] Hj; [reflexivity|exfalso; apply (itoa_nonempty x); exact Hj|exfalso].
    change (joinBytes (s2b ".") (map itoa (x :: y :: t))) with (itoa x ++ s2b "." ++ joinBytes (s2b ".") (map itoa (y :: t))) in Hj.
    apply app_eq_nil in Hj as [Hj _]. exact (itoa_nonempty x Hj). }
  destruct a as [|x a].
  { symmetry in H. change (joinBytes (s2b ".") (map itoa [])) with (@nil byte) in H. rewrite (Hnil b H). reflexivity. }
  destruct b as [|y b].
  { change (joinBytes (s2b ".") (map itoa [])) with (@nil byte) in H. apply Hnil in H. discriminate. }
  apply Hinj. apply (join_inj "."%byte); [discriminate|discriminate|apply HF|apply HF|exact H].
Qed.
Lemma lower_oid_byte c : oid_byte c -> lower_byte c = c.
Proof.
  intros H. unfold lower_byte. destruct H as [H|[-> | ->]]; [|reflexivity|reflexivity].
  destruct (Z.leb_spec 65 (b2z c)); [lia|reflexivity].
Qed.
Lemma lower_oid s : Forall oid_byte s -> lower s = s.
Proof. unfold lower. induction 1 as [|c t Hc _ IH]; [reflexivity|]. cbn [map]. rewrite lower_oid_byte by exact Hc. rewrite IH. reflexivity. Qed.

(** ** Values *)
Lemma dropSpaces_nonspace l : match l with c :: _ => c <> x20 | [] => True end -> dropSpaces l = l.
Proof. destruct l as [|c t]; [reflexivity|]. intros H. cbn [dropSpaces]. rewrite byte_eqb_neq by exact H. reflexivity. Qed.
Lemma trim_snoc b c : c <> x20 -> trimRightSpaces (b ++ [c]) = b ++ [c].
Proof. intros H. unfold trimRightSpaces. rewrite dropSpaces_nonspace; [apply rev_involutive|]. rewrite rev_app_distr. exact H. Qed.
Lemma trim_space b : trimRightSpaces (b ++ [x20]) = trimRightSpaces b.
Proof. unfold trimRightSpaces. rewrite rev_app_distr. reflexivity. Qed.

(** The words read so far [W], the current word [cur], and the buffer. *)
Inductive canon_state : list bytes -> bytes -> bytes -> Prop :=
| CsEmpty : canon_state [] [] []
| CsWord W w c : canon_state W (w ++ [c]) (joinBytes [x20] (W ++ [w ++ [c]]))
| CsSpace W w c : canon_state (W ++ [w ++ [c]]) [] (joinBytes [x20] (W ++ [w ++ [c]]) ++ [x20]).

Definition no_special (c : byte) : Prop := isEscaped c = true -> c = z2b 92.
Lemma last_snoc {A} (l : list A) x d : last (l ++ [x]) d = x.
Proof. induction l as [|a [|b t] IH]; [reflexivity|reflexivity|exact IH]. Qed.
Lemma join_word_end W w c : exists b, joinBytes [x20] (W ++ [w ++ [c]]) = b ++ [c].
Proof.
  destruct W as [|a W]; [exists w; reflexivity|]. rewrite join_snoc by discriminate. exists (joinBytes [x20] (a :: W) ++ [x20] ++ w). rewrite <- !app_assoc. reflexivity.
Qed.
Definition last_not_space (W : list bytes) : Prop := forall W' w c, W = W' ++ [w ++ [c]] -> c <> x20.

Lemma last_space b : forall x r, b ++ [x20] = x :: r -> byte_eqb (last (x :: r) x) x20 = true.
Proof. intros x r <-. rewrite last_snoc. apply byte_eqb_refl. Qed.

Lemma canonLoop_words s : forall W cur buf, canon_state W cur buf -> Forall no_special s -> ~ In x20 cur ->
  (W <> [] -> exists W' w c, W = W' ++ [w ++ [c]] /\ c <> x20) ->
  trimRightSpaces (canonLoop s buf) = joinBytes [x20] (W ++ words_from cur s).
Proof.
  induction s as [|x s IH]; intros W cur buf Hst Hs Hcur HW.
  - cbn [canonLoop words_from]. destruct Hst as [|W w c|W w c].
    + reflexivity.
    + assert (Hm : match w ++ [c] with [] => [] | _ :: _ => [w ++ [c]] end = [w ++ [c]]) by (destruct (w ++ [c]) eqn:Ew; [destruct w; discriminate|reflexivity]).
      rewrite Hm. destruct (join_word_end W w c) as [b Hb]. rewrite Hb. apply trim_snoc. intros ->. apply Hcur. apply in_or_app. right. left. reflexivity.
    + rewrite app_nil_r, trim_space. destruct (join_word_end W w c) as [b Hb]. rewrite Hb. apply trim_snoc.
      destruct HW as (W' & w' & c' & Heq & Hc'); [destruct W; discriminate|].
      apply app_inj_tail in Heq as [_ Heq]. apply app_inj_tail in Heq as [_ ->]. exact Hc'.
  - inversion Hs as [|? ? Hx Hs']; subst. cbn [canonLoop words_from]. unfold no_special in Hx.
    assert (Hi : forall buf0 : bytes, (if isEscaped x then buf0 ++ ["\"%byte] else buf0 ++ [x]) = buf0 ++ [x]) by (intro; destruct (isEscaped x); [rewrite (Hx eq_refl)|]; reflexivity). rewrite !Hi. clear Hi.
    destruct (byte_eqb x x20) eqn:Ex.
    + apply byte_eqb_eq in Ex. subst x. destruct Hst as [|W w c|W w c].
      * cbn [app]. apply (IH [] [] []); [constructor|exact Hs'|intros []|congruence].
      * assert (Hcs : c <> x20) by (intros ->; apply Hcur; apply in_or_app; right; left; reflexivity).
        destruct (join_word_end W w c) as [b Hb].
        assert (Hbuf : match joinBytes [x20] (W ++ [w ++ [c]]) with [] => joinBytes [x20] (W ++ [w ++ [c]])
                       | b0 :: r => if byte_eqb (last (b0 :: r) b0) x20 then joinBytes [x20] (W ++ [w ++ [c]]) else joinBytes [x20] (W ++ [w ++ [c]]) ++ [x20] end
                       = joinBytes [x20] (W ++ [w ++ [c]]) ++ [x20]).
        { rewrite Hb. destruct (b ++ [c]) as [|b0 r] eqn:Eb; [destruct b; discriminate|]. rewrite <- Eb at 1. rewrite last_snoc, byte_eqb_neq by exact Hcs. reflexivity. }
        rewrite Hbuf.
        assert (Hm : match w ++ [c] with [] => [] | _ :: _ => [w ++ [c]] end = [w ++ [c]]) by (destruct (w ++ [c]) eqn:Ew; [destruct w; discriminate|reflexivity]).
        rewrite Hm, app_assoc. apply IH; [constructor|exact Hs'|intros []|]. intros _. exists W, w, c. auto.
      * destruct (joinBytes [x20] (W ++ [w ++ [c]]) ++ [x20]) as [|b0 r] eqn:Eb; [destruct (joinBytes [x20] (W ++ [w ++ [c]])); discriminate|].
        rewrite (last_space _ _ _ Eb). cbn [app]. rewrite <- Eb. apply IH; [constructor|exact Hs'|intros []|exact HW].
    + assert (Hne : x <> x20) by (intros ->; rewrite byte_eqb_refl in Ex; discriminate).
      assert (Hcur' : forall cu, ~ In x20 cu -> ~ In x20 (cu ++ [x])) by (intros cu Hc C; apply in_app_or in C as [C|[C|[]]]; [exact (Hc C)|congruence]).
      destruct Hst as [|W w c|W w c].
      * apply (IH [] ([] ++ [x]) ([] ++ [x])); [exact (CsWord [] [] x)|exact Hs'|apply Hcur'; intros []|congruence].
      * assert (Hb : joinBytes [x20] (W ++ [w ++ [c]]) ++ [x] = joinBytes [x20] (W ++ [(w ++ [c]) ++ [x]])).
        { destruct W as [|a W]; [reflexivity|]. rewrite !join_snoc by discriminate. rewrite <- !app_assoc. reflexivity. }
        rewrite Hb. apply IH; [constructor|exact Hs'|apply Hcur'; exact Hcur|exact HW].
      * assert (Hb : (joinBytes [x20] (W ++ [w ++ [c]]) ++ [x20]) ++ [x] = joinBytes [x20] ((W ++ [w ++ [c]]) ++ [[] ++ [x]])).
        { rewrite (join_snoc [x20] (W ++ [w ++ [c]])) by (destruct W; discriminate). rewrite <- !app_assoc. reflexivity. }
        rewrite Hb. apply IH; [constructor|exact Hs'|apply Hcur'; intros []|exact HW].
Qed.

Lemma isEscaped_special c : isEscaped c = true <-> In c special.
Proof.
  unfold isEscaped, special. rewrite existsb_exists. split.
  - intros (x & Hx & He). apply byte_eqb_eq in He as ->. exact Hx.
  - intros H. exists c. split; [exact H|apply byte_eqb_refl].
Qed.
Definition seps : list byte := map z2b [34; 44; 43; 60; 62; 59].
Definition wchar (c : byte) : byte := if existsb (byte_eqb c) special then z2b 92 else c.
Lemma wchar_escaped c : wchar c = if isEscaped c then "\"%byte else c.
Proof. reflexivity. Qed.
Lemma canonLoop_written s : forall buf, canonLoop s buf = canonLoop (map wchar s) buf.
Proof.
  induction s as [|c s IH]; intro buf; [reflexivity|]. cbn [map canonLoop]. rewrite IH. f_equal. rewrite wchar_escaped.
  destruct (isEscaped c) eqn:Ec; [|rewrite Ec; reflexivity].
  assert (Hs : byte_eqb c x20 = false). { apply byte_eqb_neq. intros ->. vm_compute in Ec. discriminate. } rewrite Hs. reflexivity.
Qed.
Lemma wchar_no_special c : no_special (wchar c).
Proof. unfold no_special. rewrite wchar_escaped. destruct (isEscaped c) eqn:Ec; [reflexivity|congruence]. Qed.
Lemma written_no_special s : Forall no_special (written s).
Proof.
  unfold written. apply Forall_app. split.
  - destruct s as [|c s]; [constructor|]. destruct (byte_eqb c (z2b 35)); [|constructor]. constructor; [intros _; reflexivity|constructor].
  - apply Forall_forall. intros x Hx. apply in_map_iff in Hx as (c & <- & _). exact (wchar_no_special c).
Qed.
Lemma canonValue_written s : canonValue (AvString s) = joinBytes [x20] (words (written s)).
Proof.
  destruct s as [|c t]; [reflexivity|]. transitivity (trimRightSpaces (canonLoop (written (c :: t)) [])).
  - unfold canonValue, written. change (z2b 35) with "#"%byte. destruct (byte_eqb c "#"%byte) eqn:Ec.
    + apply byte_eqb_eq in Ec. subst c. rewrite (canonLoop_written t). reflexivity.
    + rewrite (canonLoop_written (c :: t)). reflexivity.
  - rewrite (canonLoop_words (written (c :: t)) [] [] []); [reflexivity|constructor|apply written_no_special|intros []|congruence].
Qed.
Lemma written_chars s : Forall (fun c => b2z c < 128) s -> Forall (fun c => b2z c < 128 /\ ~ In c seps) (written s).
Proof.
  intros HF. unfold written. apply Forall_app. split.
  - destruct s as [|c s]; [constructor|]. destruct (byte_eqb c (z2b 35)); [|constructor]. constructor; [|constructor]. split; [reflexivity|].
    intros C. repeat (destruct C as [C|C]; [discriminate C|]). destruct C.
  - apply Forall_forall. intros x Hx. apply in_map_iff in Hx as (c & <- & Hc). rewrite Forall_forall in HF. specialize (HF c Hc).
    change (b2z (wchar c) < 128 /\ ~ In (wchar c) seps). rewrite wchar_escaped. destruct (isEscaped c) eqn:Ec.
    + split; [reflexivity|]. intros C. repeat (destruct C as [C|C]; [discriminate C|]). destruct C.
    + split; [exact HF|]. intros C. assert (isEscaped c = true); [|congruence]. apply isEscaped_special. unfold seps, special in *. cbn in *. tauto.
Qed.
(** Related once written. *)
Definition like (a b : atav) : Prop := same_attr (written_attr a) (written_attr b).
Lemma like_types a b : like a b -> at_type a = at_type b.
Proof. intros [H _]. exact H. Qed.
Lemma words_from_chars s : forall cur w, In w (words_from cur s) -> ~ In x20 cur -> w <> [] /\ ~ In x20 w /\ forall c, In c w -> In c cur \/ In c s.
Proof.
  induction s as [|x s IH]; intros cur w Hw Hc; cbn [words_from] in Hw.
  - destruct cur as [|a cur]; [destruct Hw|]. destruct Hw as [<-|[]]. split; [discriminate|]. split; [exact Hc|auto].
  - destruct (byte_eqb x x20) eqn:Ex.
    + apply in_app_or in Hw as [Hw|Hw].
      * destruct cur as [|a cur]; [destruct Hw|]. destruct Hw as [<-|[]]. split; [discriminate|]. split; [exact Hc|auto].
      * destruct (IH [] w Hw) as (H1 & H2 & H3); [intros []|]. split; [exact H1|]. split; [exact H2|]. intros c Hcw. destruct (H3 c Hcw) as [[]|H]. right. right. exact H.
    + assert (Hne : x <> x20) by (intros ->; rewrite byte_eqb_refl in Ex; discriminate).
      destruct (IH (cur ++ [x]) w Hw) as (H1 & H2 & H3); [intros C; apply in_app_or in C as [C|[C|[]]]; [exact (Hc C)|congruence]|].
      split; [exact H1|]. split; [exact H2|]. intros c Hcw. destruct (H3 c Hcw) as [H|H]; [|right; right; exact H].
      apply in_app_or in H as [H|[H|[]]]; [left; exact H|right; left; exact H].
Qed.
Lemma lower_space c : lower_byte c = x20 -> c = x20.
Proof.
  unfold lower_byte. destruct ((65 <=? b2z c) && (b2z c <=? 90)) eqn:E; [|auto].
  apply andb_true_iff in E as [E1 E2]. apply Z.leb_le in E1, E2. intros H.
  assert (Hb : b2z (z2b (b2z c + 32)) = 32) by (rewrite H; reflexivity). rewrite b2z_z2b, Z.mod_small in Hb by lia. lia.
Qed.
Lemma words_clean s w : In w (words s) -> w <> [] /\ ~ In x20 w.
Proof. intros H. destruct (words_from_chars s [] w H) as (H1 & H2 & _); [intros []|]. auto. Qed.
Lemma fold_inj a b : lower (joinBytes [x20] (words a)) = lower (joinBytes [x20] (words b)) -> same_text a b.
Proof.
  unfold same_text, lower. rewrite !join_map. change (map lower_byte [x20]) with [x20]. intros H.
  assert (HF : forall s, Forall (fun x => ~ In x20 x) (map (map lower_byte) (words s))).
  { intros s. apply Forall_forall. intros x Hx. apply in_map_iff in Hx as (w & <- & Hw). intros C. apply in_map_iff in C as (c & Hc & Hcw).
    apply lower_space in Hc. subst c. exact (proj2 (words_clean s w Hw) Hcw). }
  assert (Hnil : forall s, joinBytes [x20] (map (map lower_byte) (words s)) = [] -> words s = []).
  { intros s Hs. destruct (words s) as [|w [|w2 t]] eqn:Ew; [reflexivity| |].
    - exfalso. cbn in Hs. destruct w as [|c w]; [|discriminate]. refine (proj1 (words_clean s [] _) eq_refl). rewrite Ew; left; reflexivity.
    - exfalso. change (joinBytes [x20] (map (map lower_byte) (w :: w2 :: t))) with (map lower_byte w ++ [x20] ++ joinBytes [x20] (map (map lower_byte) (w2 :: t))) in Hs.
      apply app_eq_nil in Hs as [_ Hs]. discriminate. }
  destruct (words a) as [|x wa] eqn:Ea.
  { symmetry in H. rewrite (Hnil b H). reflexivity. }
  destruct (words b) as [|y wb] eqn:Eb.
  { change (joinBytes [x20] (map (map lower_byte) [])) with (@nil byte) in H. rewrite <- Ea in H. apply Hnil in H. congruence. }
  change (fun s => map lower_byte s) with (map lower_byte). apply (join_inj x20); [discriminate|discriminate| | |exact H].
  - rewrite <- Ea. apply HF.
  - rewrite <- Eb. apply HF.
Qed.
Lemma fold_same a b : same_text a b -> lower (joinBytes [x20] (words a)) = lower (joinBytes [x20] (words b)).
Proof. unfold same_text. intros H. unfold lower in *. rewrite !join_map. f_equal. exact H. Qed.

(** ** Attributes, relative names, names *)
Definition attrText (a : atav) : bytes := oidString (at_type a) ++ s2b "=" ++ canonValue (at_value a).
Lemma plain_value_chars a : ascii_attr a -> Forall (fun c => b2z c < 128 /\ ~ In c seps) (canonValue (at_value a)).
Proof.
  intros (s & Hv & Hp). rewrite Hv, canonValue_written. apply written_chars in Hp. apply Forall_forall. intros c Hc.
  apply join_in in Hc as [[<-|[]]|(w & Hw & Hc)].
  - split; [reflexivity|]. intros C. repeat (destruct C as [C|C]; [discriminate C|]). destruct C.
  - rewrite Forall_forall in Hp. destruct (words_from_chars (written s) [] w Hw) as (_ & _ & H); [intros []|]. destruct (H c Hc) as [[]|Hs]. exact (Hp c Hs).
Qed.
Lemma attrText_chars a : ascii_attr a -> Forall (fun c => b2z c < 128 /\ ~ In c seps) (attrText a).
Proof.
  intros Hp. unfold attrText. apply Forall_app. split; [|apply Forall_app; split; [|apply plain_value_chars; exact Hp]].
  - eapply Forall_impl; [|apply oidString_chars]. intros c [H|[-> | ->]].
    + split; [lia|]. intros C. repeat (destruct C as [C|C]; [subst c; vm_compute in H; destruct H as [H1 H2]; first [apply H1; reflexivity|apply H2; reflexivity]|]). destruct C.
    + split; [reflexivity|]. intros C. repeat (destruct C as [C|C]; [discriminate C|]). destruct C.
    + split; [reflexivity|]. intros C. repeat (destruct C as [C|C]; [discriminate C|]). destruct C.
  - constructor; [|constructor]. split; [reflexivity|]. intros C. repeat (destruct C as [C|C]; [discriminate C|]). destruct C.
Qed.
Lemma special_range x : In x seps -> b2z x < 97 \/ 122 < b2z x.
Proof. intros Hx. repeat (destruct Hx as [Hx|Hx]; [subst x; vm_compute; left; reflexivity|]). destruct Hx. Qed.
Lemma lower_special c x : In x seps -> lower_byte c = x -> c = x.
Proof.
  unfold lower_byte. destruct ((65 <=? b2z c) && (b2z c <=? 90)) eqn:E; [|auto].
  apply andb_true_iff in E as [E1 E2]. apply Z.leb_le in E1, E2. intros Hx H.
  assert (Hb : b2z x = b2z c + 32) by (rewrite <- H, b2z_z2b; apply Z.mod_small; lia). exfalso.
  destruct (special_range x Hx); lia.
Qed.
Lemma lower_no_special x s : In x seps -> Forall (fun c => b2z c < 128 /\ ~ In c seps) s -> ~ In x (lower s).
Proof.
  intros Hx HF C. unfold lower in C. apply in_map_iff in C as (c & Hc & Hin). rewrite Forall_forall in HF. apply lower_special in Hc; [|exact Hx]. subst c.
  exact (proj2 (HF x Hin) Hx).
Qed.
Lemma attrText_inj a b : ascii_attr a -> ascii_attr b -> lower (attrText a) = lower (attrText b) -> like a b.
Proof.
  intros (x & Hx & Hpx) (y & Hy & Hpy) H. unfold attrText in H. rewrite Hx, Hy, !canonValue_written in H.
  assert (Hl : forall o s, lower (oidString o ++ s2b "=" ++ s) = oidString o ++ "="%byte :: lower s).
  { intros o s. unfold lower. rewrite !map_app. fold (lower (oidString o)). rewrite (lower_oid _ (oidString_chars o)). reflexivity. }
  rewrite !Hl in H.
  assert (Hno : forall o, ~ In "="%byte (oidString o)).
  { intros o C. pose proof (oidString_chars o) as HF. rewrite Forall_forall in HF. destruct (HF _ C) as [D|[D|D]]; [vm_compute in D; destruct D as [_ D]; apply D; reflexivity|discriminate D|discriminate D]. }
  apply cut_unique in H as [H1 H2]; [|apply Hno|apply Hno]. split; [apply oidString_inj; exact H1|]. exists (written x), (written y). cbn [written_attr at_value]. rewrite Hx, Hy. split; [reflexivity|]. split; [reflexivity|]. apply fold_inj. exact H2.
Qed.

Lemma map_inj_in {A B} (f : A -> B) (R : A -> A -> Prop) l : forall l', (forall x y, In x l -> In y l' -> f x = f y -> R x y) -> map f l = map f l' -> Forall2 R l l'.
Proof.
  induction l as [|x l IH]; intros [|y l'] Hf H; [constructor|discriminate|discriminate|]. cbn [map] in H. constructor.
  - apply Hf; [left; reflexivity|left; reflexivity|congruence].
  - apply IH; [|congruence]. intros u v Hu Hv. apply Hf; right; assumption.
Qed.

Lemma oidLess_irrefl o : oidLess o o = false.
Proof. induction o as [|x o IH]; [reflexivity|]. cbn [oidLess]. rewrite Z.ltb_irrefl. destruct o; [reflexivity|exact IH]. Qed.
Lemma oidLess_total a : forall b, a <> [] -> b <> [] -> oidLess a b = false -> oidLess b a = false -> a = b.
Proof.
  induction a as [|x a IH]; intros [|y b] Ha Hb H1 H2; try congruence. cbn [oidLess] in H1, H2.
  destruct (Z.ltb_spec x y); [discriminate|]. destruct (Z.ltb_spec y x); [discriminate|].
  f_equal; [lia|]. destruct a as [|x2 a], b as [|y2 b]; [reflexivity|discriminate|discriminate|]. apply IH; congruence.
Qed.
Lemma oidLess_trans a : forall b c, oidLess a b = true -> oidLess b c = true -> oidLess a c = true.
Proof.
  induction a as [|x a IH]; intros [|y b] [|z c] H1 H2; try discriminate. cbn [oidLess] in *.
  destruct (Z.ltb_spec x y), (Z.ltb_spec y z), (Z.ltb_spec x z), (Z.ltb_spec y x), (Z.ltb_spec z y), (Z.ltb_spec z x); try reflexivity; try lia; try discriminate.
  destruct a as [|x2 a], b as [|y2 b], c as [|z2 c]; try reflexivity; try discriminate. apply IH with (y2 :: b); assumption.
Qed.

Definition like_dn (a b : rdn_seq) : Prop := Forall2 (fun x y => exists y', Permutation y y' /\ Forall2 like x y') a b.
Lemma Forall2_mapped {A B C D} (f : A -> C) (g : B -> D) (R : C -> D -> Prop) l l' : Forall2 R (map f l) (map g l') <-> Forall2 (fun x y => R (f x) (g y)) l l'.
Proof.
  split.
  - revert l'. induction l as [|x l IH]; intros [|y l'] H; inversion H; subst; constructor; auto.
  - induction 1; constructor; auto.
Qed.
Lemma Forall2_weaken {A B} (R R' : A -> B -> Prop) l l' : (forall x y, R x y -> R' x y) -> Forall2 R l l' -> Forall2 R' l l'.
Proof. intros H. induction 1; constructor; auto. Qed.
Lemma like_dn_written a b : like_dn a b <-> same_dn (written_name a) (written_name b).
Proof.
  unfold like_dn, same_dn, written_name. rewrite Forall2_mapped. split; intro H; (eapply Forall2_weaken; [|exact H]); intros x y (y' & P & F); clear H.
  - exists (map written_attr y'). split; [apply Permutation_map; exact P|]. exact (proj2 (Forall2_mapped written_attr written_attr same_attr x y') F).
  - apply Permutation_sym, Permutation_map_inv in P as (z & -> & P). exists z. split; [exact P|]. exact (proj1 (Forall2_mapped written_attr written_attr same_attr x z) F).
Qed.
(** Plain names are written as they are. *)
Lemma written_plain s : plain_text s -> written s = s.
Proof.
  intros [HF H35]. unfold written. destruct s as [|c t]; [reflexivity|].
  assert (Hc : byte_eqb c (z2b 35) = false) by (apply byte_eqb_neq; intros ->; apply (H35 t); reflexivity). rewrite Hc. cbn [app].
  assert (Hm : forall l, Forall (fun c => b2z c < 128 /\ ~ In c special) l -> map (fun c => if existsb (byte_eqb c) special then z2b 92 else c) l = l); [|exact (Hm _ HF)].
  induction 1 as [|x l [_ Hx] _ IH]; [reflexivity|]. cbn [map]. rewrite IH. change (existsb (byte_eqb x) special) with (isEscaped x).
  destruct (isEscaped x) eqn:Ex; [|reflexivity]. apply isEscaped_special in Ex. contradiction.
Qed.
Lemma plain_ascii n : plain_name n -> ascii_name n.
Proof.
  intro H. eapply Forall_impl; [|exact H]. intros r [Hr Ha]. split; [exact Hr|]. eapply Forall_impl; [|exact Ha].
  intros x (s & Hv & Hp & _). exists s. split; [exact Hv|]. eapply Forall_impl; [|exact Hp]. intros c [Hc _]. exact Hc.
Qed.
Lemma written_plain_name n : plain_name n -> written_name n = n.
Proof.
  intro H. unfold written_name. induction H as [|r n [_ Ha] _ IH]; [reflexivity|]. cbn [map]. f_equal; [|exact IH]. clear IH. induction Ha as [|x r (s & Hv & Hp) _ IH]; [reflexivity|].
  cbn [map]. f_equal; [|exact IH]. unfold written_attr. rewrite Hv, (written_plain s Hp). destruct x; cbn in *. congruence.
Qed.

Section Names.
  Variable E : env.
  Variable S : sched.
  Hypothesis HS : sched_ok S.
  Hypothesis HL : lowers_ascii E.

  Lemma canonRdn_eq l : canonRdn S l = joinBytes ["+"%byte] (map attrText (srt S _ x501Less l)).
  Proof. reflexivity. Qed.
  Lemma srt_plain l : Forall ascii_attr l -> Forall ascii_attr (srt S _ x501Less l).
  Proof. intros H. rewrite Forall_forall in *. intros x Hx. apply H. apply Permutation_in with (1 := srt_perm S HS _ x501Less l). exact Hx. Qed.
  Lemma comma_special : In ","%byte seps.
  Proof. do 1 right. left. reflexivity. Qed.
  Lemma plus_special : In "+"%byte seps.
  Proof. do 2 right. left. reflexivity. Qed.
  Lemma rdn_chars l c : Forall ascii_attr l -> In c (canonRdn S l) -> b2z c < 128 /\ c <> ","%byte.
  Proof.
    intros Hp H. rewrite canonRdn_eq in H. apply join_in in H as [[<-|[]]|(x & Hx & Hc)]; [split; [reflexivity|discriminate]|].
    apply in_map_iff in Hx as (a & <- & Ha). pose proof (srt_plain l Hp) as Hs. rewrite Forall_forall in Hs.
    pose proof (attrText_chars a (Hs a Ha)) as HF. rewrite Forall_forall in HF. destruct (HF c Hc) as [H1 H2]. split; [exact H1|]. intros ->. exact (H2 comma_special).
  Qed.
  Lemma srt_nonempty l : l <> [] -> srt S _ x501Less l <> [].
  Proof. intros H C. apply H. apply Permutation_nil. rewrite <- C. apply srt_perm. exact HS. Qed.
  Lemma canonRdn_inj a b : a <> [] -> b <> [] -> Forall ascii_attr a -> Forall ascii_attr b -> lower (canonRdn S a) = lower (canonRdn S b) ->
    exists b', Permutation b b' /\ Forall2 like a b'.
  Proof.
    intros Ha Hb Hpa Hpb H. rewrite !canonRdn_eq in H. unfold lower in H. rewrite !join_map in H. change (map lower_byte ["+"%byte]) with ["+"%byte] in H.
    rewrite !map_map in H.
    assert (HF : forall l, Forall ascii_attr l -> Forall (fun x => ~ In "+"%byte x) (map (fun x => map lower_byte (attrText x)) (srt S _ x501Less l))).
    { intros l Hl. apply Forall_forall. intros x Hx. apply in_map_iff in Hx as (y & <- & Hy). pose proof (srt_plain l Hl) as Hs. rewrite Forall_forall in Hs.
      apply (lower_no_special "+"%byte (attrText y) plus_special). apply attrText_chars. exact (Hs y Hy). }
    assert (Hne : forall l, l <> [] -> map (fun x => map lower_byte (attrText x)) (srt S _ x501Less l) <> []).
    { intros l Hl C. apply (srt_nonempty l Hl). destruct (srt S _ x501Less l); [reflexivity|discriminate]. }
    apply (join_inj "+"%byte) in H; [|apply Hne; exact Ha|apply Hne; exact Hb|apply HF; exact Hpa|apply HF; exact Hpb].
    pose proof (srt_plain a Hpa) as Hsa. pose proof (srt_plain b Hpb) as Hsb. rewrite Forall_forall in Hsa, Hsb.
    apply (map_inj_in _ like) in H.
    - destruct (Permutation_Forall2 (srt_perm S HS _ x501Less a) H) as (b' & Hb' & HF2). exists b'. split; [|exact HF2].
      apply Permutation_trans with (2 := Hb'). apply Permutation_sym. apply srt_perm. exact HS.
    - intros x y Hx Hy Hxy. apply attrText_inj; [exact (Hsa x Hx)|exact (Hsb y Hy)|exact Hxy].
  Qed.
  Lemma canonical_lower n : ascii_name n -> pkixCanonical E S n = lower (joinBytes [","%byte] (map (canonRdn S) (rev n))).
  Proof.
    intros Hn. unfold pkixCanonical. apply HL. apply Forall_forall. intros c Hc. apply join_in in Hc as [[<-|[]]|(x & Hx & Hc)]; [reflexivity|].
    apply in_map_iff in Hx as (r & <- & Hr). apply in_rev in Hr. unfold ascii_name in Hn. rewrite Forall_forall in Hn. destruct (Hn r Hr) as [_ Hp]. exact (proj1 (rdn_chars r c Hp Hc)).
  Qed.
  Lemma canonical_distinct a b : ascii_name a -> ascii_name b -> pkixCanonical E S a = pkixCanonical E S b -> like_dn a b.
  Proof.
    intros Ha Hb H. rewrite !canonical_lower in H by assumption. unfold lower in H. rewrite !join_map in H. change (map lower_byte [","%byte]) with [","%byte] in H.
    rewrite !map_map in H. unfold ascii_name in Ha, Hb.
    assert (HF : forall n, Forall (fun r : list atav => r <> [] /\ Forall ascii_attr r) n -> Forall (fun x => ~ In ","%byte x) (map (fun x => map lower_byte (canonRdn S x)) (rev n))).
    { intros n Hn. apply Forall_forall. intros x Hx. apply in_map_iff in Hx as (r & <- & Hr). apply in_rev in Hr. rewrite Forall_forall in Hn. destruct (Hn r Hr) as [_ Hp].
      intros C. apply in_map_iff in C as (c & Hc & Hin). apply (lower_special _ _ comma_special) in Hc. subst c. exact (proj2 (rdn_chars r _ Hp Hin) eq_refl). }
    assert (Hnil : forall n, Forall (fun r : list atav => r <> [] /\ Forall ascii_attr r) n -> joinBytes [","%byte] (map (fun x => map lower_byte (canonRdn S x)) (rev n)) = [] -> n = []).
    { intros n Hn Hj. assert (Hr : rev n = []); [|rewrite <- (rev_involutive n), Hr; reflexivity].
      apply Forall_rev in Hn. destruct (rev n) as [|r [|r2 t]]; [reflexivity| |].
      - exfalso. cbn [map joinBytes] in Hj. apply map_eq_nil in Hj. inversion Hn as [|? ? [Hr _] _]; subst. rewrite canonRdn_eq in Hj.
        pose proof (srt_nonempty r Hr) as Hs. destruct (srt S _ x501Less r) as [|x [|y u]]; [congruence| |].
        + cbn [map joinBytes] in Hj. unfold attrText in Hj. apply app_eq_nil in Hj as [_ Hj]. discriminate.
        + change (joinBytes ["+"%byte] (map attrText (x :: y :: u))) with (attrText x ++ ["+"%byte] ++ joinBytes ["+"%byte] (map attrText (y :: u))) in Hj.
          apply app_eq_nil in Hj as [_ Hj]. discriminate.
      - exfalso. cbn [map] in Hj. match type of Hj with joinBytes _ (?x :: ?y :: ?u) = _ => change (joinBytes [","%byte] (x :: y :: u)) with (x ++ [","%byte] ++ joinBytes [","%byte] (y :: u)) in Hj end.
        apply app_eq_nil in Hj as [_ Hj]. discriminate. }
    assert (Hrev : map (fun x => map lower_byte (canonRdn S x)) (rev a) = map (fun x => map lower_byte (canonRdn S x)) (rev b)).
    { destruct a as [|r a].
      - symmetry in H. change (joinBytes [","%byte] (map (fun x => map lower_byte (canonRdn S x)) (rev []))) with (@nil byte) in H. rewrite (Hnil b Hb H). reflexivity.
      - destruct b as [|r' b].
        + change (joinBytes [","%byte] (map (fun x => map lower_byte (canonRdn S x)) (rev []))) with (@nil byte) in H. apply (Hnil _ Ha) in H. discriminate.
        + assert (Hne : forall (x : list atav) l, map (fun x => map lower_byte (canonRdn S x)) (rev (x :: l)) <> []).
          { intros x l C. apply map_eq_nil in C. cbn [rev] in C. destruct (rev l); discriminate. }
          apply (join_inj ","%byte); [apply Hne|apply Hne|apply HF; exact Ha|apply HF; exact Hb|exact H]. }
    rewrite !map_rev in Hrev. assert (Hm : map (fun x => map lower_byte (canonRdn S x)) a = map (fun x => map lower_byte (canonRdn S x)) b).
    { rewrite <- (rev_involutive (map (fun x => map lower_byte (canonRdn S x)) a)), Hrev, rev_involutive. reflexivity. }
    rewrite Forall_forall in Ha, Hb. unfold like_dn. refine (map_inj_in _ _ _ _ _ Hm).
    intros x y Hx Hy Hxy. destruct (Ha x Hx) as [Hx1 Hx2]. destruct (Hb y Hy) as [Hy1 Hy2]. apply canonRdn_inj; assumption.
  Qed.

  (** ** The order of attributes *)
  Lemma x501_swo l : ~ In [] (map at_type l) -> strict_weak x501Less l.
  Proof.
    intros Hne. assert (Hn : forall x, In x l -> at_type x <> []) by (intros x Hx C; apply Hne; rewrite <- C; apply in_map; exact Hx).
    unfold x501Less. split; [|split].
    - intros x _. apply oidLess_irrefl.
    - intros x y z Hx Hy Hz. apply oidLess_trans.
    - intros x y z Hx Hy Hz H1 H2 H3 H4. assert (Hxz : at_type x = at_type z).
      { transitivity (at_type y); apply oidLess_total; auto. }
      rewrite Hxz. split; apply oidLess_irrefl.
  Qed.
  Lemma sorted_types l l' : StronglySorted (fun x y => x501Less y x = false) l -> StronglySorted (fun x y => x501Less y x = false) l' ->
    distinct_types l -> distinct_types l' -> Permutation (map at_type l) (map at_type l') -> map at_type l = map at_type l'.
  Proof.
    intros H. revert l'. induction H as [|x l H IH F]; intros l' H' (Hd & Hn) (Hd' & Hn') P.
    - apply Permutation_nil in P. rewrite P. reflexivity.
    - destruct H' as [|y l' H' F']; [symmetry in P; apply Permutation_nil in P; discriminate|]. cbn [map] in *.
      assert (Hxy : at_type x = at_type y).
      { assert (Hx : In (at_type x) (at_type y :: map at_type l')) by (eapply Permutation_in; [exact P|left; reflexivity]).
        assert (Hy : In (at_type y) (at_type x :: map at_type l)) by (eapply Permutation_in; [symmetry; exact P|left; reflexivity]).
        destruct Hx as [Hx|Hx]; [congruence|]. destruct Hy as [Hy|Hy]; [congruence|].
        apply in_map_iff in Hx as (u & Hu & Hin). apply in_map_iff in Hy as (v & Hv & Hin').
        rewrite Forall_forall in F, F'. specialize (F v Hin'). specialize (F' u Hin). unfold x501Less in F, F'. rewrite Hv in F. rewrite Hu in F'.
        symmetry. apply oidLess_total; [intros C; apply Hn'; left; exact C|intros C; apply Hn; left; exact C|exact F|exact F']. }
      f_equal; [exact Hxy|]. apply IH; [exact H'| | |].
      + split; [inversion Hd; assumption|intros C; apply Hn; right; exact C].
      + split; [inversion Hd'; assumption|intros C; apply Hn'; right; exact C].
      + rewrite Hxy in P. exact (Permutation_cons_inv P).
  Qed.
  Lemma distinct_perm l l' : Permutation l l' -> distinct_types l -> distinct_types l'.
  Proof. intros P (H1 & H2). apply (Permutation_map at_type) in P. split; [exact (Permutation_NoDup P H1)|]. intros C. apply H2. eapply Permutation_in; [symmetry; exact P|exact C]. Qed.
  Lemma same_types a b : Forall2 like a b -> map at_type a = map at_type b.
  Proof. induction 1 as [|x y a b (H & _) _ IH]; [reflexivity|]. cbn [map]. rewrite IH. cbn in H. rewrite H. reflexivity. Qed.
  (** Lists with the same distinct types in the same order, and related up to permutation, are related pointwise. *)
  Lemma pointwise a b b' : map at_type a = map at_type b -> NoDup (map at_type a) -> Permutation b b' -> Forall2 like a b' -> Forall2 like a b.
  Proof.
    intros Ht Hd P H. assert (Hb : b = b'); [|subst; exact H].
    assert (Ht' : map at_type b = map at_type b') by (rewrite <- Ht; apply same_types; exact H).
    rewrite Ht in Hd. clear - Hd P Ht'. revert b' P Ht'. induction b as [|x b IH]; intros [|y b'] P Ht; cbn [map] in *; [reflexivity|discriminate|discriminate|].
    inversion Hd as [|? ? Hx Hd']; subst.
    assert (x = y) as <-.
    { assert (Hin : In x (y :: b')) by (eapply Permutation_in; [exact P|left; reflexivity]). destruct Hin as [<-|Hin]; [reflexivity|].
      exfalso. apply Hx. assert (Hm : map at_type b = map at_type b') by congruence. rewrite Hm. apply in_map. exact Hin. }
    f_equal. apply IH; [exact Hd'|exact (Permutation_cons_inv P)|congruence].
  Qed.
  Lemma same_sorted a b b' : distinct_types a -> Permutation b b' -> Forall2 like a b' -> Forall2 like (srt S _ x501Less a) (srt S _ x501Less b).
  Proof.
    intros Hd P H.
    pose proof (srt_perm S HS _ x501Less a) as Pa. pose proof (srt_perm S HS _ x501Less b) as Pb.
    assert (Hd' : distinct_types b). { apply distinct_perm with b'; [symmetry; exact P|]. destruct Hd as [H1 H2]. split; rewrite <- (same_types a b' H); assumption. }
    assert (Ht : map at_type (srt S _ x501Less a) = map at_type (srt S _ x501Less b)).
    { apply sorted_types.
      - apply (srt_sorted S HS). apply x501_swo. exact (proj2 Hd).
      - apply (srt_sorted S HS). apply x501_swo. exact (proj2 Hd').
      - apply distinct_perm with a; [symmetry; exact Pa|exact Hd].
      - apply distinct_perm with b; [symmetry; exact Pb|exact Hd'].
      - rewrite Pa, Pb. rewrite (same_types a b' H). apply Permutation_map. symmetry. exact P. }
    destruct (Permutation_Forall2 (Permutation_sym Pa) H) as (b2 & P2 & H2).
    apply pointwise with b2; [exact Ht| |rewrite Pb, P; exact P2|exact H2].
    apply (distinct_perm a _ (Permutation_sym Pa)) in Hd. exact (proj1 Hd).
  Qed.
  Lemma attrText_same u v : ascii_attr u -> ascii_attr v -> like u v -> lower (attrText u) = lower (attrText v).
  Proof.
    intros (p' & Hp' & Hpp) (q' & Hq' & Hqq) (Ht & p & q & Hv1 & Hv2 & Hsame).
    cbn [written_attr at_value at_type] in *. rewrite Hp' in Hv1. rewrite Hq' in Hv2. assert (p = written p') as -> by congruence. assert (q = written q') as -> by congruence.
    unfold attrText. rewrite Ht, Hp', Hq', !canonValue_written. unfold lower. rewrite !map_app. f_equal. f_equal. apply (fold_same _ _ Hsame).
  Qed.
  (** Names that are the same up to case, spaces and the order of attributes have the same canonical form. *)
  Lemma canonical_same a b : ascii_name a -> ascii_name b -> Forall distinct_types a -> like_dn a b ->
    pkixCanonical E S a = pkixCanonical E S b.
  Proof.
    intros Ha Hb Hs H. rewrite !canonical_lower by assumption. unfold lower. rewrite !join_map, !map_map. f_equal. rewrite !map_rev. f_equal.
    unfold like_dn in H. unfold ascii_name in *. induction H as [|x y a b (y' & Hp & HF2) H IH]; [reflexivity|].
    inversion Ha as [|? ? [_ Hx] Ha']; subst. inversion Hb as [|? ? [_ Hy] Hb']; subst. inversion Hs as [|? ? Hd Hs']; subst.
    cbn [map]. f_equal; [|apply IH; assumption]. rewrite !canonRdn_eq, !join_map. f_equal.
    apply srt_plain in Hx, Hy. pose proof (same_sorted x y y' Hd Hp HF2) as HF. revert Hx Hy HF. generalize (srt S _ x501Less x), (srt S _ x501Less y).
    intros l l' Hx Hy HF. induction HF as [|u v l l' Huv HF IH2]; [reflexivity|].
    inversion Hx; subst. inversion Hy; subst. cbn [map]. f_equal; [apply (attrText_same u v); assumption|apply IH2; assumption].
  Qed.
End Names.
