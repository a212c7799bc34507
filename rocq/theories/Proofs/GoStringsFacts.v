(** Lemmas about Model/GoStrings.v *)
From Coq Require Import String.
From Coq Require Import Lia.
From Verif.Model Require Import Bytes Env GoStrings.
From Verif.Proofs Require Import BytesFacts ManifestFacts.

Lemma hasPrefix_iff p : forall s, hasPrefix s p = true <-> exists r, s = p ++ r.
Proof.
  induction p as [|x p IH]; intros s.
  - split; [intros _; exists s; reflexivity|]. intros _. destruct s; reflexivity.
  - destruct s as [|y s]; cbn [hasPrefix].
    + split; [discriminate|]. intros [r H]. discriminate.
    + rewrite andb_true_iff, byte_eqb_eq, IH. split.
      * intros [-> [r ->]]. exists r. reflexivity.
      * intros [r H]. cbn [app] in H. assert (y = x /\ s = p ++ r) as [-> ->] by (split; congruence). split; [reflexivity|eauto].
Qed.
Lemma hasPrefix_false p s : hasPrefix s p = false <-> forall r, s <> p ++ r.
Proof.
  destruct (hasPrefix s p) eqn:E.
  - apply hasPrefix_iff in E as [r ->]. split; [discriminate|]. intros H. destruct (H r eq_refl).
  - split; [|reflexivity]. intros _ r ->. assert (hasPrefix (p ++ r) p = true) by (apply hasPrefix_iff; eauto). congruence.
Qed.
Lemma hasSuffix_iff s p : hasSuffix s p = true <-> exists r, s = r ++ p.
Proof.
  unfold hasSuffix. rewrite hasPrefix_iff. split.
  - intros [r H]. exists (rev r). rewrite <- (rev_involutive s), H, rev_app_distr, rev_involutive. reflexivity.
  - intros [r ->]. exists (rev r). apply rev_app_distr.
Qed.
Lemma hasSuffix_false p s : hasSuffix s p = false <-> forall r, s <> r ++ p.
Proof.
  destruct (hasSuffix s p) eqn:E.
  - apply hasSuffix_iff in E as [r ->]. split; [discriminate|]. intros H. destruct (H r eq_refl).
  - split; [|reflexivity]. intros _ r ->. assert (hasSuffix (r ++ p) p = true) by (apply hasSuffix_iff; eauto). congruence.
Qed.
Lemma contains_iff sub : forall s, contains s sub = true <-> exists a b, s = a ++ sub ++ b.
Proof.
  induction s as [|c t IH]; cbn [contains]; rewrite orb_true_iff, hasPrefix_iff.
  - split.
    + intros [[r H]|H]; [exists [], r; exact H|discriminate].
    + intros (a & b & H). destruct a; [left; exists b; exact H|discriminate].
  - rewrite IH. split.
    + intros [[r H]|(a & b & ->)]; [exists [], r; exact H|exists (c :: a), b; reflexivity].
    + intros ([|x a] & b & H); [left; exists b; exact H|]. right. exists a, b. cbn [app] in H. congruence.
Qed.

Lemma cutLast_none s sep : cutLast s sep = None <-> ~ In sep s.
Proof.
  induction s as [|c t IH]; cbn [cutLast]; [split; [intros _ []|reflexivity]|].
  destruct (cutLast t sep) as [[p q]|].
  - split; [discriminate|]. intros H. exfalso. assert (Some (p, q) = None) by (apply IH; intros Hi; apply H; right; exact Hi). discriminate.
  - assert (Ht : ~ In sep t) by (apply IH; reflexivity). destruct (byte_eqb c sep) eqn:E.
    + apply byte_eqb_eq in E as ->. split; [discriminate|]. intros H. exfalso. apply H. left. reflexivity.
    + split; [|reflexivity]. intros _ [->|Hi]; [rewrite byte_eqb_refl in E; discriminate|exact (Ht Hi)].
Qed.
Lemma cutLast_some s sep p q : cutLast s sep = Some (p, q) <-> s = p ++ sep :: q /\ ~ In sep q.
Proof.
  revert p q. induction s as [|c t IH]; intros p q; cbn [cutLast].
  - split; [discriminate|]. intros [H _]. destruct p; discriminate.
  - destruct (cutLast t sep) as [[p' q']|] eqn:Ec.
    + destruct (proj1 (IH p' q') eq_refl) as [-> Hq'].
      split.
      * intros H. assert (p = c :: p' /\ q = q') as [-> ->] by (split; congruence). split; [reflexivity|exact Hq'].
      * intros [H Hq]. destruct p as [|x p]; cbn [app] in H.
        -- exfalso. apply Hq. assert (p' ++ sep :: q' = q) as <- by congruence. apply in_or_app. right. left. reflexivity.
        -- assert (Ht : p' ++ sep :: q' = p ++ sep :: q) by congruence. assert (x = c) as -> by congruence.
           assert (Hs : Some (p', q') = Some (p, q)) by (apply IH; split; [exact Ht|exact Hq]).
           assert (p' = p /\ q' = q) as [-> ->] by (split; congruence). reflexivity.
    + apply cutLast_none in Ec. destruct (byte_eqb c sep) eqn:E.
      * apply byte_eqb_eq in E as ->. split.
        -- intros H. assert (p = [] /\ q = t) as [-> ->] by (split; congruence). split; [reflexivity|exact Ec].
        -- intros [H Hq]. destruct p as [|x p]; cbn [app] in H; [congruence|].
           exfalso. apply Ec. assert (t = p ++ sep :: q) as -> by congruence. apply in_or_app. right. left. reflexivity.
      * split; [discriminate|]. intros [H Hq]. destruct p as [|x p]; cbn [app] in H.
        -- assert (c = sep) by congruence. subst c. rewrite byte_eqb_refl in E. discriminate.
        -- exfalso. apply Ec. assert (t = p ++ sep :: q) as -> by congruence. apply in_or_app. right. left. reflexivity.
Qed.

(** ** Trimming *)
Definition prefix_free (ps : list bytes) : Prop :=
  ~ In [] ps /\ forall p q r, In p ps -> In q ps -> p = q ++ r -> p = q.
Definition prefix_freeb (ps : list bytes) : bool :=
  forallb (fun p => match p with [] => false | _ => true end) ps &&
  forallb (fun p => forallb (fun q => negb (hasPrefix p q) || bytes_eqb p q) ps) ps.
Lemma prefix_freeb_ok ps : prefix_freeb ps = true -> prefix_free ps.
Proof.
  intros H. apply andb_true_iff in H as [H1 H2]. rewrite forallb_forall in H1, H2. split.
  - intros Hi. specialize (H1 _ Hi). discriminate.
  - intros p q r Hp Hq He. specialize (H2 p Hp). rewrite forallb_forall in H2. specialize (H2 q Hq).
    apply orb_true_iff in H2 as [H2|H2]; [|apply bytes_eqb_eq; exact H2].
    apply negb_true_iff in H2. rewrite hasPrefix_false in H2. destruct (H2 r He).
Qed.
Lemma spaceRunes_free : prefix_free spaceRunes.
Proof. apply prefix_freeb_ok. vm_compute. reflexivity. Qed.
Lemma spaceRunes_rev_free : prefix_free (map (@rev byte) spaceRunes).
Proof. apply prefix_freeb_ok. vm_compute. reflexivity. Qed.

Lemma app_prefix_cases {A} (a b c d : list A) : a ++ b = c ++ d -> (exists r, a = c ++ r) \/ (exists r, c = a ++ r).
Proof.
  revert c. induction a as [|x a IH]; intros [|y c] H; cbn [app] in H; [right; exists []; reflexivity|right; eexists; reflexivity|left; eexists; reflexivity|].
  assert (x = y /\ a ++ b = c ++ d) as [-> H'] by (split; congruence). destruct (IH c H') as [[r ->]|[r ->]]; [left|right]; exists r; reflexivity.
Qed.

(** Stripping consumes a sequence of the given words and nothing else. *)
Lemma stripPrefixes_spec ps : prefix_free ps -> forall fuel s, (List.length s <= fuel)%nat ->
  exists ws, Forall (fun w => In w ps) ws /\ s = concat ws ++ stripPrefixes fuel ps s /\
    forall p, In p ps -> hasPrefix (stripPrefixes fuel ps s) p = false.
Proof.
  intros [Hne Hpf]. induction fuel as [|fuel IH]; intros s Hl.
  - destruct s; [|cbn in Hl; lia]. exists []. split; [constructor|]. split; [reflexivity|].
    intros p Hp. cbn [stripPrefixes]. destruct p; [destruct (Hne Hp)|reflexivity].
  - cbn [stripPrefixes]. destruct (find (hasPrefix s) ps) as [p|] eqn:Ef.
    + apply find_some in Ef as [Hp Hs]. apply hasPrefix_iff in Hs as [r ->].
      rewrite skipn_app, skipn_all, Nat.sub_diag. cbn [skipn app].
      destruct (IH r) as (ws & Hw & He & Hno).
      { rewrite app_length in Hl. destruct p; [destruct (Hne Hp)|]. cbn [List.length] in Hl. lia. }
      exists (p :: ws). split; [constructor; assumption|]. split; [|exact Hno].
      cbn [concat]. rewrite <- app_assoc, <- He. reflexivity.
    + exists []. split; [constructor|]. split; [reflexivity|]. intros p Hp. exact (find_none _ _ Ef p Hp).
Qed.
Lemma strip_unique ps : prefix_free ps -> forall ws ws' a b, Forall (fun w => In w ps) ws -> Forall (fun w => In w ps) ws' ->
  (forall p, In p ps -> hasPrefix a p = false) -> (forall p, In p ps -> hasPrefix b p = false) ->
  concat ws ++ a = concat ws' ++ b -> a = b.
Proof.
  intros [Hne Hpf]. induction ws as [|w ws IH]; intros ws' a b Hw Hw' Ha Hb He.
  - destruct ws' as [|w' ws']; [exact He|]. inversion Hw'; subst. exfalso. cbn [concat app] in He.
    specialize (Ha w' H1). rewrite hasPrefix_false in Ha. apply (Ha (concat ws' ++ b)). rewrite He, <- app_assoc. reflexivity.
  - inversion Hw; subst. destruct ws' as [|w' ws'].
    + exfalso. cbn [concat app] in He. specialize (Hb w H1). rewrite hasPrefix_false in Hb. apply (Hb (concat ws ++ a)).
      rewrite <- He, <- app_assoc. reflexivity.
    + inversion Hw'; subst. cbn [concat] in He. rewrite <- !app_assoc in He.
      assert (w = w') as ->.
      { destruct (app_prefix_cases _ _ _ _ He) as [[r Hr]|[r Hr]]; [apply (Hpf w w' r); assumption|symmetry; apply (Hpf w' w r); assumption]. }
      apply app_inv_head in He. apply (IH ws' a b); assumption.
Qed.

Definition no_space_ends (s : bytes) : Prop :=
  forall w, In w spaceRunes -> (forall r, s <> w ++ r) /\ (forall r, s <> r ++ w).
Definition space_word (w : bytes) : Prop := exists l, Forall (fun r => In r spaceRunes) l /\ w = concat l.

Lemma concat_rev {A} (l : list (list A)) : rev (concat l) = concat (map (@rev A) (rev l)).
Proof.
  induction l as [|x t IH]; [reflexivity|]. cbn [concat rev]. rewrite rev_app_distr, IH, map_app, concat_app. cbn [map concat].
  rewrite app_nil_r. reflexivity.
Qed.
Lemma Forall_rev' {A} (P : A -> Prop) l : Forall P l -> Forall P (rev l).
Proof. intros H. apply Forall_forall. intros x Hx. apply in_rev in Hx. rewrite Forall_forall in H. exact (H x Hx). Qed.
Lemma space_words_rev l : Forall (fun r => In r spaceRunes) l ->
  Forall (fun r => In r (map (@rev byte) spaceRunes)) (map (@rev byte) (rev l)).
Proof.
  intros H. apply Forall_forall. intros x Hx. apply in_map_iff in Hx as (y & <- & Hy). apply in_rev in Hy.
  rewrite Forall_forall in H. apply in_map. exact (H y Hy).
Qed.
Lemma rev_words l : Forall (fun r => In r (map (@rev byte) spaceRunes)) l -> space_word (rev (concat l)).
Proof.
  intros H. exists (map (@rev byte) (rev l)). split; [|apply concat_rev].
  apply Forall_forall. intros x Hx. apply in_map_iff in Hx as (y & <- & Hy). apply in_rev in Hy.
  rewrite Forall_forall in H. specialize (H y Hy). apply in_map_iff in H as (z & <- & Hz). rewrite rev_involutive. exact Hz.
Qed.

(** strings.TrimSpace removes white space at both ends and nothing else *)
Lemma trimSpace_spec s : exists w1 w2, s = w1 ++ trimSpace s ++ w2 /\ space_word w1 /\ space_word w2.
Proof.
  unfold trimSpace. set (l := stripPrefixes (List.length s) spaceRunes s).
  destruct (stripPrefixes_spec _ spaceRunes_free (List.length s) s (le_n _)) as (ws & Hw & He & _). fold l in He.
  assert (Hll : (List.length (rev l) <= List.length l)%nat) by (rewrite rev_length; apply le_n).
  destruct (stripPrefixes_spec _ spaceRunes_rev_free (List.length l) (rev l) Hll) as (ws' & Hw' & He' & _).
  set (q := stripPrefixes (List.length l) _ (rev l)) in *.
  exists (concat ws), (rev (concat ws')). split; [|split; [exists ws; auto|exact (rev_words _ Hw')]].
  rewrite He at 1. f_equal. rewrite <- (rev_involutive l), He', rev_app_distr. reflexivity.
Qed.
Lemma trimSpace_exact w1 s w2 : space_word w1 -> space_word w2 -> no_space_ends s -> s <> [] -> trimSpace (w1 ++ s ++ w2) = s.
Proof.
  intros (l1 & H1 & ->) (l2 & H2 & ->) Hs Hne. unfold trimSpace.
  set (inp := concat l1 ++ s ++ concat l2).
  destruct (stripPrefixes_spec _ spaceRunes_free (List.length inp) inp (le_n _)) as (ws & Hw & He & Hno).
  set (l := stripPrefixes (List.length inp) spaceRunes inp) in *.
  assert (Hl : l = s ++ concat l2).
  { symmetry. apply (strip_unique _ spaceRunes_free l1 ws _ _ H1 Hw); [|exact Hno|exact He].
    intros p Hp. apply hasPrefix_false. intros r Hr.
    destruct (app_prefix_cases _ _ _ _ Hr) as [[x ->]|[x Hx]]; [destruct (Hs p Hp) as [Hp1 _]; exact (Hp1 x eq_refl)|].
    (* s is a proper prefix of a white space rune: then some word would start inside; excluded below *)
    subst p. destruct (list_eq_dec Byte.byte_eq_dec x []) as [->|Hx].
    - rewrite app_nil_r in Hp. destruct (Hs s Hp) as [Hp1 _]. apply (Hp1 []). rewrite app_nil_r. reflexivity.
    - rewrite <- app_assoc in Hr. apply app_inv_head in Hr.
      (* concat l2 starts with x, the tail of a rune: its first byte starts a rune *)
      assert (G : forallb (fun q => forallb (fun y => match y with [] => true | b :: _ => negb (existsb (fun z => match z with b' :: _ => byte_eqb b b' | [] => false end) spaceRunes) end)
                  (map (fun n => skipn n q) (seq 1 (List.length q)))) spaceRunes = true) by (vm_compute; reflexivity).
      rewrite forallb_forall in G. specialize (G _ Hp). rewrite forallb_forall in G.
      specialize (G x). destruct x as [|b x]; [congruence|].
      assert (Hin : In (b :: x) (map (fun n => skipn n (s ++ b :: x)) (seq 1 (List.length (s ++ b :: x))))).
      { apply in_map_iff. exists (List.length s). split.
        - rewrite skipn_app, skipn_all, Nat.sub_diag. reflexivity.
        - apply in_seq. rewrite app_length. cbn [List.length]. destruct s; [congruence|]. cbn [List.length]. lia. }
      specialize (G Hin). apply negb_true_iff in G.
      destruct l2 as [|r2 l2]; [discriminate|]. inversion H2; subst. cbn [concat] in Hr.
      destruct r2 as [|b2 r2]; [destruct spaceRunes_free as [Hn _]; destruct (Hn H3)|].
      cbn [app] in Hr. assert (b2 = b) as -> by congruence.
      assert (existsb (fun z => match z with b' :: _ => byte_eqb b b' | [] => false end) spaceRunes = true); [|congruence].
      apply existsb_exists. exists (b :: r2). split; [exact H3|apply byte_eqb_refl]. }
  assert (Hll : (List.length (rev l) <= List.length l)%nat) by (rewrite rev_length; apply le_n).
  destruct (stripPrefixes_spec _ spaceRunes_rev_free (List.length l) (rev l) Hll) as (ws' & Hw' & He' & Hno').
  set (q := stripPrefixes (List.length l) _ (rev l)) in *.
  assert (Hq : q = rev s); [|rewrite Hq; apply rev_involutive].
  symmetry. apply (strip_unique _ spaceRunes_rev_free (map (@rev byte) (rev l2)) ws'); [apply space_words_rev, H2|exact Hw'| |exact Hno'|].
  - intros p Hp. apply in_map_iff in Hp as (w & <- & Hw0). apply hasPrefix_false. intros r Hr.
    destruct (Hs w Hw0) as [_ Hp2]. apply (Hp2 (rev r)). rewrite <- (rev_involutive s), Hr, rev_app_distr, rev_involutive. reflexivity.
  - rewrite <- He', Hl, rev_app_distr, concat_rev. reflexivity.
Qed.
