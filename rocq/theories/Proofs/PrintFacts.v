(** The String methods *)
From Coq Require Import String Lia ZArith List Sorted Bool.
From Verif.Model Require Import Bytes GoStrings CertInfo Printing.
From Verif.Spec Require Import CertPick Printing.
From Verif.Proofs Require Import BytesFacts CertInfoFacts.

(** ** Numerals *)
Lemma digit_alphabet n : 0 <= n < 16 -> nth_error hex_alphabet (Z.to_nat n) = Some (hex_digit n).
Proof.
  intro B. assert (H : In n [0;1;2;3;4;5;6;7;8;9;10;11;12;13;14;15]) by (cbn; lia).
  repeat (destruct H as [<-|H]; [reflexivity|]). destruct H.
Qed.
Definition digitVal (c : byte) : Z := if b2z c <? 58 then b2z c - 48 else b2z c - 87.
Lemma alphabet_val n c : 0 <= n < 16 -> nth_error hex_alphabet (Z.to_nat n) = Some c -> digitVal c = n.
Proof.
  intros B Q. rewrite digit_alphabet in Q by exact B. assert (hex_digit n = c) by congruence. subst c.
  assert (H : In n [0;1;2;3;4;5;6;7;8;9;10;11;12;13;14;15]) by (cbn; lia).
  repeat (destruct H as [<-|H]; [reflexivity|]). destruct H.
Qed.
Definition hexVal (s : bytes) : Z := fold_left (fun v c => 16 * v + digitVal c) s 0.
Lemma numeral_val s n : hex_numeral s n -> hexVal s = n.
Proof.
  induction 1 as [c n B Q|s v c n H IH B Q].
  - unfold hexVal. cbn [fold_left]. rewrite (alphabet_val _ _ B Q). lia.
  - unfold hexVal in *. rewrite fold_left_app. cbn [fold_left]. rewrite IH, (alphabet_val _ _ B Q). reflexivity.
Qed.
Lemma hexDigits_numeral : forall f n, 0 <= n < 16 ^ Z.of_nat (Datatypes.S f) -> hex_numeral (hexDigits (Datatypes.S f) n) n.
Proof.
  induction f as [|f IH]; intros n B.
  - cbn [hexDigits]. change (16 ^ Z.of_nat 1) with 16 in B. destruct (Z.ltb_spec n 16); [|lia]. apply hn_one; [lia | apply digit_alphabet; lia].
  - remember (Datatypes.S f) as f'. cbn [hexDigits]. destruct (Z.ltb_spec n 16); [apply hn_one; [lia | apply digit_alphabet; lia]|].
    rewrite (Z.div_mod n 16) at 3 by lia. rewrite Nat2Z.inj_succ, Z.pow_succ_r in B by lia.
    pose proof (Z.mod_pos_bound n 16 ltac:(lia)). apply hn_more; [|lia|apply digit_alphabet; lia]. apply IH.
    split; [apply Z.div_pos; lia | apply Z.div_lt_upper_bound; lia].
Qed.
Lemma fmtHex_numeral n : 0 <= n < 2 ^ 32 -> hex_numeral (fmtHex n) n.
Proof. intro B. apply (hexDigits_numeral 7). exact B. Qed.
Lemma zeros_val k : forall s, hexVal (repeat x30 k ++ s) = hexVal s.
Proof. induction k as [|k IH]; intro s; [reflexivity|]. cbn [repeat app]. unfold hexVal in *. cbn [fold_left]. exact (IH s). Qed.
Lemma pad_numeral k s n : hex_numeral s n -> hex_numeral (repeat x30 k ++ s) n.
Proof.
  intro H. induction H as [c n B Q|s v c n H IH B Q].
  - revert n B Q. induction k as [|k IH]; intros n B Q; [now apply hn_one|].
    change n with (16 * 0 + n). apply hn_more; [|exact B|exact Q]. clear IH Q B.
    induction k as [|k IH]; [apply hn_one; [lia | reflexivity]|].
    change (repeat x30 (Datatypes.S (Datatypes.S k))) with (x30 :: repeat x30 (Datatypes.S k)).
    rewrite repeat_cons. change 0 with (16 * 0 + 0). apply hn_more; [exact IH | lia | reflexivity].
  - rewrite app_assoc. now apply hn_more.
Qed.
Lemma fmtHexPad_numeral w n : 0 <= n < 2 ^ 32 -> hex_numeral (fmtHexPad w n) n.
Proof. intro B. unfold fmtHexPad. cbn zeta. apply pad_numeral, fmtHex_numeral, B. Qed.
Lemma fmtHexPad_inj w n m : 0 <= n < 2 ^ 32 -> 0 <= m < 2 ^ 32 -> fmtHexPad w n = fmtHexPad w m -> n = m.
Proof.
  intros Bn Bm Q. rewrite <- (numeral_val _ _ (fmtHexPad_numeral w n Bn)), <- (numeral_val _ _ (fmtHexPad_numeral w m Bm)). now rewrite Q.
Qed.

(** Texts made of names, and of a prefix and a numeral otherwise *)
Definition firstn_pre (pre x : bytes) : firstn (List.length pre) (pre ++ x) = pre.
Proof. rewrite firstn_app, firstn_all, Nat.sub_diag. cbn. apply app_nil_r. Qed.
Definition distinct_names (pre : bytes) (tab : list (Z * bytes)) : bool :=
  forallb (fun a => negb (bytes_eqb (firstn (List.length pre) (snd a)) pre) &&
                    forallb (fun b => negb (bytes_eqb (snd a) (snd b)) || (fst a =? fst b)) tab) tab.
Lemma named_inj pre tab (f : Z -> bytes) (rest : Z -> bytes) (ok : Z -> Prop) : distinct_names pre tab = true ->
  (forall a, ok a -> (exists n, In (a, n) tab /\ f a = n) \/ f a = pre ++ rest a) ->
  (forall a b, ok a -> ok b -> rest a = rest b -> a = b) ->
  forall a b, ok a -> ok b -> f a = f b -> a = b.
Proof.
  intros D C R a b Oa Ob Q. unfold distinct_names in D. rewrite forallb_forall in D.
  assert (N : forall x n y, In (x, n) tab -> n <> pre ++ y).
  { intros x n y I X. specialize (D _ I). apply andb_true_iff in D as [D _]. cbn [snd] in D. rewrite X, firstn_pre in D.
    rewrite bytes_eqb_refl in D. discriminate D. }
  destruct (C a Oa) as [(n & I & Qa)|Qa], (C b Ob) as [(m & J & Qb)|Qb].
  - specialize (D _ I). apply andb_true_iff in D as [_ D]. rewrite forallb_forall in D. specialize (D _ J). cbn [fst snd] in D.
    apply orb_true_iff in D as [D|D]; [|lia]. assert (n = m) by congruence. rewrite <- H, bytes_eqb_refl in D. discriminate D.
  - exfalso. apply (N _ _ (rest b) I). congruence.
  - exfalso. apply (N _ _ (rest a) J). congruence.
  - apply R; [assumption | assumption|]. apply (app_inv_head pre). congruence.
Qed.
Definition blockNames : list (Z * bytes) :=
  [(0x504b4453, s2b "DependencyMetadata"); (0x71777777, s2b "MeituanMetadata"); (0x2b09189e, s2b "SourceStampV1 (deprecated)");
   (0x6dff800d, s2b "SourceStampV2"); (0x42726577, s2b "VerityPadding"); (0x7109871a, s2b "SchemeV2Signature");
   (0xf05368c0, s2b "SchemeV3Signature"); (0x1b93ad61, s2b "SchemeV3.1Signature"); (0x2146444e, s2b "PlayFrosting")].
Lemma blockId_cases a : (exists n, In (a, n) blockNames /\ blockIdString a = n) \/ blockIdString a = s2b "Unknown (0x" ++ fmtHexPad 8 a ++ s2b ")".
Proof.
  unfold blockIdString, blockNames.
  repeat match goal with |- context [if a =? ?k then _ else _] => destruct (Z.eqb_spec a k) as [->|_]; [left; eexists; split; [|reflexivity]; cbn [In]; tauto|] end.
  now right.
Qed.
Lemma blockId_inj a b : 0 <= a < 2 ^ 32 -> 0 <= b < 2 ^ 32 -> blockIdString a = blockIdString b -> a = b.
Proof.
  intros Ba Bb. apply (named_inj (s2b "Unknown (0x") blockNames blockIdString (fun a => fmtHexPad 8 a ++ s2b ")") (fun a => 0 <= a < 2 ^ 32)); try assumption.
  - vm_compute. reflexivity.
  - intros x _. apply blockId_cases.
  - intros x y Bx By Q. apply app_inv_tail in Q. exact (fmtHexPad_inj _ _ _ Bx By Q).
Qed.
Definition algorithmNames : list (Z * bytes) :=
  [(0x0101, s2b "SigRsaPssWithSha256"); (0x0102, s2b "SigRsaPssWithSha512"); (0x0103, s2b "SigRsaPkcs1V15WithSha256");
   (0x0104, s2b "SigRsaPkcs1V15WithSha512"); (0x0201, s2b "SigEcdsaWithSha256"); (0x0202, s2b "SigEcdsaWithSha512");
   (0x0301, s2b "SigDsaWithSha256"); (0x0421, s2b "SigVerityRsaPkcs1V15WithSha256"); (0x0423, s2b "SigVerityEcdsaWithSha256");
   (0x0425, s2b "SigVerityDsaWithSha256")].
Lemma algorithm_cases a : (exists n, In (a, n) algorithmNames /\ sigAlgorithmString a = n) \/ sigAlgorithmString a = s2b "0x" ++ fmtHexPad 4 (a mod 2 ^ 32).
Proof.
  unfold sigAlgorithmString, algorithmNames.
  repeat match goal with |- context [if a =? ?k then _ else _] => destruct (Z.eqb_spec a k) as [->|_]; [left; eexists; split; [|reflexivity]; cbn [In]; tauto|] end.
  now right.
Qed.
Lemma sigAlgorithm_inj a b : - 2 ^ 31 <= a < 2 ^ 31 -> - 2 ^ 31 <= b < 2 ^ 31 -> sigAlgorithmString a = sigAlgorithmString b -> a = b.
Proof.
  intros Ba Bb. apply (named_inj (s2b "0x") algorithmNames sigAlgorithmString (fun a => fmtHexPad 4 (a mod 2 ^ 32)) (fun a => - 2 ^ 31 <= a < 2 ^ 31)); try assumption.
  - vm_compute. reflexivity.
  - intros x _. apply algorithm_cases.
  - clear. intros a b Ba Bb Q. apply fmtHexPad_inj in Q; try (apply Z.mod_pos_bound; lia).
    assert (H : forall x, - 2 ^ 31 <= x < 2 ^ 31 -> x = (if x mod 2 ^ 32 <? 2 ^ 31 then x mod 2 ^ 32 else x mod 2 ^ 32 - 2 ^ 32)).
    { intros x Bx. destruct (Z_lt_ge_dec x 0).
      - replace (x mod 2 ^ 32) with (x + 2 ^ 32).
        + destruct (Z.ltb_spec (x + 2 ^ 32) (2 ^ 31)); lia.
        + rewrite <- (Z.mod_small (x + 2 ^ 32) (2 ^ 32)) by lia. rewrite <- (Z_mod_plus_full x 1 (2 ^ 32)). f_equal. all: lia.
      - rewrite Z.mod_small by lia. destruct (Z.ltb_spec x (2 ^ 31)); lia. }
    rewrite (H a Ba), (H b Bb), Q. reflexivity.
Qed.

(** ** Capabilities *)
Definition capBits (c : Z) : list Z := filter (Z.testbit c) (map Z.of_nat (seq 0 31)).
Lemma mask_testbit c i : 0 <= i -> (Z.land c (2 ^ i) =? 0) = negb (Z.testbit c i).
Proof.
  intro B. destruct (Z.eqb_spec (Z.land c (2 ^ i)) 0) as [Q|Q].
  - apply (f_equal (fun x => Z.testbit x i)) in Q. rewrite Z.land_spec, Z.pow2_bits_true, andb_true_r, Z.bits_0 in Q by exact B. now rewrite Q.
  - destruct (Z.testbit c i) eqn:T; [reflexivity|]. exfalso. apply Q. apply Z.bits_inj'. intros n Bn. rewrite Z.land_spec, Z.bits_0.
    destruct (Z.eq_dec n i) as [->|N]; [now rewrite T|]. rewrite Z.pow2_bits_false by lia. apply andb_false_r.
Qed.
Lemma capsLoop_bits c : forall f i, capsLoop f (Z.of_nat i) c = map capWord (filter (Z.testbit c) (map Z.of_nat (seq i (Nat.min f (31 - i))))).
Proof.
  induction f as [|f IH]; intro i; [reflexivity|]. cbn [capsLoop]. destruct (Z.ltb_spec (Z.of_nat i) 31) as [L|L]; cbn [negb].
  - assert (Q : Nat.min (Datatypes.S f) (31 - i) = Datatypes.S (Nat.min f (31 - Datatypes.S i))) by lia. rewrite Q. cbn [seq map filter].
    rewrite mask_testbit by lia. replace (Z.of_nat i + 1) with (Z.of_nat (Datatypes.S i)) by lia. rewrite IH.
    destruct (Z.testbit c (Z.of_nat i)); reflexivity.
  - replace (Nat.min (Datatypes.S f) (31 - i)) with O by lia. reflexivity.
Qed.
Lemma caps_bits c : capsLoop 32 0 c = map capWord (capBits c).
Proof. exact (capsLoop_bits c 32 0). Qed.
Lemma capBits_iff c i : In i (capBits c) <-> 0 <= i < 31 /\ Z.testbit c i = true.
Proof.
  unfold capBits. rewrite filter_In, in_map_iff. split.
  - intros [(n & <- & I) T]. apply in_seq in I. split; [lia | exact T].
  - intros [B T]. split; [|exact T]. exists (Z.to_nat i). split; [lia|]. apply in_seq. lia.
Qed.
Lemma filter_sorted {A} (R : A -> A -> Prop) f l : StronglySorted R l -> StronglySorted R (filter f l).
Proof.
  induction 1 as [|x l H IH F]; [constructor|]. cbn [filter]. destruct (f x); [|exact IH]. constructor; [exact IH|].
  rewrite Forall_forall in *. intros y I. apply filter_In in I as [I _]. now apply F.
Qed.
Lemma seq_sorted n : forall i, StronglySorted Z.lt (map Z.of_nat (seq i n)).
Proof.
  induction n as [|n IH]; intro i; [constructor|]. cbn [seq map]. constructor; [apply IH|]. apply Forall_forall. intros y I.
  apply in_map_iff in I as (m & <- & I). apply in_seq in I. lia.
Qed.
Lemma capWord_ok i : 0 <= i < 31 -> capability_word i (capWord i).
Proof.
  intro B. destruct (Z_lt_ge_dec i 5) as [L|L].
  - left. assert (H : In i [0;1;2;3;4]) by (cbn; lia). repeat (destruct H as [<-|H]; [vm_compute; tauto|]). destruct H.
  - right. split; [lia|]. exists (fmtHex (2 ^ i)). split; [apply fmtHex_numeral; split; [apply Z.pow_nonneg; lia | apply Z.pow_lt_mono_r; lia]|].
    assert (32 <= 2 ^ i) by (change 32 with (2 ^ 5); apply Z.pow_le_mono_r; lia).
    unfold capWord. cbn zeta. repeat match goal with |- context [2 ^ i =? ?k] => destruct (Z.eqb_spec (2 ^ i) k); [lia|] end. reflexivity.
Qed.
Lemma bar_join l : joinWith [x7c] l = bar_list l.
Proof. induction l as [|x [|y t] IH]; [reflexivity | reflexivity|]. change (x ++ [x7c] ++ joinWith [x7c] (y :: t) = x ++ [x7c] ++ bar_list (y :: t)). now rewrite IH. Qed.
Lemma caps_text c : capability_list (map capWord (capBits c)) (lineageCapsString c).
Proof.
  unfold lineageCapsString. rewrite caps_bits. destruct (map capWord (capBits c)) as [|w l] eqn:Q; [left; auto|]. right. split; [discriminate|]. apply bar_join.
Qed.
Lemma words_forall l : (forall i, In i l -> 0 <= i < 31) -> Forall2 capability_word l (map capWord l).
Proof. induction l as [|i l IH]; intro H; cbn [map]; constructor; [apply capWord_ok, H; now left | apply IH; intros j J; apply H; now right]. Qed.

(** The text determines the bits *)
Definition plain (w : bytes) : Prop := ~ In x7c w /\ w <> [] /\ w <> s2b "None".
Lemma bar_inj : forall l l', Forall plain l -> Forall plain l' -> bar_list l = bar_list l' -> l = l'.
Proof.
  assert (Sp : forall a b s t, ~ In x7c a -> ~ In x7c b -> a ++ x7c :: s = b ++ x7c :: t -> a = b /\ s = t).
  { induction a as [|x a IH]; intros [|y b] s t Na Nb Q; cbn in Q.
    - split; [reflexivity | congruence].
    - exfalso. apply Nb. left. congruence.
    - exfalso. apply Na. left. congruence.
    - assert (x = y) by congruence. subst y. destruct (IH b s t) as [-> ->]; [firstorder | firstorder | congruence | auto]. }
  assert (No : forall a b t, ~ In x7c a -> a <> b ++ x7c :: t).
  { intros a b t N Q. apply N. rewrite Q. apply in_app_iff. right. now left. }
  induction l as [|w l IH]; intros [|w' l'] F F' Q; [reflexivity| | |].
  - inversion F' as [|? ? (_ & N & _) _]; subst. destruct l'; cbn in Q; [congruence|]. destruct w'; [congruence | discriminate Q].
  - inversion F as [|? ? (_ & N & _) _]; subst. destruct l; cbn in Q; [congruence|]. destruct w; [congruence | discriminate Q].
  - inversion F as [|? ? (Nb & _ & _) F1]; subst. inversion F' as [|? ? (Nb' & _ & _) F1']; subst.
    destruct l as [|w2 l], l' as [|w2' l'].
    + cbn in Q. congruence.
    + exfalso. exact (No _ _ _ Nb Q).
    + exfalso. exact (No _ _ _ Nb' (eq_sym Q)).
    + change (w ++ x7c :: bar_list (w2 :: l) = w' ++ x7c :: bar_list (w2' :: l')) in Q. apply Sp in Q as [-> Q]; [|assumption|assumption].
      f_equal. now apply IH.
Qed.
Definition plainb (w : bytes) : bool := forallb (fun c => negb (Byte.eqb c x7c)) w && negb (bytes_eqb w []) && negb (bytes_eqb w (s2b "None")).
Lemma plainb_ok w : plainb w = true -> plain w.
Proof.
  unfold plainb, plain. rewrite !andb_true_iff, !negb_true_iff. intros ((A & B) & C). split; [|split].
  - intro I. rewrite forallb_forall in A. specialize (A _ I). now cbn in A.
  - intros ->. discriminate B.
  - intros ->. vm_compute in C. discriminate C.
Qed.
Lemma capWord_plain i : 0 <= i < 31 -> plain (capWord i).
Proof.
  intro B. apply plainb_ok. assert (H : forallb (fun i => plainb (capWord i)) (map Z.of_nat (seq 0 31)) = true) by (vm_compute; reflexivity).
  rewrite forallb_forall in H. apply H. apply in_map_iff. exists (Z.to_nat i). split; [lia|]. apply in_seq. lia.
Qed.
Lemma capWord_inj i j : 0 <= i < 31 -> 0 <= j < 31 -> capWord i = capWord j -> i = j.
Proof.
  intros Bi Bj Q.
  assert (H : forallb (fun i => forallb (fun j => negb (bytes_eqb (capWord i) (capWord j)) || (i =? j)) (map Z.of_nat (seq 0 31))) (map Z.of_nat (seq 0 31)) = true)
    by (vm_compute; reflexivity).
  assert (I : forall k, 0 <= k < 31 -> In k (map Z.of_nat (seq 0 31))).
  { intros k Bk. apply in_map_iff. exists (Z.to_nat k). split; [lia|]. apply in_seq. lia. }
  rewrite forallb_forall in H. specialize (H i (I i Bi)). rewrite forallb_forall in H. specialize (H j (I j Bj)).
  apply orb_true_iff in H as [H|H]; [|lia]. rewrite Q in H. rewrite bytes_eqb_refl in H. discriminate H.
Qed.
Lemma caps_inj c c' : lineageCapsString c = lineageCapsString c' -> capBits c = capBits c'.
Proof.
  intro Q. pose proof (caps_text c) as T. pose proof (caps_text c') as T'. rewrite <- Q in T'.
  assert (P : forall x, Forall plain (map capWord (capBits x))).
  { intro x. apply Forall_forall. intros w I. apply in_map_iff in I as (i & <- & I). apply capBits_iff in I. apply capWord_plain. tauto. }
  assert (Nn : forall l, Forall plain l -> l <> [] -> bar_list l <> s2b "None").
  { intros [|w [|w2 l]] F Ne X; [congruence| |].
    - inversion F as [|? ? (_ & _ & N) _]; subst. exact (N X).
    - assert (I : In x7c (bar_list (w :: w2 :: l))) by (cbn; apply in_app_iff; right; now left). rewrite X in I. vm_compute in I. intuition discriminate. }
  assert (W : map capWord (capBits c) = map capWord (capBits c')).
  { destruct T as [[T1 T2]|[T1 T2]], T' as [[T1' T2']|[T1' T2']].
    - congruence.
    - exfalso. apply (Nn _ (P c') T1'). congruence.
    - exfalso. apply (Nn _ (P c) T1). congruence.
    - apply bar_inj; [apply P | apply P | congruence]. }
  assert (B : forall x i, In i (capBits x) -> 0 <= i < 31) by (intros x i I; apply capBits_iff in I; tauto).
  pose proof (B c) as B1. pose proof (B c') as B2. revert W B1 B2. generalize (capBits c) (capBits c'). clear.
  induction l as [|i l IH]; intros [|j l'] W B1 B2; try discriminate W; [reflexivity|]. cbn [map] in W.
  assert (i = j) by (apply capWord_inj; [apply B1; now left | apply B2; now left | congruence]). subst j. f_equal. apply IH; [congruence| |].
  - intros k K. apply B1. now right.
  - intros k K. apply B2. now right.
Qed.
