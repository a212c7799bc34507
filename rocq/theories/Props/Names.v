(** C45: the canonical form of X.501 names that v1 uses to match issuers and subjects. *)
From Coq Require Import String Lia Permutation.
From Verif.Model Require Import Bytes Env PkixName.
From Verif.Spec Require Import JarManifest Nondet Names.
From Verif.Proofs Require Import BytesFacts NameFacts.
From Verif.Examples Require Import Toy ToyApk ToyJar.

(** A name with one attribute: CN (2.5.4.3). *)
Definition cn (s : bytes) : rdn_seq := [[{| at_type := [2; 5; 4; 3]; at_value := AvString s |}]].

(** C45 is false of the code: the characters that need an escape are replaced by a backslash instead of being preceded
    by one, so that the different names CN=a,b and CN=a+b (and a;b ...) have the same canonical form. *)
Theorem C45_refuted :
  lowers_ascii toy_env /\ sched_ok toy_sched /\
  pkixCanonical toy_env toy_sched (cn (s2b "a,b")) = pkixCanonical toy_env toy_sched (cn (s2b "a+b")) /\
  ~ same_dn (cn (s2b "a,b")) (cn (s2b "a+b")).
Proof.
  split; [intros s _; reflexivity|]. split; [exact toy_sched_ok|]. split; [vm_compute; reflexivity|].
  intros H. inversion H as [|? ? ? ? (y' & Hp & HF) _]; subst. apply Permutation_length_1_inv in Hp. subst y'.
  inversion HF as [|? ? ? ? (_ & x & y & Hx & Hy & Hs) _]; subst. cbn [at_value] in Hx, Hy.
  assert (x = s2b "a,b") as -> by congruence. assert (y = s2b "a+b") as -> by congruence. vm_compute in Hs. discriminate Hs.
Qed.

(** What holds, exactly, for names with ASCII values: the code matches two names if and only if, after every special
    character has become a backslash ([written_name]), they are the same up to case, spaces and the order of the
    attributes in a relative name.  Missing: non-ASCII text (e_to_lower is an oracle there) and non-string values. *)
Theorem C45_exact_partial : forall E S a b, sched_ok S -> lowers_ascii E -> ascii_name a -> ascii_name b ->
  (pkixCanonical E S a = pkixCanonical E S b -> same_dn (written_name a) (written_name b)) /\
  (Forall distinct_types a -> same_dn (written_name a) (written_name b) -> pkixCanonical E S a = pkixCanonical E S b).
Proof.
  intros E S a b HS HL Ha Hb. split.
  - intro H. apply like_dn_written. exact (canonical_distinct E S HS HL a b Ha Hb H).
  - intros Hd H. apply like_dn_written in H. exact (canonical_same E S HS HL a b Ha Hb Hd H).
Qed.
Print Assumptions C45_exact_partial.

(** In particular two names without special characters that match are the same name, *)
Theorem C45_distinct_partial : forall E S a b, sched_ok S -> lowers_ascii E -> plain_name a -> plain_name b ->
  pkixCanonical E S a = pkixCanonical E S b -> same_dn a b.
Proof.
  intros E S a b HS HL Ha Hb H. apply (C45_exact_partial E S a b HS HL (plain_ascii a Ha) (plain_ascii b Hb)) in H.
  rewrite !written_plain_name in H by assumption. exact H.
Qed.
Print Assumptions C45_distinct_partial.

(** ... and names that are the same up to case, spaces and that order do match. *)
Theorem C45_same_partial : forall E S a b, sched_ok S -> lowers_ascii E -> plain_name a -> plain_name b ->
  Forall distinct_types a -> same_dn a b -> pkixCanonical E S a = pkixCanonical E S b.
Proof.
  intros E S a b HS HL Ha Hb Hd H. apply (C45_exact_partial E S a b HS HL (plain_ascii a Ha) (plain_ascii b Hb)); [exact Hd|].
  rewrite !written_plain_name by assumption. exact H.
Qed.
Print Assumptions C45_same_partial.

(** A two-level name, the second level with two attributes, and a variant in another order, case and spacing. *)
Definition dn1 : rdn_seq :=
  [ [{| at_type := [2; 5; 4; 6]; at_value := AvString (s2b "CZ") |}];
    [{| at_type := [2; 5; 4; 10]; at_value := AvString (s2b "Example Org") |};
     {| at_type := [2; 5; 4; 3]; at_value := AvString (s2b "A = b") |}] ].
Definition dn2 : rdn_seq :=
  [ [{| at_type := [2; 5; 4; 6]; at_value := AvString (s2b "cz ") |}];
    [{| at_type := [2; 5; 4; 3]; at_value := AvString (s2b "  a =  B") |};
     {| at_type := [2; 5; 4; 10]; at_value := AvString (s2b "example  ORG") |}] ].
Lemma plain_text_dec s : forallb (fun c => (b2z c <? 128) && negb (existsb (byte_eqb c) special)) s = true ->
  (match s with c :: _ => byte_eqb c (z2b 35) | [] => false end) = false -> plain_text s.
Proof.
  intros H1 H2. split.
  - apply Forall_forall. intros c Hc. rewrite forallb_forall in H1. specialize (H1 c Hc). apply andb_true_iff in H1 as [Hl Hn]. apply Z.ltb_lt in Hl.
    split; [exact Hl|]. intros C. apply negb_true_iff in Hn. assert (existsb (byte_eqb c) special = true); [|congruence].
    apply existsb_exists. exists c. split; [exact C|apply byte_eqb_eq; reflexivity].
  - intros t ->. assert (byte_eqb (z2b 35) (z2b 35) = true) by (apply byte_eqb_eq; reflexivity). congruence.
Qed.
Lemma dn1_plain : plain_name dn1.
Proof. repeat constructor; try discriminate; eexists; (split; [reflexivity|]); apply plain_text_dec; vm_compute; reflexivity. Qed.
Lemma dn2_plain : plain_name dn2.
Proof. repeat constructor; try discriminate; eexists; (split; [reflexivity|]); apply plain_text_dec; vm_compute; reflexivity. Qed.
Example C45_nonvacuous :
  lowers_ascii toy_env /\ sched_ok toy_sched /\ plain_name dn1 /\ plain_name dn2 /\ Forall distinct_types dn1 /\ same_dn dn1 dn2 /\
  pkixCanonical toy_env toy_sched dn1 = s2b "2.5.4.3=a = b+2.5.4.10=example org,2.5.4.6=cz".
Proof.
  split; [intros s _; reflexivity|]. split; [exact toy_sched_ok|]. split; [exact dn1_plain|]. split; [exact dn2_plain|]. split; [|split].
  - repeat constructor; cbn; intuition discriminate.
  - constructor; [|constructor; [|constructor]].
    + eexists. split; [apply Permutation_refl|]. constructor; [|constructor]. split; [reflexivity|]. do 2 eexists. split; [reflexivity|]. split; [reflexivity|]. vm_compute. reflexivity.
    + eexists. split; [apply perm_swap|]. repeat constructor; do 2 eexists; (split; [reflexivity|]); (split; [reflexivity|]); vm_compute; reflexivity.
  - vm_compute. reflexivity.
Qed.

(** Two different names with special characters that the code matches, and two that it tells apart. *)
Example C45_exact_nonvacuous : ascii_name (cn (s2b "#a, b")) /\ written (s2b "#a, b") = s2b "\#a\ b" /\
  pkixCanonical toy_env toy_sched (cn (s2b "#a, b")) = pkixCanonical toy_env toy_sched (cn (s2b "<#A;  b")) /\
  pkixCanonical toy_env toy_sched (cn (s2b "#a, b")) <> pkixCanonical toy_env toy_sched (cn (s2b "#a b")).
Proof.
  split; [|split; [vm_compute; reflexivity|split; [vm_compute; reflexivity|vm_compute; discriminate]]].
  constructor; [|constructor]. split; [discriminate|]. constructor; [|constructor]. eexists. split; [reflexivity|].
  apply Forall_forall. intros c Hc. apply Z.ltb_lt. revert c Hc. apply forallb_forall. vm_compute. reflexivity.
Qed.
