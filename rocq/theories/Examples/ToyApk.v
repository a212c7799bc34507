(** Concrete APKs signed with the toy primitives (only for examples and counterexamples). *)
From Coq Require Import Permutation Sorted Lia.
From Verif.Model Require Import Bytes Env SigBlock Verify.
From Verif.Spec Require Import Encoding ApkLayout Nondet Digests Entries.
From Verif.Examples Require Import Toy.

Lemma insert_perm {A} (less : A -> A -> bool) x l : Permutation (insert_sorted less x l) (x :: l).
Proof.
  induction l as [|y l IH]; cbn; [reflexivity|]. destruct (less x y); [reflexivity|].
  etransitivity; [apply perm_skip, IH | apply perm_swap].
Qed.
Lemma isort_perm {A} (less : A -> A -> bool) l : Permutation (isort less l) l.
Proof. induction l as [|x l IH]; cbn; [constructor|]. rewrite insert_perm. now apply perm_skip. Qed.
Lemma strict_weak_incl {A} (less : A -> A -> bool) l l' : incl l' l -> strict_weak less l -> strict_weak less l'.
Proof. intros Hi (Ir & Tr & Eq). split; [|split]; intros; eauto. Qed.
Lemma insert_sorted_ok {A} (less : A -> A -> bool) x s : strict_weak less (x :: s) ->
  StronglySorted (fun x y => less y x = false) s -> StronglySorted (fun x y => less y x = false) (insert_sorted less x s).
Proof.
  intros Hw Hs. induction Hs as [|y s S IHs F]; cbn; [constructor; constructor|].
  destruct (less x y) eqn:L.
  - destruct Hw as (Ir & Tr & Eq). constructor; [constructor; assumption|]. constructor.
    + destruct (less y x) eqn:L2; [|reflexivity]. rewrite <- (Ir x); [|now left]. symmetry. apply Tr with y; cbn; auto.
    + rewrite Forall_forall in *. intros z Hz. specialize (F z Hz). destruct (less z x) eqn:L3; [|reflexivity].
      rewrite <- F. symmetry. apply Tr with x; cbn; auto.
  - constructor.
    + apply IHs. eapply strict_weak_incl; [|exact Hw]. intros z [<-|Hz]; cbn; auto.
    + apply Forall_forall. intros z Hz. apply (Permutation_in _ (insert_perm less x s)) in Hz as [<-|Hz].
      * assumption.
      * rewrite Forall_forall in F. auto.
Qed.
Lemma isort_sorted {A} (less : A -> A -> bool) l : strict_weak less l -> StronglySorted (fun x y => less y x = false) (isort less l).
Proof.
  induction l as [|x l IH]; intros Hw; cbn; [constructor|]. apply insert_sorted_ok.
  - eapply strict_weak_incl; [|exact Hw]. intros z [<-|Hz]; [now left|]. right. exact (Permutation_in _ (isort_perm less l) Hz).
  - apply IH. eapply strict_weak_incl; [|exact Hw]. intros z Hz. now right.
Qed.
Lemma toy_sched_ok : sched_ok toy_sched.
Proof. split; intros; cbn; [reflexivity | apply isort_perm | now apply isort_sorted]. Qed.

(** Contents: [toy_before], [toy_cd] and an EOCD record without comment. *)
Definition toy_sections : list bytes := [toy_before; toy_cd; toy_eocd (zlen toy_cd) (zlen toy_before) []].
Definition toy_digest : bytes := top_hash (toy_hash HSha256) toy_sections.
Definition toy_file (es : list (Z * bytes)) : bytes := toy_apk toy_before (enc_entries es) toy_cd [].
Definition toy_zip : zip := {| z_ordered := []; z_map := [] |}.

Definition toy_sign (key m : bytes) : bytes := key ++ toy_hash HSha256 m.
Definition toy_rec (algo : Z) (v : bytes) : bytes := lp (le32 algo ++ lp v).
Definition toy_attr (a : Z * bytes) : bytes := lp (le32 (fst a) ++ snd a).

(** One v2 signer with RSA-PKCS1-SHA256 (0x0103); the certificate encoding doubles as the key. *)
Definition toy_signer2 (key digest : bytes) (attrs : list (Z * bytes)) : bytes :=
  let sd := lp (toy_rec 0x0103 digest) ++ lp (lp key) ++ lp (concat (map toy_attr attrs)) in
  lp sd ++ lp (toy_rec 0x0103 (toy_sign key sd)) ++ lp key.
Definition toy_block (signers : list bytes) : bytes := lp (lps signers).

Definition toy_signer3 (key digest : bytes) (mn mx smn smx : Z) (attrs : list (Z * bytes)) : bytes :=
  let sd := lp (toy_rec 0x0103 digest) ++ lp (lp key) ++ le32 smn ++ le32 smx ++ lp (concat (map toy_attr attrs)) in
  lp sd ++ le32 mn ++ le32 mx ++ lp (toy_rec 0x0103 (toy_sign key sd)) ++ lp key.

(** A proof-of-rotation attribute: nodes (certificate, flags), all with algorithm 0x0103. *)
Fixpoint toy_nodes (prev : option bytes) (ns : list (bytes * Z)) : list bytes :=
  match ns with
  | [] => []
  | (c, fl) :: t =>
      let sd := lp c ++ le32 0x0103 in
      (lp sd ++ le32 fl ++ le32 0x0103 ++ lp (match prev with Some p => toy_sign p sd | None => [] end)) :: toy_nodes (Some c) t
  end.
Definition toy_lineage (ns : list (bytes * Z)) : Z * bytes := (0x3ba06f8c, le32 1 ++ lps (toy_nodes None ns)).

Definition kA : bytes := map z2b [65; 65; 1].
Definition kB : bytes := map z2b [66; 66; 2].
Definition kC : bytes := map z2b [67; 67; 3].

(** v2 only, two signers; v3 with two ranges and a rotation; v3.1 over v3; v3 broken over v2. *)
Definition toy_v2 : bytes := toy_file [(id_v2, toy_block [toy_signer2 kA toy_digest []; toy_signer2 kB toy_digest []])].
Definition toy_v3 : bytes := toy_file [(id_v2, toy_block [toy_signer2 kA toy_digest [(0xbeeff00d, le32 3)]]);
  (id_v3, toy_block [toy_signer3 kB toy_digest 31 34 31 34 [toy_lineage [(kA, 7); (kB, 3)]]; toy_signer3 kA toy_digest 28 30 28 30 []])].
Definition toy_v31 : bytes := toy_file
  [(id_v3, toy_block [toy_signer3 kA toy_digest 24 32 24 32 [(0x559f8b02, le32 33)]]);
   (id_v31, toy_block [toy_signer3 kB toy_digest 33 40 33 40 [toy_lineage [(kA, 7); (kB, 3)]]])].
Definition toy_fallback : bytes := toy_file
  [(id_v2, toy_block [toy_signer2 kA toy_digest [(0xbeeff00d, le32 3)]]);
   (id_v3, toy_block [toy_signer3 kB kC 28 34 28 34 []])].

