(** SDK ranges of the v3 signers and consolidation of their lineages. *)
From Coq Require Import Permutation Sorted.
From Verif.Model Require Import Bytes Env Result.

(** [tiles lo rs hi]: the ranges [rs] tile the interval [lo, hi], each starting right after the previous one. *)
Inductive tiles : Z -> list (Z * Z) -> Z -> Prop :=
| tiles_one a b : a <= b -> tiles a [(a, b)] b
| tiles_cons a b rs c : a <= b -> tiles (b + 1) rs c -> tiles a ((a, b) :: rs) c.

(** Some arrangement of the ranges tiles an interval that contains [lo] and [hi]. *)
Definition covers (ranges : list (Z * Z)) (lo hi : Z) : Prop :=
  exists rs a b, Permutation rs ranges /\ tiles a rs b /\ a <= lo /\ hi <= b.

(** Same contents (certificates are compared as bytes). *)
Definition same_node (a b : lnode) : Prop :=
  c_raw (ln_cert a) = c_raw (ln_cert b) /\ ln_parent_algo a = ln_parent_algo b /\ ln_algo a = ln_algo b /\
  ln_signature a = ln_signature b /\ ln_flags a = ln_flags b.
Definition lineage_prefix (l l' : list lnode) : Prop :=
  exists p rest, l' = p ++ rest /\ Forall2 same_node l p.

(** The lineage that extends all the others. *)
Definition extends_all (ls : list (list lnode)) (l : list lnode) : Prop :=
  In l ls /\ forall l', In l' ls -> lineage_prefix l' l.
