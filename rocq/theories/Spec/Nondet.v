(** Which behaviours of Go's map iteration and sort.Slice are possible. *)
From Coq Require Import Permutation Sorted.
From Verif.Model Require Import Bytes Env.

(** [less] is a strict weak order on the elements of [l], the contract of sort.Slice and sort.Sort. *)
Definition strict_weak {A} (less : A -> A -> bool) (l : list A) : Prop :=
  (forall x, In x l -> less x x = false) /\
  (forall x y z, In x l -> In y l -> In z l -> less x y = true -> less y z = true -> less x z = true) /\
  (forall x y z, In x l -> In y l -> In z l ->
                 less x y = false -> less y x = false -> less y z = false -> less z y = false ->
                 less x z = false /\ less z x = false).

Record sched_ok (S : sched) : Prop := {
  ord_perm : forall A site k (l : list A), Permutation (ord S A site k l) l;
  srt_perm : forall A less (l : list A), Permutation (srt S A less l) l;
  srt_sorted : forall A less (l : list A), strict_weak less l ->
               StronglySorted (fun x y => less y x = false) (srt S A less l)
}.

(** Two schedules that differ in map iteration only: Go's sort is deterministic. *)
Definition same_sort (S S' : sched) : Prop := forall A less (l : list A), srt S A less l = srt S' A less l.
