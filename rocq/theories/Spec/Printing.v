(** What the String methods should print. *)
From Coq Require Import String Sorted.
From Verif.Model Require Import Bytes GoStrings.
From Verif.Spec Require Import CertPick.

(** [s] is the hexadecimal numeral of [n], maybe with leading zeros. *)
Inductive hex_numeral : bytes -> Z -> Prop :=
| hn_one c n : 0 <= n < 16 -> nth_error hex_alphabet (Z.to_nat n) = Some c -> hex_numeral [c] n
| hn_more s v c n : hex_numeral s v -> 0 <= n < 16 -> nth_error hex_alphabet (Z.to_nat n) = Some c -> hex_numeral (s ++ [c]) (16 * v + n).

(** The capabilities an Android lineage node can have, by bit number. *)
Definition capability_names : list (Z * bytes) :=
  [(0, s2b "InstalledData"); (1, s2b "SharedUserId"); (2, s2b "Permission"); (3, s2b "Rollback"); (4, s2b "Auth")].
(** The text for bit [i]: its name, or its mask in hexadecimal. *)
Definition capability_word (i : Z) (w : bytes) : Prop :=
  In (i, w) capability_names \/ 5 <= i /\ exists d, hex_numeral d (2 ^ i) /\ w = s2b "0x" ++ d.
(** [s] lists [words], separated by '|', or is "None" if there are none. *)
Fixpoint bar_list (words : list bytes) : bytes :=
  match words with [] => [] | [w] => w | w :: t => w ++ s2b "|" ++ bar_list t end.
Definition capability_list (words : list bytes) (s : bytes) : Prop :=
  words = [] /\ s = s2b "None" \/ words <> [] /\ s = bar_list words.
