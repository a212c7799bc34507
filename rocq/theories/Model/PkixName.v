(** /repo/schemev1.go:906-1000: canonical form of X.501 names, used to match issuers and subjects *)
From Coq Require Import String.
From Coq Require Import DecimalString.
From Verif.Model Require Import Bytes Env.

(** fmt %d / strconv.Itoa *)
Definition itoa (z : Z) : bytes := s2b (NilZero.string_of_int (Z.to_int z)).

(** strings.Join-like *)
Fixpoint joinBytes (sep : bytes) (l : list bytes) : bytes :=
  match l with
  | [] => []
  | [x] => x
  | x :: t => x ++ sep ++ joinBytes sep t
  end.

(** asn1.ObjectIdentifier.String() *)
Definition oidString (o : oid) : bytes := joinBytes (s2b ".") (map itoa o).

(** schemev1.go:910-934 byX501Canonical.Less on the types *)
Fixpoint oidLess (a b : oid) : bool :=
  match a, b with
  | x :: a', y :: b' =>
      if x <? y then true
      else if y <? x then false
      else match a', b' with
           | [], _ :: _ => true
           | _ :: _, [] => false
           | _, _ => oidLess a' b'
           end
  | _, _ => false
  end.
Definition x501Less (a b : atav) : bool := oidLess (at_type a) (at_type b).

(* schemev1.go:971 *)
Definition isEscaped (c : byte) : bool :=
  existsb (byte_eqb c) (map z2b [34; 92; 44; 43; 60; 62; 59]).   (* double quote, backslash, comma, plus, less, greater, semicolon *)

(** schemev1.go:963-977 the loop over the bytes of a value; [buf] is what was written since bufStart.
    An escaped character is replaced by a backslash (the code does not write the character itself). *)
Fixpoint canonLoop (val buf : bytes) : bytes :=
  match val with
  | [] => buf
  | c :: t =>
      canonLoop t (if byte_eqb c x20 then
                     match buf with
                     | [] => buf
                     | b :: r => if byte_eqb (last (b :: r) b) x20 then buf else buf ++ [x20]
                     end
                   else if isEscaped c then buf ++ ["\"%byte]
                   else buf ++ [c])
  end.

(** schemev1.go:979-983 *)
Fixpoint dropSpaces (l : bytes) : bytes :=
  match l with [] => [] | c :: t => if byte_eqb c x20 then dropSpaces t else l end.
Definition trimRightSpaces (b : bytes) : bytes := rev (dropSpaces (rev b)).

(** schemev1.go:948-987 one value *)
Definition canonValue (v : atav_value) : bytes :=
  match v with
  | AvString [] => []
  | AvString (c :: t) =>
      trimRightSpaces (if byte_eqb c "#"%byte then canonLoop t (s2b "\#") else canonLoop (c :: t) [])
  | AvOther printed => printed
  end.

Section WithEnv.
  Variable E : env.
  Variable S : sched.

  (** schemev1.go:943-994 one relative distinguished name *)
  Definition canonRdn (l : list atav) : bytes :=
    joinBytes (s2b "+") (map (fun a => oidString (at_type a) ++ s2b "=" ++ canonValue (at_value a)) (srt S _ x501Less l)).

  (** schemev1.go:936-1000 pkixCanonical / pkixCanonicalSeq (the sequence is ToRDNSequence() of the name) *)
  Definition pkixCanonical (n : rdn_seq) : bytes :=
    e_to_lower E (joinBytes (s2b ",") (map canonRdn (rev n))).
End WithEnv.
