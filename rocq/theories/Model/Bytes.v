(** Bytes, fixed-width integers, Go panics and Go maps: the vocabulary of the model.
    Nothing here is specific to apkverifier; it models the Go language/run-time
    features used by the code in /repo. *)
From Coq Require Import String.
From Coq Require Export List ZArith Bool.
From Coq Require Export Init.Byte.
From Coq Require Strings.Byte.
Export ListNotations.
Global Open Scope Z_scope.

Notation bytes := (list byte).

(** Go string literals, as byte lists. *)
Definition s2b (s : string) : bytes := list_byte_of_string s.

(** A Go expression either yields a value or panics at run time. *)
Inductive panic : Set :=
| PTypeAssertion      (* x.(T) on the wrong dynamic type *)
| PIndex              (* index out of range *)
| PSlice              (* slice bounds out of range *)
| PExplicit           (* panic(...) *)
| PNil.               (* nil dereference *)

Inductive outcome (A : Type) : Type :=
| Ret (a : A)
| Panic (p : panic).
Arguments Ret {A} a.
Arguments Panic {A} p.

Definition obind {A B} (m : outcome A) (f : A -> outcome B) : outcome B :=
  match m with Ret a => f a | Panic p => Panic p end.
Notation "x <- m ;; k" := (obind m (fun x => k)) (at level 61, m at next level, right associativity).
Notation "' pat <- m ;; k" :=
  (obind m (fun x => match x with pat => k end)) (at level 61, pat pattern, m at next level, right associativity).

(** byte <-> integer *)
Definition b2z (b : byte) : Z := Z.of_N (Byte.to_N b).
(** Go conversion byte(z): keeps the low 8 bits. *)
Definition z2b (z : Z) : byte :=
  match Byte.of_N (Z.to_N (z mod 256)) with Some b => b | None => x00 end.

Definition byte_eqb (a b : byte) : bool := Byte.eqb a b.
Fixpoint bytes_eqb (a b : bytes) : bool :=           (* bytes.Equal / string == *)
  match a, b with
  | [], [] => true
  | x :: a', y :: b' => byte_eqb x y && bytes_eqb a' b'
  | _, _ => false
  end.

(** len(x) *)
Definition zlen {A} (l : list A) : Z := Z.of_nat (length l).

(** encoding/binary LittleEndian: decode all bytes of the list / encode n bytes. *)
Fixpoint le_dec (b : bytes) : Z :=
  match b with [] => 0 | x :: t => b2z x + 256 * le_dec t end.
Fixpoint le_enc (n : nat) (z : Z) : bytes :=
  match n with O => [] | S n' => z2b z :: le_enc n' (z / 256) end.

(** Go conversions to int32 / int64 / uint32 (two's complement wrap-around). *)
Definition wrap32 (z : Z) : Z := (z + 2147483648) mod 4294967296 - 2147483648.
Definition wrap64 (z : Z) : Z := (z + 9223372036854775808) mod 18446744073709551616 - 9223372036854775808.
Definition max_int32 : Z := 2147483647.
Definition min_int32 : Z := -2147483648.

(** First n / all but the first n elements, with an integer count (Go slicing b[:n], b[n:];
    callers check the bounds). *)
Fixpoint takeZ {A} (n : Z) (l : list A) : list A :=
  match l with [] => [] | x :: t => if 0 <? n then x :: takeZ (n - 1) t else [] end.
Fixpoint dropZ {A} (n : Z) (l : list A) : list A :=
  match l with [] => [] | x :: t => if 0 <? n then dropZ (n - 1) t else l end.

(** Seek(off) + io.ReadFull of n bytes on an in-memory file: fails on a negative offset
    or when fewer than n bytes remain.  (Simplification: no other I/O errors.) *)
Definition read_at (file : bytes) (off n : Z) : option bytes :=
  if (off <? 0) || (n <? 0) || (zlen file <? off + n) then None
  else Some (takeZ n (dropZ off file)).

(** binary.Read(buf, LittleEndian, &x) for an n-byte integer on a bytes.Buffer:
    io.EOF / io.ErrUnexpectedEOF when fewer than n bytes remain. *)
Definition read_uint (n : nat) (buf : bytes) : option (Z * bytes) :=
  if zlen buf <? Z.of_nat n then None
  else Some (le_dec (firstn n buf), skipn n buf).
Definition read_u32 (buf : bytes) : option (Z * bytes) := read_uint 4 buf.
Definition read_i32 (buf : bytes) : option (Z * bytes) :=
  match read_uint 4 buf with Some (z, r) => Some (wrap32 z, r) | None => None end.
Definition read_i64 (buf : bytes) : option (Z * bytes) :=
  match read_uint 8 buf with Some (z, r) => Some (wrap64 z, r) | None => None end.

(** Go maps as association lists with at most one binding per key. *)
Section Map.
  Context {K V : Type} (eqb : K -> K -> bool).
  Fixpoint mget (k : K) (m : list (K * V)) : option V :=
    match m with
    | [] => None
    | (k', v) :: t => if eqb k k' then Some v else mget k t
    end.
  Fixpoint mset (k : K) (v : V) (m : list (K * V)) : list (K * V) :=
    match m with
    | [] => [(k, v)]
    | (k', v') :: t => if eqb k k' then (k, v) :: t else (k', v') :: mset k v t
    end.
  Fixpoint mdel (k : K) (m : list (K * V)) : list (K * V) :=
    match m with
    | [] => []
    | (k', v') :: t => if eqb k k' then t else (k', v') :: mdel k t
    end.
End Map.
Notation zget := (mget Z.eqb).
Notation zset := (mset Z.eqb).
Notation zdel := (mdel Z.eqb).
Notation sget := (mget bytes_eqb).
Notation sset := (mset bytes_eqb).
Notation sdel := (mdel bytes_eqb).

(** Insertion sort: one possible behaviour of sort.Slice, used in concrete examples. *)
Section Sort.
  Context {A : Type} (less : A -> A -> bool).
  Fixpoint insert_sorted (x : A) (l : list A) : list A :=
    match l with
    | [] => [x]
    | y :: t => if less x y then x :: l else y :: insert_sorted x t
    end.
  Fixpoint isort (l : list A) : list A :=
    match l with [] => [] | x :: t => insert_sorted x (isort t) end.
End Sort.

(** make([]byte, n) *)
Definition zeros (n : Z) : bytes := repeat x00 (Z.to_nat n).
(** b[i:j] for 0 <= i <= j <= len(b) (callers check) *)
Definition slice {A} (b : list A) (i j : Z) : list A := takeZ (j - i) (dropZ i b).
(** copy(buf[off:], data): panics when off > len(buf), otherwise overwrites what fits. *)
Definition copyAt (buf : bytes) (off : Z) (data : bytes) : outcome bytes :=
  if (off <? 0) || (zlen buf <? off) then Panic PSlice
  else let d := takeZ (zlen buf - off) data in
       Ret (takeZ off buf ++ d ++ dropZ (off + zlen d) buf).

(** encoding/hex EncodeToString *)
Definition hex_digit (n : Z) : byte := if n <? 10 then z2b (48 + n) else z2b (87 + n).
Definition hex_encode (b : bytes) : bytes :=
  flat_map (fun x => [hex_digit (b2z x / 16); hex_digit (b2z x mod 16)]) b.
