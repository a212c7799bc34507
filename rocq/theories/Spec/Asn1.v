(** X.690 contents octets (C41). *)
From Verif.Model Require Import Bytes Env Asn1.
From Verif.Spec Require Import Ber.

(** INTEGER: two's complement, big endian; the shortest such octets. *)
Definition twos_complement (b : bytes) (z : Z) : Prop :=
  b <> [] /\ - (256 ^ zlen b) <= 2 * z < 256 ^ zlen b /\ be_val b = z mod 256 ^ zlen b.
Definition integer_octets (b : bytes) (z : Z) : Prop :=
  twos_complement b z /\ forall b', twos_complement b' z -> zlen b <= zlen b'.

(** Base 128: groups of seven bits, big endian, the top bit set in all but the last octet. *)
Definition groups_val (gs : list Z) : Z := fold_left (fun acc g => 128 * acc + g) gs 0.
Definition base128_octets (b : bytes) (n : Z) : Prop :=
  exists hi lo, Forall (fun g => 0 <= g < 128) hi /\ 0 <= lo < 128 /\
    b = map (fun g => z2b (g + 128)) hi ++ [z2b lo] /\ n = groups_val (hi ++ [lo]).
(** Shortest: the first group is not zero (or is the only one). *)
Definition base128_shortest (b : bytes) (n : Z) : Prop := base128_octets b n /\ forall t, b <> x80 :: t.

(** OBJECT IDENTIFIER: the first two numbers are combined. *)
Inductive numbers_octets : list Z -> bytes -> Prop :=
| no_nil : numbers_octets [] []
| no_cons n b l bs : base128_octets b n -> numbers_octets l bs -> numbers_octets (n :: l) (b ++ bs).
Definition valid_oid (o : list Z) : Prop :=
  exists a b r, o = a :: b :: r /\ 0 <= a <= 2 /\ 0 <= b /\ (a < 2 -> b < 40) /\ a * 40 + b <= max_int32 /\
    Forall (fun n => 0 <= n <= max_int32) r.
Definition oid_octets (o : list Z) (bs : bytes) : Prop :=
  exists a b r, o = a :: b :: r /\ 0 <= a <= 2 /\ 0 <= b /\ (a < 2 -> b < 40) /\ numbers_octets (a * 40 + b :: r) bs.

(** Identifier and length octets as bytes, for a definite length. *)
Definition valid_header (t : tagAndLength) : Prop :=
  0 <= tl_class t < 4 /\ 0 <= tl_tag t <= max_int32 /\ 0 <= tl_length t < 2 ^ 31.

(** Identifier octets of a class, form and number: one octet below 31, base 128 octets otherwise (the decoder also
    accepts those for numbers below 31, and numbers with leading zero groups, in at most five octets). *)
Definition identifier_octets (class tag : Z) (compound : bool) (id : bytes) : Prop :=
  0 <= class < 4 /\
  ((0 <= tag < 31 /\ id = [z2b (class * 64 + (if compound then 32 else 0) + tag)]) \/
   exists b, base128_octets b tag /\ zlen b <= 5 /\ tag <= max_int32 /\ id = z2b (class * 64 + (if compound then 32 else 0) + 31) :: b).
Definition identifier_shortest (class tag : Z) (compound : bool) (id : bytes) : Prop :=
  identifier_octets class tag compound id /\ (forall b c, id = b :: c -> b2z b mod 32 = 31 -> 31 <= tag /\ base128_shortest c tag).
(** Length octets: definite form, any number of leading zeros. *)
Definition definite_length (n : Z) (l : bytes) : Prop :=
  (0 <= n < 128 /\ l = [z2b n]) \/ exists d, 1 <= zlen d <= 127 /\ l = z2b (128 + zlen d) :: d /\ n = be_val d /\ n < 2 ^ 31.
