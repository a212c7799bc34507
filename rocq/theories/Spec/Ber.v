(** X.690 encodings of object trees (C40, C60): BER as a relation, DER as the canonical one. *)
From Verif.Model Require Import Bytes Ber.

(** Big-endian value *)
Definition be_val (d : bytes) : Z := fold_left (fun acc b => 256 * acc + b2z b) d 0.

(** Identifier octets: bit 6 says whether the encoding is constructed; 31 in the low five bits announces more octets, all
    but the last with the top bit set. *)
Definition identifier (constructed : bool) (t : bytes) : Prop :=
  exists b r, t = b :: r /\ (b2z b / 32) mod 2 = (if constructed then 1 else 0) /\
    ((b2z b mod 32 <> 31 /\ r = []) \/
     (b2z b mod 32 = 31 /\ exists hi lo, r = hi ++ [lo] /\ Forall (fun c => 128 <= b2z c) hi /\ b2z lo < 128)).

(** Length octets, definite form.  The long form has at most four octets and a value below 2^31 (the limit of the
    code; BER has no limit). *)
Inductive ber_length : Z -> bytes -> Prop :=
| short_form n : 0 <= n < 128 -> ber_length n [z2b n]
| long_form d : 1 <= zlen d <= 4 -> be_val d < 2 ^ 31 -> ber_length (be_val d) (z2b (128 + zlen d) :: d).
(** The shortest one. *)
Inductive der_length : Z -> bytes -> Prop :=
| short_min n : 0 <= n < 128 -> der_length n [z2b n]
| long_min c d : 128 <= be_val (c :: d) -> c <> x00 -> zlen (c :: d) < 127 -> der_length (be_val (c :: d)) (z2b (128 + zlen (c :: d)) :: c :: d).

Definition tag_of (o : asn1obj) : bytes := match o with Prim t _ => t | Struct t _ => t end.

(** The tag 00 is reserved for end-of-contents.  [e] says whether the indefinite form is allowed for an empty list. *)
Inductive ber (e : bool) : asn1obj -> bytes -> Prop :=
| ber_prim t c l : identifier false t -> ber_length (zlen c) l -> ber e (Prim t c) (t ++ l ++ c)
| ber_definite t os body l : identifier true t -> bers e os body -> ber_length (zlen body) l -> ber e (Struct t os) (t ++ l ++ body)
| ber_indefinite t os body : identifier true t -> bers e os body -> (e = true \/ os <> []) -> Forall (fun o => tag_of o <> [x00]) os ->
    ber e (Struct t os) (t ++ [x80] ++ body ++ [x00; x00])
with bers (e : bool) : list asn1obj -> bytes -> Prop :=
| bers_nil : bers e [] []
| bers_cons o b os bs : ber e o b -> bers e os bs -> bers e (o :: os) (b ++ bs).

Inductive der : asn1obj -> bytes -> Prop :=
| der_prim t c l : identifier false t -> der_length (zlen c) l -> der (Prim t c) (t ++ l ++ c)
| der_struct t os body l : identifier true t -> ders os body -> der_length (zlen body) l -> der (Struct t os) (t ++ l ++ body)
with ders : list asn1obj -> bytes -> Prop :=
| ders_nil : ders [] []
| ders_cons o b os bs : der o b -> ders os bs -> ders (o :: os) (b ++ bs).
