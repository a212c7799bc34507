(** Specification for the choice of a certificate (C42, C58). *)
From Verif.Model Require Import Bytes Env.

(** [c] is the first certificate of one of the chains. *)
Definition leaf (c : cert) (chains : list (list cert)) : Prop := exists t, In (c :: t) chains.
Definition nonempty_chains (chains : list (list cert)) : Prop := ~ In [] chains.

(** The validity period of a certificate, in nanoseconds: it contains at least an instant, or its (then negative or null)
    length is representable as a time.Duration. *)
Definition usual_period (c : cert) : Prop :=
  c_not_before c < c_not_after c \/ - 2 ^ 63 <= c_not_after c - c_not_before c.

Definition valid_at (now : Z) (c : cert) : Prop := c_not_before c <= now <= c_not_after c.

(** Lower case hexadecimal: "0123456789abcdef". *)
Definition hex_alphabet : bytes :=
  [x30; x31; x32; x33; x34; x35; x36; x37; x38; x39; x61; x62; x63; x64; x65; x66].
Inductive hex_text : bytes -> bytes -> Prop :=
| hex_nil : hex_text [] []
| hex_cons b data hi lo s :
    nth_error hex_alphabet (Z.to_nat (b2z b / 16)) = Some hi ->
    nth_error hex_alphabet (Z.to_nat (b2z b mod 16)) = Some lo ->
    hex_text data s -> hex_text (b :: data) (hi :: lo :: s).

(** A printed name: the fields present, "KEY=v1;v2", separated by ", ". *)
Fixpoint separated (sep : bytes) (l : list bytes) : bytes :=
  match l with [] => [] | [x] => x | x :: t => x ++ sep ++ separated sep t end.
Definition shown_fields (fields : list (bytes * list bytes)) : list bytes :=
  map (fun f => fst f ++ [x3d] ++ separated [x3b] (snd f))
      (filter (fun f => match snd f with [] => false | _ => true end) fields).
