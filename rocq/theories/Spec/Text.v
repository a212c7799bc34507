(** Unicode text in certificates: UTF-8 and UTF-16 (C83). *)
From Verif.Model Require Import Bytes.

(** Unicode scalar values, and their UTF-8 encoding (RFC 3629) *)
Definition scalar_value (c : Z) : Prop := 0 <= c <= 1114111 /\ ~ (55296 <= c <= 57343).
Inductive utf8 (c : Z) : bytes -> Prop :=
| utf8_1 : 0 <= c < 128 -> utf8 c [z2b c]
| utf8_2 a b : 128 <= c < 2048 -> 0 <= b < 64 -> c = a * 64 + b -> utf8 c [z2b (192 + a); z2b (128 + b)]
| utf8_3 a b d : 2048 <= c < 65536 -> 0 <= b < 64 -> 0 <= d < 64 -> c = (a * 64 + b) * 64 + d -> utf8 c [z2b (224 + a); z2b (128 + b); z2b (128 + d)]
| utf8_4 a b d e : 65536 <= c <= 1114111 -> 0 <= b < 64 -> 0 <= d < 64 -> 0 <= e < 64 -> c = ((a * 64 + b) * 64 + d) * 64 + e ->
    utf8 c [z2b (240 + a); z2b (128 + b); z2b (128 + d); z2b (128 + e)].
Definition utf8_text (cs : list Z) (b : bytes) : Prop :=
  Forall scalar_value cs /\ exists parts, Forall2 utf8 cs parts /\ b = concat parts.

(** UTF-16 code units: single units, surrogate pairs, and U+FFFD for a surrogate without its partner *)
Definition high (u : Z) : Prop := 55296 <= u <= 56319.
Definition low (u : Z) : Prop := 56320 <= u <= 57343.
Inductive utf16 : list Z -> list Z -> Prop :=
| u16_nil : utf16 [] []
| u16_single u us cs : ~ high u -> ~ low u -> utf16 us cs -> utf16 (u :: us) (u :: cs)
| u16_pair h l us cs : high h -> low l -> utf16 us cs -> utf16 (h :: l :: us) (65536 + (h - 55296) * 1024 + (l - 56320) :: cs)
| u16_high h us cs : high h -> (forall l t, us = l :: t -> ~ low l) -> utf16 us cs -> utf16 (h :: us) (65533 :: cs)
| u16_low l us cs : low l -> utf16 us cs -> utf16 (l :: us) (65533 :: cs).
(** Big-endian octets of the units *)
Definition units_octets (us : list Z) (b : bytes) : Prop :=
  Forall (fun u => 0 <= u < 65536) us /\ b = flat_map (fun u => [z2b (u / 256); z2b (u mod 256)]) us.
(** A BMPString, of which one final zero unit is ignored, and its text in UTF-8 *)
Definition bmp_text (b s : bytes) : Prop :=
  exists us us' cs, units_octets us b /\ utf16 us' cs /\ utf8_text cs s /\
    (us = us' ++ [0] \/ (us = us' /\ forall x, us <> x ++ [0])).
(** The text of a string type with these content octets *)
Definition string_text (tag : Z) (content s : bytes) : Prop :=
  ((tag = 19 \/ tag = 20) /\ s = content) \/
  (tag = 18 /\ s = content /\ Forall (fun c => 48 <= b2z c <= 57 \/ b2z c = 32) content) \/
  (tag = 22 /\ s = content /\ Forall (fun c => b2z c < 128) content) \/
  (tag = 12 /\ s = content /\ exists cs, utf8_text cs content) \/
  (tag = 30 /\ bmp_text content s).
