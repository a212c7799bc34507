(** utf8.Valid, utf16.Decode and the conversion of runes to a string, of the standard library (Go 1.24), as used by
    internal/asn1andr/asn1.go:482-512. *)
From Verif.Model Require Import Bytes Env Asn1 GoTime.

(** utf8: the tables first and acceptRanges: number of bytes, and range of the second byte *)
Definition utf8First (c : Z) : option (Z * Z * Z) :=
  if c <? 194 then None                       (* 80..C1 *)
  else if c <=? 223 then Some (2, 128, 191)   (* C2..DF *)
  else if c =? 224 then Some (3, 160, 191)    (* E0 *)
  else if c <=? 236 then Some (3, 128, 191)   (* E1..EC *)
  else if c =? 237 then Some (3, 128, 159)    (* ED *)
  else if c <=? 239 then Some (3, 128, 191)   (* EE..EF *)
  else if c =? 240 then Some (4, 144, 191)    (* F0 *)
  else if c <=? 243 then Some (4, 128, 191)   (* F1..F3 *)
  else if c =? 244 then Some (4, 128, 143)    (* F4 *)
  else None.
Definition inRange (lo hi : Z) (c : byte) : bool := negb ((b2z c <? lo) || (hi <? b2z c)).
(** utf8.Valid: one character *)
Definition utf8Step (p : bytes) : option bytes :=
  match p with
  | [] => None
  | c :: r =>
      if b2z c <? 128 then Some r
      else match utf8First (b2z c) with
           | None => None
           | Some (size, lo, hi) =>
               match r with
               | c1 :: r1 =>
                   if negb (inRange lo hi c1) then None
                   else if size =? 2 then Some r1
                   else match r1 with
                        | c2 :: r2 =>
                            if negb (inRange 128 191 c2) then None
                            else if size =? 3 then Some r2
                            else match r2 with
                                 | c3 :: r3 => if negb (inRange 128 191 c3) then None else Some r3
                                 | [] => None
                                 end
                        | [] => None
                        end
               | [] => None
               end
           end
  end.
(** utf8.Valid *)
Fixpoint utf8Loop (fuel : nat) (p : bytes) : bool :=
  match p with
  | [] => true
  | _ => match fuel with
         | O => false
         | Datatypes.S f => match utf8Step p with Some r => utf8Loop f r | None => false end
         end
  end.
Definition utf8Valid (p : bytes) : bool := utf8Loop (length p) p.

(** utf8.AppendRune *)
Definition appendRune (r : Z) : bytes :=
  if r <? 128 then [z2b r]
  else if r <? 2048 then [z2b (192 + r / 64); z2b (128 + r mod 64)]
  else if r <? 65536 then [z2b (224 + r / 4096); z2b (128 + r / 64 mod 64); z2b (128 + r mod 64)]
  else [z2b (240 + r / 262144); z2b (128 + r / 4096 mod 64); z2b (128 + r / 64 mod 64); z2b (128 + r mod 64)].
(** utf16.Decode *)
Fixpoint utf16Decode (s : list Z) : list Z :=
  match s with
  | [] => []
  | r :: rest =>
      if (r <? 55296) || (57344 <=? r) then r :: utf16Decode rest
      else match rest with
           | l :: rest' =>
               if (r <? 56320) && (56320 <=? l) && (l <? 57344) then ((r - 55296) * 1024 + (l - 56320) + 65536) :: utf16Decode rest'
               else 65533 :: utf16Decode rest
           | [] => 65533 :: utf16Decode rest
           end
  end.
(** string(utf16.Decode(s)) *)
Definition utf16String (s : list Z) : bytes := concat (map appendRune (utf16Decode s)).

(** The text functions, without parameters *)
Definition goText : textenv := {| x_utc := parseUTCTime; x_generalized := parseGeneralizedTime; x_utf8 := utf8Valid; x_utf16 := utf16String |}.
