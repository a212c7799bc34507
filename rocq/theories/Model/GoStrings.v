(** The functions of Go's strings, strconv and path/filepath packages that /repo/schemev1.go,
    manifest.go and apkverifier.go call, on byte strings. *)
From Coq Require Import String.
From Verif.Model Require Import Bytes.

(** strings.HasPrefix / HasSuffix / Contains *)
Fixpoint hasPrefix (s p : bytes) : bool :=
  match p, s with
  | [], _ => true
  | x :: p', y :: s' => byte_eqb x y && hasPrefix s' p'
  | _, [] => false
  end.
Definition hasSuffix (s p : bytes) : bool := hasPrefix (rev s) (rev p).
Fixpoint contains (s sub : bytes) : bool :=
  hasPrefix s sub || match s with [] => false | _ :: t => contains t sub end.

(** strings.Split(s, sep) for a one-byte separator: always at least one token *)
Fixpoint splitByte (s : bytes) (sep : byte) : list bytes :=
  match s with
  | [] => [[]]
  | c :: t => if byte_eqb c sep then [] :: splitByte t sep
              else match splitByte t sep with
                   | tok :: r => (c :: tok) :: r
                   | [] => [[c]]
                   end
  end.

(** The UTF-8 encodings of the runes for which unicode.IsSpace is true. *)
Definition spaceRunes : list bytes :=
  map (map z2b)
    ([[9]; [10]; [11]; [12]; [13]; [32]; [0xC2; 0x85]; [0xC2; 0xA0]; [0xE1; 0x9A; 0x80];
      [0xE2; 0x80; 0xA8]; [0xE2; 0x80; 0xA9]; [0xE2; 0x80; 0xAF]; [0xE2; 0x81; 0x9F]; [0xE3; 0x80; 0x80]]
     ++ map (fun k => [0xE2; 0x80; 0x80 + k]) [0; 1; 2; 3; 4; 5; 6; 7; 8; 9; 10]).

(** Remove any of the given prefixes as long as one matches.  Fuel: each removes at least one byte. *)
Fixpoint stripPrefixes (fuel : nat) (ps : list bytes) (s : bytes) : bytes :=
  match fuel with
  | O => s
  | S fuel' =>
      match find (hasPrefix s) ps with
      | Some p => stripPrefixes fuel' ps (skipn (List.length p) s)
      | None => s
      end
  end.
(** strings.TrimSpace: trim at the left, then at the right (matching encodings backwards) *)
Definition trimSpace (s : bytes) : bytes :=
  let l := stripPrefixes (List.length s) spaceRunes s in
  rev (stripPrefixes (List.length l) (map (@rev byte) spaceRunes) (rev l)).

(** strconv.ParseInt(s, 10, 32): None = error (syntax or range) *)
Definition isDigit (c : byte) : bool := (48 <=? b2z c) && (b2z c <=? 57).
Definition digitsValue (s : bytes) : Z := fold_left (fun a c => 10 * a + (b2z c - 48)) s 0.
Definition parseUint (s : bytes) : option Z :=
  match s with [] => None | _ => if forallb isDigit s then Some (digitsValue s) else None end.
Definition parseInt32 (s : bytes) : option Z :=
  match s with
  | [] => None
  | c :: t =>
      if byte_eqb c "-"%byte then
        match parseUint t with Some v => if 2147483648 <? v then None else Some (- v) | None => None end
      else
        match parseUint (if byte_eqb c "+"%byte then t else s) with
        | Some v => if 2147483647 <? v then None else Some v
        | None => None
        end
  end.

(** strings.LastIndexByte, as (before, after); None = -1 *)
Fixpoint cutLast (s : bytes) (sep : byte) : option (bytes * bytes) :=
  match s with
  | [] => None
  | c :: t => match cutLast t sep with
              | Some (p, q) => Some (c :: p, q)
              | None => if byte_eqb c sep then Some ([], t) else None
              end
  end.

(** filepath.Base on Unix *)
Fixpoint dropSlashes (l : bytes) : bytes :=
  match l with [] => [] | c :: t => if byte_eqb c "/"%byte then dropSlashes t else l end.
Definition pathBase (p : bytes) : bytes :=
  match p with
  | [] => s2b "."
  | _ => let q := rev (dropSlashes (rev p)) in
         let b := match cutLast q "/"%byte with Some (_, b) => b | None => q end in
         match b with [] => s2b "/" | _ => b end
  end.
