(** /repo/internal/asn1andr: the lenient ASN.1 decoder (asn1.go), the encoder (marshal.go) and common.go.
    A position in a byte slice is represented by the remaining bytes; all errors are None.  Go types are described by
    [gotype], values by [goval]; parsing into a variable takes the old value and returns the new one even
    when it fails, because callers may ignore the error (pkcs7.go:177). *)
From Verif.Model Require Import Bytes Env.

(** common.go:19-50 *)
Definition TagBoolean := 1.
Definition TagInteger := 2.
Definition TagBitString := 3.
Definition TagOctetString := 4.
Definition TagOID := 6.
Definition TagEnum := 10.
Definition TagUTF8String := 12.
Definition TagSequence := 16.
Definition TagSet := 17.
Definition TagNumericString := 18.
Definition TagPrintableString := 19.
Definition TagT61String := 20.
Definition TagIA5String := 22.
Definition TagUTCTime := 23.
Definition TagGeneralizedTime := 24.
Definition TagGeneralString := 27.
Definition TagBMPString := 30.
Definition ClassUniversal := 0.
Definition ClassApplication := 1.
Definition ClassContextSpecific := 2.
Definition ClassPrivate := 3.

(** common.go:52-55 *)
Record tagAndLength : Set := { tl_class : Z; tl_tag : Z; tl_length : Z; tl_compound : bool }.

(** common.go:77-92 fieldParameters *)
Record fparams : Set := {
  fp_optional : bool; fp_explicit : bool; fp_application : bool; fp_private : bool;
  fp_default : option Z; fp_tag : option Z; fp_stringType : Z; fp_set : bool; fp_omitEmpty : bool }.
Definition noParams : fparams :=
  {| fp_optional := false; fp_explicit := false; fp_application := false; fp_private := false;
     fp_default := None; fp_tag := None; fp_stringType := 0; fp_set := false; fp_omitEmpty := false |}.

(** The Go types that can be parsed. *)
Inductive gotype : Set :=
| TyAny                                    (* interface{} *)
| TyRaw                                    (* asn1.RawValue *)
| TyOid                                    (* asn1.ObjectIdentifier *)
| TyBits                                   (* asn1.BitString *)
| TyTime                                   (* time.Time *)
| TyEnum                                   (* asn1.Enumerated *)
| TyFlag                                   (* asn1.Flag *)
| TyBig                                    (* big.Int pointer *)
| TyBool
| TyInt                                    (* int, int64 *)
| TyInt32
| TyBytes                                  (* []byte *)
| TyString
| TySlice (setName : bool) (elem : gotype) (* setName: the type name ends in SET *)
| TyStruct (rawContent : bool) (fields : tfields)   (* rawContent: the first field is an asn1.RawContent *)
with tfields : Set :=
| FNil
| FCons (p : fparams) (t : gotype) (fs : tfields).

(** Go values.  [VNil] is the zero value of slices, pointers and interfaces.  Simplification: the Bytes and FullBytes
    of a RawValue, RawContent and the bytes of a BitString do not distinguish nil from empty. *)
Inductive goval : Set :=
| VNil
| VRaw (class tag : Z) (compound : bool) (bytes full : bytes)
| VOid (l : list Z)
| VBits (b : bytes) (bitlen : Z)
| VTime (t : Z)
| VInt (z : Z)
| VBool (b : bool)
| VBytes (b : bytes)
| VString (s : bytes)
| VSlice (l : list goval)
| VStruct (raw : bytes) (fields : list goval)
| VAny (v : goval).

Fixpoint zeroVal (t : gotype) : goval :=
  match t with
  | TyRaw => VRaw 0 0 false [] []
  | TyBits => VBits [] 0
  | TyTime => VTime (-62135596800) (* year 1: time.Time{} *)
  | TyEnum | TyInt | TyInt32 => VInt 0
  | TyFlag | TyBool => VBool false
  | TyString => VString []
  | TyStruct _ fs => VStruct [] (zeroFields fs)
  | TyAny | TyOid | TyBig | TyBytes | TySlice _ _ => VNil
  end
with zeroFields (fs : tfields) : list goval :=
  match fs with FNil => [] | FCons _ t r => zeroVal t :: zeroFields r end.

(** Standard library functions used on text and times: time.Parse with the UTCTime / GeneralizedTime formats and the
    check that it formats back (asn1.go:330-375), utf8.Valid, utf16.Decode to a UTF-8 string. *)
Record textenv : Set := {
  x_utc : bytes -> option Z;
  x_generalized : bytes -> option Z;
  x_utf8 : bytes -> bool;
  x_utf16 : list Z -> bytes
}.

(** *** asn1.go:53-73 parseBool *)
Definition parseBool (b : bytes) : option bool :=
  match b with
  | [x] => if b2z x =? 0 then Some false else if b2z x =? 255 then Some true else None
  | _ => None
  end.

(** asn1.go:79-90 checkInteger (true = valid) *)
Definition checkInteger (b : bytes) : bool :=
  match b with
  | [] => false
  | [_] => true
  | x :: y :: _ => negb (((b2z x =? 0) && (b2z y <? 128)) || ((b2z x =? 255) && (128 <=? b2z y)))
  end.

(* big-endian value: asn1.go:103-106, big.Int.SetBytes *)
Fixpoint be_acc (acc : Z) (b : bytes) : Z := match b with [] => acc | x :: t => be_acc (acc * 256 + b2z x) t end.

(** asn1.go:94-112 parseInt64; the two shifts sign-extend *)
Definition parseInt64 (b : bytes) : option Z :=
  if negb (checkInteger b) then None
  else if 8 <? zlen b then None
  else let k := 64 - 8 * zlen b in Some (wrap64 (wrap64 (be_acc 0 b) * 2 ^ k) / 2 ^ k).

(** asn1.go:116-128 parseInt32 *)
Definition parseInt32 (b : bytes) : option Z :=
  match parseInt64 b with
  | Some z => if z =? wrap32 z then Some z else None
  | None => None
  end.

(** asn1.go:134-152 parseBigInt *)
Definition notByte (b : byte) : byte := z2b (255 - b2z b).
Definition parseBigInt (b : bytes) : option Z :=
  if negb (checkInteger b) then None
  else match b with
       | x :: _ => if 128 <=? b2z x then Some (- (be_acc 0 (map notByte b) + 1)) else Some (be_acc 0 b)
       | [] => Some 0
       end.

(** asn1.go:193-208 parseBitString *)
Definition parseBitString (b : bytes) : option (bytes * Z) :=
  match b with
  | [] => None
  | x :: t =>
      let padding := b2z x in
      if (7 <? padding) || ((zlen b =? 1) && (0 <? padding)) || negb (Z.land (b2z (last b x)) (2 ^ padding - 1) =? 0) then None
      else Some (t, (zlen b - 1) * 8 - padding)
  end.

(** asn1.go:300-335 parseBase128Int; [k] iterations are left (5 at first) *)
Fixpoint base128 (k : nat) (acc : Z) (s : bytes) : option (Z * bytes) :=
  match s with
  | [] => None
  | b :: t =>
      match k with
      | O => None
      | Datatypes.S k' =>
          let acc' := acc * 128 + b2z b mod 128 in
          if b2z b <? 128 then (if max_int32 <? acc' then None else Some (acc', t)) else base128 k' acc' t
      end
  end.
Definition parseBase128Int (s : bytes) : option (Z * bytes) := base128 5 0 s.

(** asn1.go:252-289 parseObjectIdentifier *)
Fixpoint oidRest (fuel : nat) (s : bytes) : option (list Z) :=
  match s with
  | [] => Some []
  | _ => match fuel with
         | O => None
         | Datatypes.S f => match parseBase128Int s with
                            | Some (v, r) => match oidRest f r with Some l => Some (v :: l) | None => None end
                            | None => None
                            end
         end
  end.
Definition parseObjectIdentifier (s : bytes) : option (list Z) :=
  match s with
  | [] => None
  | _ => match parseBase128Int s with
         | Some (v, r) =>
             match oidRest (List.length r) r with
             | Some l => Some (if v <? 80 then v / 40 :: v mod 40 :: l else 2 :: (v - 80) :: l)
             | None => None
             end
         | None => None
         end
  end.

(** asn1.go:390-400, 443-453 character sets *)
Definition isNumeric (b : byte) : bool := ((48 <=? b2z b) && (b2z b <=? 57)) || (b2z b =? 32).
Definition isPrintable (asterisk ampersand : bool) (b : byte) : bool :=
  let c := b2z b in
  ((97 <=? c) && (c <=? 122)) || ((65 <=? c) && (c <=? 90)) || ((48 <=? c) && (c <=? 57)) ||
  ((39 <=? c) && (c <=? 41)) || ((43 <=? c) && (c <=? 47)) || (c =? 32) || (c =? 58) || (c =? 61) || (c =? 63) ||
  (asterisk && (c =? 42)) || (ampersand && (c =? 38)).

(** asn1.go:490-509 parseBMPString *)
Fixpoint uint16s (b : bytes) : list Z :=
  match b with x :: y :: t => (b2z x * 256 + b2z y) :: uint16s t | _ => [] end.
Definition stripTerminator (b : bytes) : bytes :=
  match rev b with
  | y :: x :: r => if (b2z y =? 0) && (b2z x =? 0) then rev r else b
  | _ => b
  end.

(** asn1.go:581-593 the length bytes *)
Fixpoint lengthBytes (n : nat) (acc : Z) (s : bytes) : option (Z * bytes) :=
  match n with
  | O => Some (acc, s)
  | Datatypes.S m =>
      match s with
      | [] => None
      | b :: t => if 2 ^ 23 <=? acc then None else lengthBytes m (acc * 256 + b2z b) t
      end
  end.
(** asn1.go:530-608 parseTagAndLength *)
Definition parseTagAndLength (s : bytes) : option (tagAndLength * bytes) :=
  match s with
  | [] => None
  | b :: s1 =>
      let class := b2z b / 64 in
      let compound := Z.land (b2z b) 32 =? 32 in
      match (if Z.land (b2z b) 31 =? 31 then parseBase128Int s1 else Some (Z.land (b2z b) 31, s1)) with
      | None => None
      | Some (tag, s2) =>
          match s2 with
          | [] => None
          | l :: s3 =>
              match (if b2z l <? 128 then Some (b2z l, s3)
                     else if b2z l mod 128 =? 0 then None
                     else lengthBytes (Z.to_nat (b2z l mod 128)) 0 s3) with
              | Some (length, s4) => Some ({| tl_class := class; tl_tag := tag; tl_length := length; tl_compound := compound |}, s4)
              | None => None
              end
          end
      end
  end.

(** common.go:153-183 getUniversalType: matchAny, tag number, isCompound *)
Definition getUniversalType (t : gotype) : option (bool * Z * bool) :=
  match t with
  | TyRaw => Some (true, -1, false)
  | TyOid => Some (false, TagOID, false)
  | TyBits => Some (false, TagBitString, false)
  | TyTime => Some (false, TagUTCTime, false)
  | TyEnum => Some (false, TagEnum, false)
  | TyBig => Some (false, TagInteger, false)
  | TyBool | TyFlag => Some (false, TagBoolean, false)
  | TyInt | TyInt32 => Some (false, TagInteger, false)
  | TyStruct _ _ => Some (false, TagSequence, true)
  | TyBytes => Some (false, TagOctetString, false)
  | TySlice true _ => Some (false, TagSet, true)
  | TySlice false _ => Some (false, TagSequence, true)
  | TyString => Some (false, TagPrintableString, false)
  | TyAny => None
  end.

Definition isStringTag (t : Z) : bool :=
  existsb (Z.eqb t) [TagIA5String; TagGeneralString; TagT61String; TagUTF8String; TagNumericString; TagBMPString].

(** asn1.go:1007-1029 setDefaultValue *)
Definition setDefaultValue (t : gotype) (p : fparams) (old : goval) : option goval :=
  if fp_optional p then
    Some match fp_default p, t with
         | Some d, (TyInt | TyInt32 | TyEnum) => VInt d
         | _, _ => old
         end
  else None.

(** The part of parseField that deals with tags, asn1.go:728-835 *)
Inductive header : Set :=
| HErr                                                      (* an error *)
| HMismatch                                                 (* the tags don't match: default value or error *)
| HFlag (rest : bytes)                                      (* zero-length explicit tag of a Flag *)
| HMatch (t : tagAndLength) (universalTag : Z) (inner rest : bytes).
Definition isRaw (t : gotype) : bool := match t with TyRaw => true | _ => false end.
Definition isFlag (t : gotype) : bool := match t with TyFlag => true | _ => false end.

(* asn1.go:776-804: the tag expected for the content *)
Definition adjustTag (p : fparams) (t : tagAndLength) (universalTag : Z) : Z :=
  let u1 := if universalTag =? TagPrintableString then
              (if tl_class t =? ClassUniversal then (if isStringTag (tl_tag t) then tl_tag t else universalTag)
               else if negb (fp_stringType p =? 0) then fp_stringType p else universalTag)
            else universalTag in
  let u2 := if (u1 =? TagUTCTime) && (tl_tag t =? TagGeneralizedTime) && (tl_class t =? ClassUniversal) then TagGeneralizedTime else u1 in
  if fp_set p then TagSet else u2.

(* asn1.go:806-841: class, tag, whether any class and tag match *)
Definition expected (p : fparams) (matchAny : bool) (universalTag : Z) : Z * Z * bool :=
  match fp_tag p with
  | Some tg =>
      if fp_explicit p then (ClassUniversal, universalTag, matchAny)
      else if fp_private p then (ClassPrivate, tg, false)
      else if fp_application p then (ClassApplication, tg, false)
      else (ClassContextSpecific, tg, false)
  | None => (ClassUniversal, universalTag, matchAny)
  end.

Definition matchBody (ty : gotype) (p : fparams) (t : tagAndLength) (s : bytes) : header :=
  match getUniversalType ty with
  | None => HErr
  | Some (matchAny, universalTag, compoundType) =>
      let u := adjustTag p t universalTag in
      let '(eclass, etag, anyTag) := expected p matchAny u in
      if (negb anyTag && (negb (tl_class t =? eclass) || negb (tl_tag t =? etag))) ||
         (negb matchAny && negb (Bool.eqb (tl_compound t) compoundType)) then HMismatch
      else if zlen s <? tl_length t then HErr
      else HMatch t u (takeZ (tl_length t) s) (dropZ (tl_length t) s)
  end.

Definition parseHeader (ty : gotype) (p : fparams) (s : bytes) : header :=
  match parseTagAndLength s with
  | None => HErr
  | Some (t, s1) =>
      if fp_explicit p then
        let eclass := if fp_application p then ClassApplication else ClassContextSpecific in
        match s1 with
        | [] => HErr
        | _ =>
            if (tl_class t =? eclass) && (match fp_tag p with Some tg => tl_tag t =? tg | None => false end) &&
               ((tl_length t =? 0) || tl_compound t) then
              if isRaw ty then matchBody ty p t s1
              else if 0 <? tl_length t then
                match parseTagAndLength s1 with
                | None => HErr
                | Some (t2, s2) => matchBody ty p t2 s2
                end
              else if isFlag ty then HFlag s1
              else HErr
            else HMismatch
        end
      else matchBody ty p t s1
  end.

Section WithText.
  Variable X : textenv.

  (** asn1.go:976-1004 the string types *)
  Definition parseString (universalTag : Z) (b : bytes) : option bytes :=
    if universalTag =? TagPrintableString then Some b
    else if universalTag =? TagNumericString then (if forallb isNumeric b then Some b else None)
    else if universalTag =? TagIA5String then (if forallb (fun c => b2z c <? 128) b then Some b else None)
    else if universalTag =? TagT61String then Some b
    else if universalTag =? TagUTF8String then (if x_utf8 X b then Some b else None)
    else if universalTag =? TagGeneralString then Some b
    else if universalTag =? TagBMPString then
      (if zlen b mod 2 =? 0 then Some (x_utf16 X (uint16s (stripTerminator b))) else None)
    else None.

  (** asn1.go:681-726 parsing into an interface{} *)
  Definition parseAny (old : goval) (s : bytes) : goval * option bytes :=
    match parseTagAndLength s with
    | None => (old, None)
    | Some (t, s1) =>
        if zlen s1 <? tl_length t then (old, None)
        else
          let inner := takeZ (tl_length t) s1 in
          let rest := dropZ (tl_length t) s1 in
          let ret {A} (f : A -> goval) (r : option A) :=
            match r with Some a => (VAny (f a), Some rest) | None => (old, None) end in
          if negb (tl_compound t) && (tl_class t =? ClassUniversal) then
            if existsb (Z.eqb (tl_tag t)) [TagPrintableString; TagNumericString; TagIA5String; TagT61String; TagUTF8String; TagBMPString]
            then ret VString (parseString (tl_tag t) inner)
            else if tl_tag t =? TagInteger then ret VInt (parseInt64 inner)
            else if tl_tag t =? TagBitString then ret (fun p => VBits (fst p) (snd p)) (parseBitString inner)
            else if tl_tag t =? TagOID then ret VOid (parseObjectIdentifier inner)
            else if tl_tag t =? TagUTCTime then ret VTime (x_utc X inner)
            else if tl_tag t =? TagGeneralizedTime then ret VTime (x_generalized X inner)
            else if tl_tag t =? TagOctetString then (VAny (VBytes inner), Some rest)
            else (old, Some rest)
          else (old, Some rest)
    end.

  (** asn1.go:613-651 the first pass of parseSequenceOf: the number of elements; [fuel] bounds the bytes *)
  Fixpoint countElements (fuel : nat) (elem : gotype) (s : bytes) : option nat :=
    match s with
    | [] => Some O
    | _ =>
        match fuel, getUniversalType elem with
        | Datatypes.S f, Some (matchAny, expectedTag, compoundType) =>
            match parseTagAndLength s with
            | None => None
            | Some (t, s1) =>
                let tag := if isStringTag (tl_tag t) then TagPrintableString
                           else if (tl_tag t =? TagGeneralizedTime) || (tl_tag t =? TagUTCTime) then TagUTCTime
                           else tl_tag t in
                if negb matchAny && (negb (tl_class t =? ClassUniversal) || negb (Bool.eqb (tl_compound t) compoundType) || negb (tag =? expectedTag))
                then None
                else if zlen s1 <? tl_length t then None
                else match countElements f elem (dropZ (tl_length t) s1) with
                     | Some n => Some (Datatypes.S n)
                     | None => None
                     end
            end
        | _, _ => None
        end
    end.

  Definition leafValue {A} (old : goval) (rest : bytes) (f : A -> goval) (r : option A) : goval * option bytes :=
    match r with Some a => (f a, Some rest) | None => (old, None) end.

  Definition fieldsOf (v : goval) (zero : list goval) : list goval := match v with VStruct _ l => l | _ => zero end.

  (** asn1.go:666-1005 parseField: the new value and, unless there was an error, the remaining bytes *)
  Fixpoint parseField (ty : gotype) (p : fparams) (old : goval) (s : bytes) : goval * option bytes :=
    match s with
    | [] => match setDefaultValue ty p old with Some v => (v, Some []) | None => (old, None) end
    | _ =>
        match ty with
        | TyAny => parseAny old s
        | _ =>
            match parseHeader ty p s with
            | HErr => (old, None)
            | HMismatch => match setDefaultValue ty p old with Some v => (v, Some s) | None => (old, None) end
            | HFlag rest => (VBool true, Some rest)
            | HMatch t u inner rest =>
                let full := takeZ (zlen s - zlen rest) s in
                match ty with
                | TyAny => (old, None)
                | TyRaw => (VRaw (tl_class t) (tl_tag t) (tl_compound t) inner full, Some rest)
                | TyOid => match parseObjectIdentifier inner with
                           | Some l => (VOid l, Some rest)
                           | None => (VOid (match inner with [] => [] | _ => map (fun _ => 0) inner ++ [0] end), None)
                           end
                | TyBits => leafValue old rest (fun q => VBits (fst q) (snd q)) (parseBitString inner)
                | TyTime => leafValue old rest VTime (if u =? TagUTCTime then x_utc X inner else x_generalized X inner)
                | TyEnum | TyInt32 => leafValue old rest VInt (parseInt32 inner)
                | TyInt => leafValue old rest VInt (parseInt64 inner)
                | TyFlag => (VBool true, Some rest)
                | TyBig => leafValue old rest VInt (parseBigInt inner)
                | TyBool => leafValue old rest VBool (parseBool inner)
                | TyBytes => (VBytes inner, Some rest)
                | TyString => leafValue old rest VString (parseString u inner)
                | TySlice _ elem =>
                    match countElements (List.length inner) elem inner with
                    | None => (old, None)
                    | Some n =>
                        leafValue old rest VSlice
                          ((fix elems (n : nat) (s : bytes) : option (list goval) :=
                              match n with
                              | O => Some []
                              | Datatypes.S m =>
                                  match parseField elem noParams (zeroVal elem) s with
                                  | (v, Some r) => match elems m r with Some l => Some (v :: l) | None => None end
                                  | (_, None) => None
                                  end
                              end) n inner)
                    end
                | TyStruct raw fs =>
                    match parseFields fs (fieldsOf old (zeroFields fs)) inner with
                    | (l, ok) => (VStruct (if raw then full else []) l, if ok then Some rest else None)
                    end
                end
            end
        end
    end
  with parseFields (fs : tfields) (olds : list goval) (s : bytes) : list goval * bool :=
    match fs with
    | FNil => ([], true)
    | FCons p t r =>
        let old := match olds with o :: _ => o | [] => zeroVal t end in
        match parseField t p old s with
        | (v, Some s1) => let '(l, ok) := parseFields r (tl olds) s1 in (v :: l, ok)
        | (v, None) => (v :: tl olds, false)
        end
    end.

  (** asn1.go:1094-1116 Unmarshal into a fresh variable: the value, and the rest or an error *)
  Definition unmarshal (ty : gotype) (b : bytes) : goval * option bytes := parseField ty noParams (zeroVal ty) b.
End WithText.

(** *** marshal.go *)

(** marshal.go:236-254 lengthLength, appendLength; at most 8 iterations for a 64-bit int *)
Fixpoint derLengthLength (fuel : nat) (i : Z) : nat :=
  match fuel with
  | O => 1%nat
  | Datatypes.S f => if 255 <? i then Datatypes.S (derLengthLength f (i / 256)) else 1%nat
  end.
(* big-endian bytes of i, n of them *)
Fixpoint be_enc (n : nat) (i : Z) : bytes :=
  match n with O => [] | Datatypes.S m => z2b (i / 256 ^ Z.of_nat m) :: be_enc m i end.

(** marshal.go:163-192 base128IntLength, appendBase128Int; at most 10 iterations for an int64 *)
Fixpoint base128Count (fuel : nat) (i : Z) : nat :=
  match fuel with
  | O => O
  | Datatypes.S f => if 0 <? i then Datatypes.S (base128Count f (i / 128)) else O
  end.
Definition base128IntLength (n : Z) : nat := if n =? 0 then 1%nat else base128Count 10 n.
Fixpoint base128Bytes (l : nat) (n : Z) : bytes :=
  match l with
  | O => []
  | Datatypes.S i => z2b ((n / 128 ^ Z.of_nat i) mod 128 + (match i with O => 0 | _ => 128 end)) :: base128Bytes i n
  end.
Definition appendBase128Int (n : Z) : bytes := base128Bytes (base128IntLength n) n.

(** marshal.go:256-281 appendTagAndLength *)
Definition appendTagAndLength (t : tagAndLength) : bytes :=
  let b := (tl_class t mod 4) * 64 + (if tl_compound t then 32 else 0) in
  (if 31 <=? tl_tag t then z2b (b + 31) :: appendBase128Int (tl_tag t) else [z2b (b + tl_tag t)]) ++
  (if 128 <=? tl_length t then
     let l := derLengthLength 8 (tl_length t) in z2b (Z.lor 128 (Z.of_nat l)) :: be_enc l (tl_length t)
   else [z2b (tl_length t)]).

(** marshal.go:136-161 int64Encoder *)
Fixpoint int64Len (fuel : nat) (i : Z) : nat :=
  match fuel with
  | O => 1%nat
  | Datatypes.S f => if (127 <? i) || (i <? -128) then Datatypes.S (int64Len f (i / 256)) else 1%nat
  end.
Definition encodeInt64 (i : Z) : bytes := be_enc (int64Len 8 i) i.

(** big.Int.Bytes(): no leading zero byte *)
Definition bigBytes (n : Z) : bytes := be_enc (if n =? 0 then O else Z.to_nat (Z.log2 n / 8 + 1)) n.
(** marshal.go:194-229 makeBigInt *)
Definition encodeBigInt (n : Z) : bytes :=
  if n <? 0 then
    let b := map notByte (bigBytes (- n - 1)) in
    match b with
    | x :: _ => if b2z x <? 128 then xff :: b else b
    | [] => [xff]
    end
  else if n =? 0 then [x00]
  else let b := bigBytes n in
       match b with
       | x :: _ => if 128 <=? b2z x then x00 :: b else b
       | [] => b
       end.

(** marshal.go:283-294 bitStringEncoder *)
Definition encodeBitString (b : bytes) (bitlen : Z) : bytes := z2b ((8 - bitlen mod 8) mod 8) :: b.

(** marshal.go:296-319 makeObjectIdentifier, oidEncoder *)
Definition encodeOid (o : list Z) : option bytes :=
  match o with
  | a :: b :: r => if (2 <? a) || ((a <? 2) && (40 <=? b)) then None
                   else Some (appendBase128Int (a * 40 + b) ++ flat_map appendBase128Int r)
  | _ => None
  end.

Definition mapM {A B} (f : A -> option B) : list A -> option (list B) :=
  fix go (l : list A) : option (list B) :=
    match l with
    | [] => Some []
    | x :: t => match f x, go t with Some y, Some r => Some (y :: r) | _, _ => None end
    end.

(** marshal.go:585-589 reflect.DeepEqual with the zero value of the type; big integers and lists are pointers and slices,
    of which only nil is the zero value *)
Fixpoint isZero (ty : gotype) (v : goval) : bool :=
  match ty, v with
  | TyStruct _ fs, VStruct raw l => (zlen raw =? 0) && areZero fs l
  | (TyAny | TyOid | TyBig | TyBytes | TySlice _ _), VNil => true
  | TyRaw, VRaw c t k b f => (c =? 0) && (t =? 0) && negb k && (zlen b =? 0) && (zlen f =? 0)
  | TyBits, VBits b n => (zlen b =? 0) && (n =? 0)
  | TyTime, VTime t => t =? -62135596800
  | (TyInt | TyInt32 | TyEnum), VInt z => z =? 0
  | (TyFlag | TyBool), VBool b => negb b
  | TyString, VString s => zlen s =? 0
  | _, _ => false
  end
with areZero (fs : tfields) (l : list goval) : bool :=
  match fs, l with
  | FNil, [] => true
  | FCons _ t r, x :: l' => isZero t x && areZero r l'
  | _, _ => false
  end.

Section Marshal.
  Variable X : textenv.

  (** marshal.go:588-602 the tag of a string *)
  Definition stringTag (p : fparams) (s : bytes) : option Z :=
    if fp_stringType p =? 0 then
      (if forallb (isPrintable false false) s then Some TagPrintableString
       else if x_utf8 X s then Some TagUTF8String else None)
    else Some (fp_stringType p).
  (** marshal.go:531-542 *)
  Definition stringBody (p : fparams) (s : bytes) : option bytes :=
    if fp_stringType p =? TagIA5String then (if forallb (fun c => b2z c <? 128) s then Some s else None)
    else if fp_stringType p =? TagPrintableString then (if forallb (isPrintable true false) s then Some s else None)
    else if fp_stringType p =? TagNumericString then (if forallb isNumeric s then Some s else None)
    else Some s.

  (* marshal.go:613-672: the tags around a body *)
  Definition wrapTags (p : fparams) (tag : Z) (compound : bool) (body : bytes) : bytes :=
    match fp_tag p with
    | Some tg =>
        let class := if fp_application p then ClassApplication else if fp_private p then ClassPrivate else ClassContextSpecific in
        if fp_explicit p then
          let inner := appendTagAndLength {| tl_class := ClassUniversal; tl_tag := tag; tl_length := zlen body; tl_compound := compound |} ++ body in
          appendTagAndLength {| tl_class := class; tl_tag := tg; tl_length := zlen inner; tl_compound := true |} ++ inner
        else appendTagAndLength {| tl_class := class; tl_tag := tg; tl_length := zlen body; tl_compound := compound |} ++ body
    | None => appendTagAndLength {| tl_class := ClassUniversal; tl_tag := tag; tl_length := zlen body; tl_compound := compound |} ++ body
    end.

  (** marshal.go:447-680 makeField and makeBody.  Not modelled (None): interface{} and time.Time values; the [set] flag of a
      type that is not a sequence is an error as in the code. *)
  Fixpoint makeField (ty : gotype) (p : fparams) (v : goval) : option bytes :=
    if (match v with VSlice [] | VBytes [] | VNil | VOid [] => true | _ => false end) && fp_omitEmpty p &&
       (match ty with TyBytes | TySlice _ _ | TyOid => true | _ => false end) then Some []
    else if fp_optional p && (match fp_default p, ty, v with
                              | Some d, (TyInt | TyInt32 | TyEnum), VInt z => z =? d
                              | None, _, _ => isZero ty v
                              | _, _, _ => false
                              end) then Some []
    else
      match ty, v with
      | TyRaw, VRaw class tag compound b full =>
          if negb (zlen full =? 0) then Some full
          else Some (appendTagAndLength {| tl_class := class; tl_tag := tag; tl_length := zlen b; tl_compound := compound |} ++ b)
      | _, _ =>
          match getUniversalType ty with
          | None => None
          | Some (_, utag, compound) =>
              match (match ty, v with TyString, VString s => stringTag p s | TyString, _ => None | _, _ => if fp_stringType p =? 0 then Some utag else None end) with
              | None => None
              | Some tag1 =>
                  if fp_set p && negb (tag1 =? TagSequence) then None
                  else
                    let tag := if fp_set p then TagSet else tag1 in
                    match
                      match ty, v with
                      | TyFlag, VBool _ => Some []
                      | TyBits, VBits b n => Some (encodeBitString b n)
                      | TyOid, VOid l => encodeOid l
                      | TyBig, VInt z => Some (encodeBigInt z)
                      | TyBool, VBool b => Some [if b then xff else x00]
                      | (TyInt | TyInt32 | TyEnum), VInt z => Some (encodeInt64 z)
                      | TyBytes, VBytes b => Some b
                      | TyBytes, VNil => Some []
                      | TyString, VString s => stringBody p s
                      | TySlice _ elem, VSlice l => option_map (@concat byte) (mapM (makeField elem noParams) l)
                      | TySlice _ elem, VNil => Some []
                      | TyStruct true fs, VStruct (b :: raw) _ =>
                          Some (match parseTagAndLength (b :: raw) with Some (_, rest) => rest | None => b :: raw end)
                      | TyStruct _ fs, VStruct _ l => makeFields fs l
                      | _, _ => None
                      end
                    with
                    | None => None
                    | Some body => Some (wrapTags p tag compound body)
                    end
              end
          end
      end
  with makeFields (fs : tfields) (vs : list goval) : option bytes :=
    match fs, vs with
    | FNil, _ => Some []
    | FCons p t r, v :: l =>
        match makeField t p v, makeFields r l with
        | Some a, Some b => Some (a ++ b)
        | _, _ => None
        end
    | FCons _ _ _, [] => None
    end.

  (** marshal.go:734-750 Marshal *)
  Definition marshal (ty : gotype) (v : goval) : option bytes := makeField ty noParams v.
End Marshal.
