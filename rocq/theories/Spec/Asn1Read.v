(** What a decoder for Go types reads (C109): which bytes are a value of a type, given the parameters of the field that
    holds it, and which value and which remaining bytes come out. *)
From Verif.Model Require Import Bytes Env Asn1.
From Verif.Spec Require Import Ber Asn1 Asn1Value Time Text.

(** Identifier and length octets; [n] is the length they give, [rest] what follows them. *)
Definition begins (s : bytes) (class tag : Z) (compound : bool) (n : Z) (rest : bytes) : Prop :=
  exists id len, s = id ++ len ++ rest /\ identifier_octets class tag compound id /\ definite_length n len.

(** The universal tag numbers of a type (X.680, table 1); a [set] field is a SET. *)
Definition own_tag (ty : gotype) (p : fparams) (n : Z) : Prop :=
  if fp_set p then n = 17
  else match ty with
       | TyBool | TyFlag => n = 1
       | TyInt | TyInt32 | TyBig => n = 2
       | TyBits => n = 3
       | TyBytes => n = 4
       | TyOid => n = 6
       | TyEnum => n = 10
       | TyStruct _ _ | TySlice false _ => n = 16
       | TySlice true _ => n = 17
       | TyString => In n [12; 18; 19; 20; 22; 27; 30]
       | TyTime => n = 23 \/ n = 24
       | TyRaw | TyAny => False
       end.
Definition constructed (ty : gotype) : bool := match ty with TyStruct _ _ | TySlice _ _ => true | _ => false end.
(** The kind of contents under an implicit tag: the kind of string that the field asks for, otherwise PrintableString;
    UTCTime. *)
Definition implied_kind (ty : gotype) (p : fparams) (kind : Z) : Prop :=
  match ty with
  | TyString => kind = if fp_stringType p =? 0 then 19 else fp_stringType p
  | TyTime => kind = 23
  | _ => True
  end.
Definition implicit_class (p : fparams) : Z := if fp_private p then 3 else if fp_application p then 1 else 2.
Definition explicit_class (p : fparams) : Z := if fp_application p then 1 else 2.

(** An element with this identifier is one of the type; [kind]: the string or time type of its contents.  A RawValue
    is any element, or any with the implicit tag. *)
Definition fits (ty : gotype) (p : fparams) (class tag : Z) (compound : bool) (kind : Z) : Prop :=
  match fp_tag p, fp_explicit p with
  | Some n, false => class = implicit_class p /\ tag = n /\ (ty <> TyRaw -> compound = constructed ty) /\ implied_kind ty p kind
  | _, _ => ty = TyRaw \/ (class = 0 /\ own_tag ty p tag /\ compound = constructed ty /\ kind = tag)
  end.
(** The explicit tag of the field: constructed, or empty. *)
Definition wrapper (p : fparams) (class tag : Z) (compound : bool) (n : Z) : Prop :=
  class = explicit_class p /\ fp_tag p = Some tag /\ (n = 0 \/ compound = true).

(** The value is there: its identifier, its contents and the bytes after it.  A RawValue with an explicit tag is the
    element with that tag; for other types it is in it (the length of the outer element is not compared with that of
    the inner one). *)
Definition present (ty : gotype) (p : fparams) (s : bytes) (class tag : Z) (compound : bool) (kind : Z) (content rest : bytes) : Prop :=
  if fp_explicit p then
    (ty = TyRaw /\ content ++ rest <> [] /\ wrapper p class tag compound (zlen content) /\ exists full, s = full ++ rest /\ element class tag compound content full) \/
    (ty <> TyRaw /\ exists oclass otag ocompound n full,
       begins s oclass otag ocompound n (full ++ rest) /\ wrapper p oclass otag ocompound n /\ 0 < n /\
       element class tag compound content full /\ fits ty p class tag compound kind)
  else exists full, s = full ++ rest /\ element class tag compound content full /\ fits ty p class tag compound kind.
(** A flag given by an empty explicit element that is not the last one *)
Definition flagged (ty : gotype) (p : fparams) (s rest : bytes) : Prop :=
  ty = TyFlag /\ fp_explicit p = true /\ rest <> [] /\ exists class tag compound, begins s class tag compound 0 rest /\ wrapper p class tag compound 0.
(** The field is not there: nothing follows, or an element with another identifier. *)
Definition absent (ty : gotype) (p : fparams) (s : bytes) : Prop :=
  s = [] \/
  (ty <> TyAny /\ exists class tag compound n body, begins s class tag compound n body /\
   if fp_explicit p then
     body <> [] /\
     (~ wrapper p class tag compound n \/
      (ty <> TyRaw /\ 0 < n /\ exists class' tag' compound' n' body', begins body class' tag' compound' n' body' /\
       ~ exists kind, fits ty p class' tag' compound' kind))
   else ~ exists kind, fits ty p class tag compound kind).
(** The value of a field that is not there: the default, for integers that have one, or the zero value *)
Definition default_value (ty : gotype) (p : fparams) : goval :=
  match fp_default p, ty with
  | Some d, (TyInt | TyInt32 | TyEnum) => VInt d
  | _, _ => zeroVal ty
  end.

(** Contents octets.  OBJECT IDENTIFIER: numbers up to 2^31-1, of at most five octets each. *)
Definition oid_content (o : list Z) (b : bytes) : Prop :=
  exists x y r bs, o = x :: y :: r /\ 0 <= x <= 2 /\ 0 <= y /\ (x < 2 -> y < 40) /\ b = concat bs /\
    Forall2 (fun n c => base128_octets c n /\ zlen c <= 5 /\ n <= max_int32) (x * 40 + y :: r) bs.
(** BIT STRING: the number of unused bits, which are zero, then the bits *)
Definition bits_content (bits : bytes) (n : Z) (b : bytes) : Prop :=
  exists unused, b = z2b unused :: bits /\ 0 <= unused < 8 /\ n = 8 * zlen bits - unused /\
    (bits = [] -> unused = 0) /\ (bits <> [] -> b2z (last bits x00) mod 2 ^ unused = 0).
Definition time_content (kind t : Z) (b : bytes) : Prop := (kind = 23 /\ utc_text b t) \/ (kind = 24 /\ generalized_text b t).
Definition text_content (kind : Z) (s b : bytes) : Prop := (kind = 27 /\ s = b) \/ string_text kind b s.

(** A value read into an interface{}: any element; nothing is stored unless it is a primitive universal one of these. *)
Definition any_kinds : list Z := [2; 3; 4; 6; 12; 18; 19; 20; 22; 23; 24; 30].
Definition any_content (tag : Z) (v : goval) (b : bytes) : Prop :=
  (exists z, tag = 2 /\ v = VInt z /\ integer_octets b z /\ - 2 ^ 63 <= z < 2 ^ 63) \/
  (exists bits n, tag = 3 /\ v = VBits bits n /\ bits_content bits n b) \/
  (tag = 4 /\ v = VBytes b) \/
  (exists o, tag = 6 /\ v = VOid o /\ oid_content o b) \/
  (exists t, v = VTime t /\ time_content tag t b) \/
  (exists s, v = VString s /\ string_text tag b s).
Definition any_read (s : bytes) (v : goval) (rest : bytes) : Prop :=
  exists class tag compound content full, s = full ++ rest /\ element class tag compound content full /\
    ((class = 0 /\ compound = false /\ In tag any_kinds /\ exists w, v = VAny w /\ any_content tag w content) \/
     (~ (class = 0 /\ compound = false /\ In tag any_kinds) /\ v = VNil)).

(** [reads ty p s v rest]: the bytes [s] start with the value [v] of type [ty], and [rest] remains. *)
Fixpoint reads (ty : gotype) (p : fparams) (s : bytes) (v : goval) (rest : bytes) {struct ty} : Prop :=
  (absent ty p s /\ fp_optional p = true /\ v = default_value ty p /\ rest = s) \/
  (flagged ty p s rest /\ v = VBool true) \/
  (ty = TyAny /\ any_read s v rest) \/
  exists class tag compound kind content, present ty p s class tag compound kind content rest /\
    match ty, v with
    | TyRaw, VRaw class' tag' compound' content' full => class' = class /\ tag' = tag /\ compound' = compound /\ content' = content /\ s = full ++ rest
    | TyOid, VOid o => oid_content o content
    | TyBits, VBits bits n => bits_content bits n content
    | TyTime, VTime t => time_content kind t content
    | (TyEnum | TyInt32), VInt z => integer_octets content z /\ - 2 ^ 31 <= z < 2 ^ 31
    | TyInt, VInt z => integer_octets content z /\ - 2 ^ 63 <= z < 2 ^ 63
    | TyBig, VInt z => integer_octets content z
    | TyFlag, VBool x => x = true
    | TyBool, VBool x => content = [if x then xff else x00]
    | TyBytes, VBytes b => b = content
    | TyString, VString t => text_content kind t content
    | TySlice _ elem, VSlice l =>
        (* one element after the other, to the end *)
        (elem = TyAny -> l = []) /\
        (fix each (l : list goval) (b : bytes) : Prop :=
           match l with [] => b = [] | x :: t => exists r, reads elem noParams b x r /\ each t r end) l content
    | TyStruct keeps fs, VStruct raw vs =>
        (* one field after the other; what remains of the contents is not looked at *)
        (if keeps then s = raw ++ rest else raw = []) /\ exists left, reads_fields fs content vs left
    | _, _ => False
    end
with reads_fields (fs : tfields) (s : bytes) (vs : list goval) (rest : bytes) {struct fs} : Prop :=
  match fs, vs with
  | FNil, [] => rest = s
  | FCons p t r, v :: l => exists mid, reads t p s v mid /\ reads_fields r mid l rest
  | _, _ => False
  end.

(** A description that Go can have: [set] is for structs and lists. *)
Fixpoint well_described (ty : gotype) (p : fparams) {struct ty} : Prop :=
  (fp_set p = true -> constructed ty = true) /\
  match ty with
  | TySlice _ elem => well_described elem noParams
  | TyStruct _ fs => well_described_fields fs
  | _ => True
  end
with well_described_fields (fs : tfields) : Prop :=
  match fs with FNil => True | FCons p t r => well_described t p /\ well_described_fields r end.
