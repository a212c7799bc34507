(** The Distinguished Encoding of a Go value (C99): what X.680/X.690 write for it, given its type and the parameters of
    the struct field that holds it. *)
From Verif.Model Require Import Bytes Env Asn1.
From Verif.Spec Require Import Ber Asn1 Asn1Value Pkcs7 Text Time.

(** A field that stays out of the encoding: an empty list that is to be omitted, or an optional field with its default. *)
Definition left_out (ty : gotype) (p : fparams) (v : goval) : Prop :=
  (fp_omitEmpty p = true /\
   (match ty with TyBytes | TyOid | TySlice _ _ => True | _ => False end) /\ (v = VNil \/ v = VBytes [] \/ v = VOid [] \/ v = VSlice [])) \/
  (fp_optional p = true /\
   ((exists d, fp_default p = Some d /\ (ty = TyInt \/ ty = TyInt32 \/ ty = TyEnum) /\ v = VInt d) \/
    (fp_default p = None /\ v = zeroVal ty))).

(** The tags around the contents: the universal one; with [tag:n] that one instead; with [explicit,tag:n] that one
    around it. *)
Definition tag_class (p : fparams) : Z := if fp_application p then 1 else if fp_private p then 3 else 2.
Definition tagged (p : fparams) (universal : Z) (compound : bool) (body full : bytes) : Prop :=
  match fp_tag p with
  | None => der_element 0 universal compound body full
  | Some n =>
      if fp_explicit p then exists inner, der_element 0 universal compound body inner /\ der_element (tag_class p) n true inner full
      else der_element (tag_class p) n compound body full
  end.

(** PrintableString characters (X.680, 41.4) *)
Definition printable_char (b : byte) : Prop :=
  97 <= b2z b <= 122 \/ 65 <= b2z b <= 90 \/ 48 <= b2z b <= 57 \/ In (b2z b) [32; 39; 40; 41; 43; 44; 45; 46; 47; 58; 61; 63].
(** The universal tag for a string: PrintableString if that can hold it and UTF8String otherwise; or the kind that the
    field asks for, whose characters it has to have (the asterisk is let through). *)
Definition string_kind (p : fparams) (s : bytes) (tag : Z) : Prop :=
  (fp_stringType p = 0 /\ tag = 19 /\ Forall printable_char s) \/
  (fp_stringType p = 0 /\ tag = 12 /\ ~ Forall printable_char s /\ exists cs, utf8_text cs s) \/
  (fp_stringType p <> 0 /\ tag = fp_stringType p /\
   (tag = 22 -> Forall (fun c => b2z c < 128) s) /\
   (tag = 19 -> Forall (fun c => printable_char c \/ b2z c = 42) s) /\
   (tag = 18 -> Forall (fun c => 48 <= b2z c <= 57 \/ b2z c = 32) s)).

(** The value as it was read: its contents are what follows its identifier and length octets. *)
Definition after_header (raw body : bytes) : Prop :=
  exists class tag compound n id len, raw = id ++ len ++ body /\ identifier_octets class tag compound id /\ definite_length n len.
Definition kept (raw body : bytes) : Prop := after_header raw body \/ (~ (exists b, after_header raw b) /\ body = raw).

(** No [set] and no string type are given. *)
Definition plain (p : fparams) : Prop := fp_stringType p = 0 /\ fp_set p = false.

Fixpoint der_of (ty : gotype) (p : fparams) (v : goval) (full : bytes) {struct ty} : Prop :=
  (left_out ty p v /\ full = []) \/
  (~ left_out ty p v /\
   match ty, v with
   | TyRaw, VRaw class tag compound content whole => (whole <> [] /\ full = whole) \/ (whole = [] /\ der_element class tag compound content full)
   | TyBool, VBool x => plain p /\ tagged p 1 false [if x then xff else x00] full
   | TyFlag, VBool _ => plain p /\ tagged p 1 false [] full
   | (TyInt | TyInt32 | TyBig), VInt z => plain p /\ exists octets, integer_octets octets z /\ tagged p 2 false octets full
   | TyEnum, VInt z => plain p /\ exists octets, integer_octets octets z /\ tagged p 10 false octets full
   | TyBits, VBits b n => plain p /\ exists unused, 0 <= unused < 8 /\ (n + unused) mod 8 = 0 /\ tagged p 3 false (z2b unused :: b) full
   | TyOid, VOid o => plain p /\ exists octets, oid_der o octets /\ tagged p 6 false octets full
   | TyBytes, VBytes b => plain p /\ tagged p 4 false b full
   | TyBytes, VNil => plain p /\ tagged p 4 false [] full
   | TyString, VString s => fp_set p = false /\ exists tag, string_kind p s tag /\ tagged p tag false s full
   | TySlice setName elem, VSlice l =>
       fp_stringType p = 0 /\ (setName && fp_set p = false) /\ exists parts,
         (fix each (l : list goval) (parts : list bytes) : Prop :=
            match l, parts with [], [] => True | x :: t, f :: r => der_of elem noParams x f /\ each t r | _, _ => False end) l parts /\
         tagged p (if setName || fp_set p then 17 else 16) true (concat parts) full
   | TySlice setName elem, VNil =>
       fp_stringType p = 0 /\ (setName && fp_set p = false) /\ tagged p (if setName || fp_set p then 17 else 16) true [] full
   | TyStruct _ fs, VStruct raw vs =>
       fp_stringType p = 0 /\ exists body, ((raw <> [] /\ kept raw body) \/ (raw = [] /\ der_fields fs vs body)) /\
         tagged p (if fp_set p then 17 else 16) true body full
   | _, _ => False
   end)
with der_fields (fs : tfields) (vs : list goval) (body : bytes) {struct fs} : Prop :=
  match fs, vs with
  | FNil, [] => body = []
  | FCons p t r, v :: l => exists a b, body = a ++ b /\ der_of t p v a /\ der_fields r l b
  | _, _ => False
  end.

(** Values of the type as Go can hold them, with tag numbers and OID components up to 2^31-1 and without interface{}
    and time.Time. *)
Definition tags_fit (p : fparams) : Prop := 0 <= fp_stringType p <= max_int32 /\ fp_stringType p <> 16 /\ forall n, fp_tag p = Some n -> 0 <= n <= max_int32.
Fixpoint go_value (ty : gotype) (p : fparams) (v : goval) {struct ty} : Prop :=
  tags_fit p /\
  match ty, v with
  | TyRaw, VRaw class tag _ _ whole => whole = [] -> 0 <= class < 4 /\ 0 <= tag <= max_int32
  | TyOid, VOid o => Forall (fun n => 0 <= n <= max_int32) o /\ (forall a b r, o = a :: b :: r -> a * 40 + b <= max_int32)
  | TyBits, VBits _ n => 0 <= n
  | (TyFlag | TyBool), VBool _ => True
  | TyBig, VInt _ => True
  | (TyInt | TyEnum), VInt z => - 2 ^ 63 <= z < 2 ^ 63
  | TyInt32, VInt z => - 2 ^ 31 <= z < 2 ^ 31
  | TyBytes, VBytes _ => True
  | TyString, VString _ => True
  | TySlice _ elem, VSlice l => (fix all (l : list goval) : Prop := match l with [] => True | x :: t => go_value elem noParams x /\ all t end) l
  | (TyOid | TyBig | TyBytes | TySlice _ _), VNil => True
  | TyStruct keeps fs, VStruct raw vs => (keeps = false -> raw = []) /\ go_fields fs vs
  | _, _ => False
  end
with go_fields (fs : tfields) (vs : list goval) {struct fs} : Prop :=
  match fs, vs with
  | FNil, [] => True
  | FCons p t r, v :: l => go_value t p v /\ go_fields r l
  | _, _ => False
  end.

(** The Unix time of a civil date and time of day in a zone [offset] seconds east of Greenwich. *)
Definition instant (y mo d h mi sec offset t : Z) : Prop :=
  valid_date y mo d /\ 0 <= h <= 23 /\ 0 <= mi <= 59 /\ 0 <= sec <= 59 /\
  exists day, day_number (y, mo, d) day /\ t = day * 86400 + h * 3600 + mi * 60 + sec - offset.
(** A UTCTime or GeneralizedTime, as RFC 5280 chooses between them (unless the field asks for the latter). *)
Definition time_written (p : fparams) (always_generalized : Prop) (y t : Z) (full : bytes) : Prop :=
  (1950 <= y <= 2049 /\ ~ always_generalized /\ exists s, utc_text s t /\ tagged p 23 false s full) \/
  ((~ 1950 <= y <= 2049 \/ always_generalized) /\ 0 <= y <= 9999 /\ exists s, generalized_text s t /\ tagged p 24 false s full).
