(** When a value that was written can be read back (C116). *)
From Verif.Model Require Import Bytes Env Asn1.
From Verif.Spec Require Import Ber Asn1 Asn1Value Asn1Der Asn1Read Text.

(** Parameters with the same meaning in both directions: an explicit tag has a number and is not private, a field is not both private
    and application, and what may be omitted when it is empty is optional. *)
Definition two_way (p : fparams) : Prop :=
  (fp_explicit p = true -> fp_tag p <> None /\ fp_private p = false) /\ (fp_private p = true -> fp_application p = false) /\
  (fp_omitEmpty p = true -> fp_optional p = true).

(** A string whose kind the field names: one of the kinds that are read, and the characters are of the kind. *)
Definition text_kind (p : fparams) (s : bytes) : Prop :=
  In (fp_stringType p) [0; 12; 18; 19; 22] /\ (fp_stringType p = 12 -> exists cs, utf8_text cs s).

(** A RawValue in a field with a tag is an element with this tag; under an explicit tag it is not empty unless something follows. *)
Definition raw_fits (p : fparams) (class tag : Z) (compound : bool) (content after : bytes) : Prop :=
  forall n, fp_tag p = Some n ->
    if fp_explicit p then class = explicit_class p /\ tag = n /\ (content = [] \/ compound = true) /\ content ++ after <> []
    else class = implicit_class p /\ tag = n.

(** The value [v] can be read back when the bytes [after] follow.  A field that is left out: nothing that follows can be taken for it. *)
Fixpoint recoverable (ty : gotype) (p : fparams) (v : goval) (after : bytes) {struct ty} : Prop :=
  two_way p /\ (left_out ty p v -> absent ty p after) /\
  (~ left_out ty p v ->
   match ty, v with
   | TyRaw, VRaw class tag compound content whole =>
       zlen content < 2 ^ 31 /\ (whole = [] \/ element class tag compound content whole) /\ raw_fits p class tag compound content after
   | TyFlag, VBool x => x = true
   | TyEnum, VInt z => - 2 ^ 31 <= z < 2 ^ 31
   | TyBits, VBits b n => exists unused, 0 <= unused < 8 /\ n = 8 * zlen b - unused /\ (b = [] -> unused = 0) /\ (b <> [] -> b2z (last b x00) mod 2 ^ unused = 0)
   | TyString, VString s => text_kind p s
   | TySlice _ elem, VSlice l => (fix all (l : list goval) : Prop := match l with [] => True | x :: t => recoverable elem noParams x [] /\ all t end) l
   | TyStruct _ fs, VStruct raw vs => raw = [] /\ recoverable_fields fs vs
   | _, _ => True
   end)
with recoverable_fields (fs : tfields) (vs : list goval) {struct fs} : Prop :=
  match fs, vs with
  | FCons p t r, v :: l => (forall after, der_fields r l after -> zlen after < 2 ^ 31 -> recoverable t p v after) /\ recoverable_fields r l
  | _, _ => True
  end.

(** The same value: a list that is nil is an empty one, and what was read keeps its encoding. *)
Definition empty_list (v : goval) : Prop := v = VNil \/ v = VBytes [] \/ v = VOid [] \/ v = VSlice [].
Fixpoint same_value (ty : gotype) (v v' : goval) {struct ty} : Prop :=
  match ty, v, v' with
  | TyRaw, VRaw class tag compound content whole, VRaw class' tag' compound' content' whole' =>
      class' = class /\ tag' = tag /\ compound' = compound /\ content' = content /\ (whole = [] \/ whole' = whole)
  | TySlice _ elem, VSlice l, VSlice l' =>
      (fix each (l l' : list goval) : Prop := match l, l' with [], [] => True | x :: t, x' :: t' => same_value elem x x' /\ each t t' | _, _ => False end) l l'
  | TyStruct _ fs, VStruct _ vs, VStruct _ vs' => same_fields fs vs vs'
  | _, _, _ => v' = v \/ (empty_list v /\ empty_list v')
  end
with same_fields (fs : tfields) (vs vs' : list goval) {struct fs} : Prop :=
  match fs, vs, vs' with
  | FNil, [], [] => True
  | FCons _ t r, v :: l, v' :: l' => same_value t v v' /\ same_fields r l l'
  | _, _, _ => False
  end.
