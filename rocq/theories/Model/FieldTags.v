(** Struct tags: /repo/internal/asn1andr/common.go:77-146. *)
From Coq Require Import String.
From Verif.Model Require Import Bytes GoStrings Asn1.

(** strconv.ParseInt(s, 10, 64) and, on 64-bit machines, strconv.Atoi: None = error (syntax or range) *)
Definition parseInt64Text (s : bytes) : option Z :=
  match s with
  | [] => None
  | c :: t =>
      if byte_eqb c "-"%byte then
        match parseUint t with Some v => if 9223372036854775808 <? v then None else Some (- v) | None => None end
      else
        match parseUint (if byte_eqb c "+"%byte then t else s) with
        | Some v => if 9223372036854775807 <? v then None else Some v
        | None => None
        end
  end.

(** common.go:77-92: the parameters and the field timeType, which the record [fparams] of Model/Asn1.v leaves out *)
Definition fieldParameters : Set := fparams * Z.

(** [if ret.tag == nil { ret.tag = new(int) }] *)
Definition someTag (t : option Z) : option Z := match t with None => Some 0 | _ => t end.

(** common.go:98-144: one turn of the loop.  The prefixes end in a colon and the other words have none, so the order of the cases
    that the switch tries does not matter; it is the order of the source. *)
Definition fieldOption (ret : fieldParameters) (part : bytes) : fieldParameters :=
  let '({| fp_optional := o; fp_explicit := e; fp_application := a; fp_private := p; fp_default := d; fp_tag := t; fp_stringType := st; fp_set := s; fp_omitEmpty := oe |}, tm) := ret in
  let mk o e a p d t st s oe tm : fieldParameters := ({| fp_optional := o; fp_explicit := e; fp_application := a; fp_private := p; fp_default := d; fp_tag := t; fp_stringType := st; fp_set := s; fp_omitEmpty := oe |}, tm) in
  let is w := bytes_eqb part (s2b w) in
  if is "optional"%string then mk true e a p d t st s oe tm
  else if is "explicit"%string then mk o true a p d (someTag t) st s oe tm
  else if is "generalized"%string then mk o e a p d t st s oe TagGeneralizedTime
  else if is "utc"%string then mk o e a p d t st s oe TagUTCTime
  else if is "ia5"%string then mk o e a p d t TagIA5String s oe tm
  else if is "printable"%string then mk o e a p d t TagPrintableString s oe tm
  else if is "numeric"%string then mk o e a p d t TagNumericString s oe tm
  else if is "utf8"%string then mk o e a p d t TagUTF8String s oe tm
  else if hasPrefix part (s2b "default:") then mk o e a p (match parseInt64Text (skipn 8 part) with Some i => Some i | None => d end) t st s oe tm
  else if hasPrefix part (s2b "tag:") then mk o e a p d (match parseInt64Text (skipn 4 part) with Some i => Some i | None => t end) st s oe tm
  else if is "set"%string then mk o e a p d t st true oe tm
  else if is "application"%string then mk o e true p d (someTag t) st s oe tm
  else if is "private"%string then mk o e a true d (someTag t) st s oe tm
  else if is "omitempty"%string then mk o e a p d t st s true tm
  else ret.

(** common.go:94-146 parseFieldParameters *)
Definition parseFieldParameters (str : bytes) : fieldParameters := fold_left fieldOption (splitByte str ","%byte) (noParams, 0).

(** The parameters of the fields of a structure, in order *)
Fixpoint fieldsParams (fs : tfields) : list fparams := match fs with FNil => [] | FCons p _ fs' => p :: fieldsParams fs' end.
Definition structParams (t : gotype) : list fparams := match t with TyStruct _ fs => fieldsParams fs | _ => [] end.
