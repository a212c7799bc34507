(** Which values a description of Go types can hold and encode without losing anything. *)
From Verif.Model Require Import Bytes Env Asn1.
From Verif.Spec Require Import Ber Asn1.

(** Field parameters: the field is always written, with its own tag, an implicit one or an explicit one. *)
Definition mandatory (p : fparams) : Prop :=
  fp_optional p = false /\ fp_omitEmpty p = false /\ (fp_application p && fp_private p = false) /\
  (fp_explicit p = true -> fp_private p = false /\ fp_tag p <> None) /\
  (forall tg, fp_tag p = Some tg -> 0 <= tg <= max_int32).
(** An element as it stands in the encoding. *)
Definition element (class tag : Z) (compound : bool) (content full : bytes) : Prop :=
  exists id len, full = id ++ len ++ content /\ identifier_octets class tag compound id /\ definite_length (zlen content) len.



  Fixpoint storable (ty : gotype) (p : fparams) (v : goval) {struct ty} : Prop :=
    mandatory p /\
    match ty, v with
    | TyRaw, VRaw class tag compound content full => fp_tag p = None /\ fp_explicit p = false /\ element class tag compound content full
    | TyOid, VOid o => valid_oid o
    | TyBits, VBits b n => exists pad, 0 <= pad < 8 /\ n = 8 * zlen b - pad /\ (b = [] -> pad = 0) /\ (b <> [] -> b2z (last b x00) mod 2 ^ pad = 0)
    | TyFlag, VBool b => b = true
    | TyBool, VBool _ => True
    | TyBig, VInt _ => True
    | TyInt, VInt z => - 2 ^ 63 <= z < 2 ^ 63
    | (TyInt32 | TyEnum), VInt z => - 2 ^ 31 <= z < 2 ^ 31
    | TyBytes, VBytes _ => True
    | TyString, VString s => fp_stringType p = 0
    | TySlice _ elem, VSlice l =>
        (fix all (l : list goval) : Prop := match l with [] => True | x :: t => storable elem noParams x /\ all t end) l
    | TyStruct false fs, VStruct raw vs => raw = [] /\ storable_fields fs vs
    | _, _ => False
    end
  with storable_fields (fs : tfields) (vs : list goval) {struct fs} : Prop :=
    match fs, vs with
    | FNil, [] => True
    | FCons p t r, v :: l => storable t p v /\ storable_fields r l
    | _, _ => False
    end.

