(** What a struct tag of package asn1andr says (C114). *)
From Coq Require Import String.
From Verif.Model Require Import Bytes Asn1.
From Verif.Spec Require Import AndroidManifest.

Definition comma : byte := ","%byte.
(** A tag is a list of options with commas between them. *)
Fixpoint tag_text (l : list bytes) : bytes := match l with [] => [] | [x] => x | x :: t => x ++ comma :: tag_text t end.
Definition options (l : list bytes) : Prop := l <> [] /\ Forall (fun x => ~ In comma x) l.
Definition has (w : string) (l : list bytes) : Prop := In (s2b w) l.

(** An optional sign and digits, in the int64 range *)
Definition int64_numeral (s : bytes) (v : Z) : Prop :=
  -9223372036854775808 <= v <= 9223372036854775807 /\
  exists sign ds n, digits ds n /\ s = sign ++ ds /\
    (sign = [] /\ v = n \/ sign = ["+"%byte] /\ v = n \/ sign = ["-"%byte] /\ v = - n).

(** The last option [prefix]n with a number n; options without a proper number do not count. *)
Definition no_number (prefix : string) (l : list bytes) : Prop := forall s v, In (s2b prefix ++ s) l -> ~ int64_numeral s v.
Definition last_number (prefix : string) (l : list bytes) (v : Z) : Prop :=
  exists before s after, l = before ++ (s2b prefix ++ s) :: after /\ int64_numeral s v /\ no_number prefix after.
(** The last of some words *)
Definition none_of (ws : list (string * Z)) (l : list bytes) : Prop := forall w n, In (w, n) ws -> ~ has w l.
Definition last_of (ws : list (string * Z)) (l : list bytes) (n : Z) : Prop :=
  (none_of ws l /\ n = 0) \/ exists w before after, In (w, n) ws /\ l = before ++ s2b w :: after /\ none_of ws after.

Definition string_words : list (string * Z) := [("ia5", 22); ("printable", 19); ("numeric", 18); ("utf8", 12)]%string.
Definition time_words : list (string * Z) := [("generalized", 24); ("utc", 23)]%string.

(** An explicit, application or private tag without a number has the number 0. *)
Definition needs_tag (l : list bytes) : Prop := has "explicit" l \/ has "application" l \/ has "private" l.

Record says (l : list bytes) (p : fparams) (time : Z) : Prop := {
  says_optional : fp_optional p = true <-> has "optional" l;
  says_explicit : fp_explicit p = true <-> has "explicit" l;
  says_application : fp_application p = true <-> has "application" l;
  says_private : fp_private p = true <-> has "private" l;
  says_set : fp_set p = true <-> has "set" l;
  says_omitEmpty : fp_omitEmpty p = true <-> has "omitempty" l;
  says_default : match fp_default p with Some d => last_number "default:" l d | None => no_number "default:" l end;
  says_tag : match fp_tag p with
             | Some t => last_number "tag:" l t \/ (no_number "tag:" l /\ needs_tag l /\ t = 0)
             | None => no_number "tag:" l /\ ~ needs_tag l
             end;
  says_string : last_of string_words l (fp_stringType p);
  says_time : last_of time_words l time }.
