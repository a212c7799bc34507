(** The attributes of AndroidManifest.xml that matter for signature verification. *)
From Coq Require Import String.
From Verif.Model Require Import Bytes Env.

(** Decimal numerals: [digits s v] - the digits [s] denote [v]. *)
Inductive digits : bytes -> Z -> Prop :=
| digits_one d : 0 <= d <= 9 -> digits [z2b (48 + d)] d
| digits_more s v d : digits s v -> 0 <= d <= 9 -> digits (s ++ [z2b (48 + d)]) (10 * v + d).
(** An optional sign and digits, in the int32 range. *)
Definition int32_numeral (s : bytes) (v : Z) : Prop :=
  -2147483648 <= v <= 2147483647 /\
  exists sign ds n, digits ds n /\ s = sign ++ ds /\
    (sign = [] /\ v = n \/ sign = ["+"%byte] /\ v = n \/ sign = ["-"%byte] /\ v = - n).

(** The value of the first attribute with this local name. *)
Definition attribute (st : xml_start) (name value : bytes) : Prop :=
  exists before after, xs_attrs st = before ++ (name, value) :: after /\ ~ In name (map fst before).
(** The number an element declares, or the default if it has no such attribute. *)
Definition declares (st : xml_start) (name : string) (default v : Z) : Prop :=
  ~ In (s2b name) (map fst (xs_attrs st)) /\ v = default
  \/ exists value, attribute st (s2b name) value /\ int32_numeral value v.

Definition named (name : string) (st : xml_start) : Prop := xs_name st = s2b name.

(** A manifest: a root element <manifest>, and below it no other <manifest>; the first <uses-sdk> counts. *)
Inductive sdk_info : list xml_start -> Z -> Z -> Prop :=
| sdk_none rest : (forall st, In st rest -> ~ named "uses-sdk" st) -> sdk_info rest 1 0
| sdk_first before u after min target :
    (forall st, In st before -> ~ named "uses-sdk" st) -> named "uses-sdk" u ->
    declares u "minSdkVersion" 1 min -> declares u "targetSdkVersion" 0 target ->
    sdk_info (before ++ u :: after) min target.
Definition manifest_info (toks : list xml_start) (min target sandbox : Z) : Prop :=
  exists root rest, toks = root :: rest /\ named "manifest" root /\ (forall st, In st rest -> ~ named "manifest" st) /\
    declares root "targetSandboxVersion" 1 sandbox /\ sdk_info rest min target.

(** The APK's AndroidManifest.xml starts with these elements; [ok]: the parser reaches the end without error. *)
Definition manifest_of (E : env) (z : zip) (toks : list xml_start) (ok : bool) : Prop :=
  exists f stream more, sget (s2b "AndroidManifest.xml") (z_map z) = Some f /\ zf_open_ok f = true /\
    zf_streams f = stream :: more /\ e_parse_xml E stream = (toks, ok).
