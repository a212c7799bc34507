(** X.501 names up to case and spaces. *)
From Coq Require Import Permutation.
From Verif.Model Require Import Bytes Env.
From Verif.Spec Require Import JarManifest.

(** The words of a text, separated by any number of spaces. *)
Fixpoint words_from (cur : bytes) (s : bytes) : list bytes :=
  match s with
  | [] => match cur with [] => [] | _ => [cur] end
  | c :: t => if byte_eqb c x20 then (match cur with [] => [] | _ => [cur] end) ++ words_from [] t
              else words_from (cur ++ [c]) t
  end.
Definition words (s : bytes) : list bytes := words_from [] s.
(** The same text up to ASCII case and spaces. *)
Definition same_text (a b : bytes) : Prop := map lower (words a) = map lower (words b).

(** Text in ASCII without the characters that are special in distinguished names: double quote, backslash,
    comma, plus, less, greater, semicolon, and not starting with #. *)
Definition special : list byte := map z2b [34; 92; 44; 43; 60; 62; 59].
Definition plain_text (s : bytes) : Prop :=
  Forall (fun c => b2z c < 128 /\ ~ In c special) s /\ forall t, s <> z2b 35 :: t.
Definition plain_attr (a : atav) : Prop := exists s, at_value a = AvString s /\ plain_text s.
Definition plain_name (n : rdn_seq) : Prop := Forall (fun rdn => rdn <> [] /\ Forall plain_attr rdn) n.

Definition same_attr (a b : atav) : Prop :=
  at_type a = at_type b /\ exists x y, at_value a = AvString x /\ at_value b = AvString y /\ same_text x y.
(** The same name: the same relative names in the same order, each a set of attributes. *)
Definition same_dn (a b : rdn_seq) : Prop :=
  Forall2 (fun x y => exists y', Permutation y y' /\ Forall2 same_attr x y') a b.

(** What the code makes of a value: every special character becomes a backslash, and a first # gets one in front. *)
Definition written (s : bytes) : bytes :=
  (match s with c :: _ => if byte_eqb c (z2b 35) then [z2b 92] else [] | [] => [] end) ++
  map (fun c => if existsb (byte_eqb c) special then z2b 92 else c) s.
Definition written_attr (a : atav) : atav :=
  {| at_type := at_type a; at_value := match at_value a with AvString s => AvString (written s) | v => v end |}.
Definition written_name (n : rdn_seq) : rdn_seq := map (map written_attr) n.
(** Names whose values are ASCII text. *)
Definition ascii_attr (a : atav) : Prop := exists s, at_value a = AvString s /\ Forall (fun c => b2z c < 128) s.
Definition ascii_name (n : rdn_seq) : Prop := Forall (fun rdn => rdn <> [] /\ Forall ascii_attr rdn) n.

(** No attribute type occurs twice in a relative name (X.501 requires this), and none is the empty OID. *)
Definition distinct_types (rdn : list atav) : Prop := NoDup (map at_type rdn) /\ ~ In [] (map at_type rdn).

(** strings.ToLower on ASCII text. *)
Definition lowers_ascii (E : env) : Prop := forall s, Forall (fun c => b2z c < 128) s -> e_to_lower E s = lower s.
