(** JAR manifests and signature files as text: attributes "Name: value" with optional continuation
    lines, grouped in sections separated by blank lines.  Independent of the parser. *)
From Verif.Model Require Import Bytes.

(** The three line terminators; a file uses one of them throughout. *)
Inductive eol_style : Set := LF | CR | CRLF.
Definition eol (s : eol_style) : bytes :=
  match s with LF => [x0a] | CR => [x0d] | CRLF => [x0d; x0a] end.

(** One attribute, with its value cut into the text of the first line and of the continuation lines. *)
Record jattr : Set := { ja_name : bytes; ja_first : bytes; ja_more : list bytes }.
Definition ja_value (a : jattr) : bytes := ja_first a ++ concat (ja_more a).

Definition enc_attr (s : eol_style) (a : jattr) : bytes :=
  ja_name a ++ [":"%byte; x20] ++ ja_first a
  ++ flat_map (fun p => eol s ++ [x20] ++ p) (ja_more a) ++ eol s.

(** A section: its attributes and the number of blank lines after it. *)
Record jsection : Set := { js_attrs : list jattr; js_blank : nat }.
Definition enc_section (s : eol_style) (x : jsection) : bytes :=
  flat_map (enc_attr s) (js_attrs x) ++ concat (repeat (eol s) (js_blank x)).

(** Names are 1 to 70 characters from A-Z a-z 0-9 _ -. *)
Definition name_byte (b : byte) : Prop :=
  97 <= b2z b <= 122 \/ 65 <= b2z b <= 90 \/ 48 <= b2z b <= 57 \/ b = "_"%byte \/ b = "-"%byte.
Definition name_ok (n : bytes) : Prop := 1 <= zlen n <= 70 /\ Forall name_byte n.
(** A line of value text has no NUL, LF or CR. *)
Definition text_byte (b : byte) : Prop := b <> x00 /\ b <> x0a /\ b <> x0d.
(** Continuation lines other than the last one are not empty. *)
Definition attr_ok (a : jattr) : Prop :=
  name_ok (ja_name a) /\ Forall text_byte (ja_first a) /\ Forall (Forall text_byte) (ja_more a) /\
  Forall (fun p => p <> []) (removelast (ja_more a)).

(** Lower case of an ASCII letter. *)
Definition lower_byte (b : byte) : byte :=
  if (65 <=? b2z b) && (b2z b <=? 90) then z2b (b2z b + 32) else b.
Definition lower (n : bytes) : bytes := map lower_byte n.

(** What an attribute list means: the value of an attribute is the one given last, names ignore case. *)
Definition attr_value (l : list jattr) (key : bytes) : option bytes :=
  match find (fun a => bytes_eqb key (lower (ja_name a))) (rev l) with
  | Some a => Some (ja_value a)
  | None => None
  end.

(** A manifest file: a non-empty main section, then sections whose first attribute is Name; all but
    the last section are followed by a blank line. *)
Fixpoint blanks_ok (l : list jsection) : Prop :=
  match l with
  | [] | [_] => True
  | x :: t => (1 <= js_blank x)%nat /\ blanks_ok t
  end.
Definition section_named (x : jsection) (n : bytes) : Prop :=
  exists a t, js_attrs x = a :: t /\ lower (ja_name a) = lower (map z2b [78; 97; 109; 101]) (* Name *) /\ ja_value a = n.
(** The attributes a section gives to its file (everything after Name). *)
Definition section_attrs (x : jsection) : list jattr := tl (js_attrs x).

(** An empty continuation line: a line consisting of a single space, followed by another
    continuation line (or by a blank run and a line starting with a space). *)
Definition is_lb (b : byte) : Prop := b = x0a \/ b = x0d.
Definition empty_continuation (data : bytes) : Prop :=
  exists p b lbs t, data = p ++ b :: x20 :: lbs ++ x20 :: t /\ is_lb b /\ Forall is_lb lbs /\ lbs <> [].
Definition ends_with_colon (data : bytes) : Prop := exists p, data = p ++ [":"%byte].
