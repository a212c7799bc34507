(** C82, C83: times and text in certificates, with the functions of the standard library modelled. *)
From Coq Require Import String Lia ZifyBool.
From Verif.Model Require Import Bytes Env Asn1 X509 GoTime GoUtf8.
From Verif.Spec Require Import Asn1 Asn1Value X509 Time Text.
From Verif.Proofs Require Import BytesFacts TimeFacts TextFacts AnyFacts.
From Verif.Examples Require Import Toy ToyPkcs7 ToyX509.
From Verif.Props Require Import X509.

(** C82: exactly which texts are accepted as UTCTime and GeneralizedTime, and as which instant of the Gregorian calendar. *)
Theorem C82_utc_time : forall s t, x_utc goText s = Some t <-> utc_text s t.
Proof. exact utc_time_iff. Qed.
Print Assumptions C82_utc_time.
Theorem C82_generalized_time : forall s t, x_generalized goText s = Some t <-> generalized_text s t.
Proof. exact generalized_time_iff. Qed.
Print Assumptions C82_generalized_time.
(** Every valid date has exactly one number of days since 1970-01-01. *)
Theorem C82_calendar : forall y m d, valid_date y m d -> exists n, day_number (y, m, d) n /\ forall n', day_number (y, m, d) n' -> n' = n.
Proof. intros y m d H. exists (unixDay y m d). split; [apply calendar; auto|]. intros n'. apply calendar. exact H. Qed.
Print Assumptions C82_calendar.
(** The validity of an accepted certificate is the one written in its bytes. *)
Theorem C82_certificate_validity : forall K E b c, k_text K = goText -> e_cert_andr (withX509 K E) b = Some c ->
  exists pre nb na post, b = pre ++ nb ++ na ++ post /\
    forall f t, (f, t) = (nb, c_not_before c) \/ (f, t) = (na, c_not_after c) ->
      exists content, (element 0 23 false content f /\ utc_text content t) \/ (element 0 24 false content f /\ generalized_text content t).
Proof.
  intros K E b c HK H. destruct (C80_certificate_layout K E b c H) as [(tbs & alg & sig & junk & version & serial & salg & issuer & validity & subject & spki & more & nb & na & vjunk & Hb & Ht & Hv & _ & _ & _ & _ & _ & _ & _ & Hnb & Hna & _)].
  destruct Hb as (i1 & l1 & -> & _). destruct Ht as (i2 & l2 & -> & _). destruct Hv as (i3 & l3 & -> & _).
  exists (i1 ++ l1 ++ i2 ++ l2 ++ version ++ serial ++ salg ++ issuer ++ i3 ++ l3), nb, na, (vjunk ++ subject ++ spki ++ more ++ alg ++ sig ++ junk).
  split; [rewrite <- !app_assoc; reflexivity|].
  intros f t Hf. assert (time_loose (k_text K) t f) as (content & Hc) by (destruct Hf as [Hf | Hf]; injection Hf as -> ->; assumption).
  rewrite HK in Hc. exists content. destruct Hc as [[H1 H2] | [H1 H2]]; [left | right]; (split; [assumption|]); [apply utc_time_iff | apply generalized_time_iff]; exact H2.
Qed.
Print Assumptions C82_certificate_validity.
Definition text_k : xenv := {| k_text := goText; k_point := k_point toy_k; k_print := k_print toy_k |}.
Example C82_nonvacuous :
  x_utc goText (s2b "700101000000Z") = Some 0 /\ x_utc goText (s2b "991231235959Z") = Some 946684799 /\ x_utc goText (s2b "000229120000+0130") = Some 951820200 /\
  x_utc goText (s2b "500101000000Z") = Some (-631152000) /\ x_utc goText (s2b "491231235959Z") = Some 2524607999 /\ x_utc goText (s2b "6803011200Z") = Some (-57931200) /\
  x_generalized goText (s2b "20500101000000Z") = Some 2524608000 /\ x_generalized goText (s2b "00010101000000Z") = Some (-62135596800) /\
  x_utc goText (s2b "010229000000Z") = None /\ x_utc goText (s2b "700101000000+0000") = None /\ x_utc goText (s2b "700101000000.5Z") = None /\
  x_utc goText (s2b "700101240000Z") = None /\ x_utc goText (s2b "70010100000Z") = None /\ x_generalized goText (s2b "20500101000060Z") = None.
Proof. repeat split; vm_compute; reflexivity. Qed.
Example C82_certificate_nonvacuous : exists c, e_cert_andr (withX509 text_k toy_env) (x_cert x_ec [x_ski]) = Some c /\ c_not_before c = 1577836800 /\ c_not_after c = 2524608000.
Proof. eexists. split; [vm_compute; reflexivity|]. split; vm_compute; reflexivity. Qed.

(** C83: exactly what is read as text: NumericString, PrintableString, T61String and IA5String byte by byte, UTF8String if it is the
    UTF-8 encoding of some characters, BMPString as UTF-16. *)
Theorem C83_text : forall b s rest, unmarshal goText TyAny b = (VAny (VString s), Some rest) <->
  exists tag content full, b = full ++ rest /\ element 0 tag false content full /\ string_text tag content s.
Proof.
  intros b s rest. assert (unmarshal goText TyAny b = match b with [] => (VNil, None) | _ => parseAny goText VNil b end) as -> by (destruct b; reflexivity).
  assert (string_tag : forall tag content, string_text tag content s -> In tag [19; 18; 22; 20; 12; 30]) by (intros tag content H; unfold string_text in H; cbn [In]; lia).
  assert (match b with [] => (VNil, None) | _ => parseAny goText VNil b end = parseAny goText VNil b) as -> by (destruct b; reflexivity).
  rewrite parseAny_iff. split; intros (tag & content & full & -> & Hel & Hv); exists tag, content, full; (split; [reflexivity|]); (split; [assumption|]).
  - destruct (existsb _ _) eqn:B in Hv.
    + apply existsb_exists in B. destruct B as (x & Hx & Ex). assert (x = tag) by lia. subst x.
      apply parseString_iff; [exact Hx|]. destruct (parseString goText tag content); cbn [option_map] in Hv; congruence.
    + exfalso. revert Hv.
      destruct (_ =? TagInteger). { destruct (parseInt64 _); cbn [option_map]; congruence. }
      destruct (_ =? TagBitString). { destruct (parseBitString _); cbn [option_map]; congruence. }
      destruct (_ =? TagOID). { destruct (parseObjectIdentifier _); cbn [option_map]; congruence. }
      destruct (_ =? TagUTCTime). { destruct (x_utc goText _); cbn [option_map]; congruence. }
      destruct (_ =? TagGeneralizedTime). { destruct (x_generalized goText _); cbn [option_map]; congruence. }
      destruct (_ =? TagOctetString); congruence.
  - pose proof (string_tag _ _ Hv) as Hin.
    assert (existsb (Z.eqb tag) [TagPrintableString; TagNumericString; TagIA5String; TagT61String; TagUTF8String; TagBMPString] = true) as ->.
    { apply existsb_exists. exists tag. split; [exact Hin | lia]. }
    apply parseString_iff in Hv; [|exact Hin]. rewrite Hv. reflexivity.
Qed.
Print Assumptions C83_text.
(** UTF-8 text is determined by its bytes, and the other way round. *)
Theorem C83_utf8_unique : forall cs cs' b b', utf8_text cs b -> utf8_text cs' b' -> (cs = cs' <-> b = b').
Proof.
  intros cs cs' b b' H H'. split; intros <-; [|eapply utf8_text_unique; eassumption].
  apply utf8_text_append in H; [|apply H]. apply utf8_text_append in H'; [|apply H']. congruence.
Qed.
Print Assumptions C83_utf8_unique.
(** An overlong form, a surrogate and a value above U+10FFFF are refused; a surrogate pair and an unpaired surrogate in a BMPString. *)
Example C83_nonvacuous :
  unmarshal goText TyAny (tlv x0c [x41; xc3; xa9; xe2; x82; xac; xf0; x9f; x98; x80]) = (VAny (VString [x41; xc3; xa9; xe2; x82; xac; xf0; x9f; x98; x80]), Some []) /\
  utf8_text [65; 233; 8364; 128512] [x41; xc3; xa9; xe2; x82; xac; xf0; x9f; x98; x80] /\
  unmarshal goText TyAny (tlv x0c [xc0; x80]) = (VNil, None) /\ unmarshal goText TyAny (tlv x0c [xed; xa0; x80]) = (VNil, None) /\
  unmarshal goText TyAny (tlv x0c [xf4; x90; x80; x80]) = (VNil, None) /\
  unmarshal goText TyAny (tlv x1e [xd8; x3d; xde; x00; x00; x41; xd8; x00; x00; x00]) = (VAny (VString [xf0; x9f; x98; x80; x41; xef; xbf; xbd]), Some []).
Proof.
  split; [vm_compute; reflexivity|]. split; [|repeat split; vm_compute; reflexivity].
  apply utf8_text_append; [repeat constructor; unfold scalar_value; lia | vm_compute; reflexivity].
Qed.
