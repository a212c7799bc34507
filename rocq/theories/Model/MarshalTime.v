(** Marshalling of time.Time: internal/asn1andr/marshal.go:354-452, 466-471, 657-661.

    A time.Time is the fields that its Date, Clock and Zone methods return ([timeFields]).  Simplification: the struct
    field is not optional (the zero time.Time of an optional field would be left out). *)
From Verif.Model Require Import Bytes Env Asn1 GoTime.

(** marshal.go:354-356 appendTwoDigits; Go's division rounds towards zero *)
Definition appendTwoDigits (v : Z) : bytes := [z2b (48 + Z.rem (Z.quot v 10) 10); z2b (48 + Z.rem v 10)].
(** marshal.go:358-365 appendFourDigits *)
Definition appendFourDigits (v : Z) : bytes :=
  [z2b (48 + Z.rem (Z.quot (Z.quot (Z.quot v 10) 10) 10) 10); z2b (48 + Z.rem (Z.quot (Z.quot v 10) 10) 10); z2b (48 + Z.rem (Z.quot v 10) 10); z2b (48 + Z.rem v 10)].
(** marshal.go:367-370 outsideUTCRange *)
Definition outsideUTCRange (t : timeFields) : bool := (tf_year t <? 1950) || (2050 <=? tf_year t).
(** marshal.go:420-452 appendTimeCommon *)
Definition appendTimeCommon (t : timeFields) : bytes :=
  appendTwoDigits (tf_month t) ++ appendTwoDigits (tf_day t) ++
  appendTwoDigits (tf_hour t) ++ appendTwoDigits (tf_min t) ++ appendTwoDigits (tf_sec t) ++
  (let offset := tf_offset t in
   if Z.quot offset 60 =? 0 then ["Z"%byte]
   else
     let offsetMinutes := if Z.quot offset 60 <? 0 then - Z.quot offset 60 else Z.quot offset 60 in
     (if 0 <? offset then ["+"%byte] else if offset <? 0 then ["-"%byte] else []) ++
     appendTwoDigits (Z.quot offsetMinutes 60) ++ appendTwoDigits (Z.rem offsetMinutes 60)).
(** marshal.go:394-407 appendUTCTime *)
Definition appendUTCTime (t : timeFields) : option bytes :=
  let year := tf_year t in
  if (1950 <=? year) && (year <? 2000) then Some (appendTwoDigits (year - 1900) ++ appendTimeCommon t)
  else if (2000 <=? year) && (year <? 2050) then Some (appendTwoDigits (year - 2000) ++ appendTimeCommon t)
  else None.
(** marshal.go:409-418 appendGeneralizedTime *)
Definition appendGeneralizedTime (t : timeFields) : option bytes :=
  let year := tf_year t in
  if (year <? 0) || (9999 <? year) then None else Some (appendFourDigits year ++ appendTimeCommon t).
(** marshal.go:582-680 makeField for a time.Time; [timeType] is 0, 23 (utc) or 24 (generalized), common.go:110-113 *)
Definition makeTime (p : fparams) (timeType : Z) (t : timeFields) : option bytes :=
  if negb (fp_stringType p =? 0) then None
  else
    let generalized := (timeType =? TagGeneralizedTime) || outsideUTCRange t in
    if fp_set p then None
    else match (if generalized then appendGeneralizedTime t else appendUTCTime t) with
         | None => None
         | Some body => Some (wrapTags p (if generalized then TagGeneralizedTime else TagUTCTime) false body)
         end.
