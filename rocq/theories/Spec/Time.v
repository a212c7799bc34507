(** UTCTime and GeneralizedTime as RFC 5280 reads them, and the calendar (C82). *)
From Verif.Model Require Import Bytes.

(** The Gregorian calendar: length of the months, and the day after a day. *)
Definition leap_year (y : Z) : Prop := y mod 4 = 0 /\ (y mod 100 <> 0 \/ y mod 400 = 0).
Inductive month_length (y : Z) : Z -> Z -> Prop :=
| ml_31 m : In m [1; 3; 5; 7; 8; 10; 12] -> month_length y m 31
| ml_30 m : In m [4; 6; 9; 11] -> month_length y m 30
| ml_28 : ~ leap_year y -> month_length y 2 28
| ml_29 : leap_year y -> month_length y 2 29.
Definition valid_date (y m d : Z) : Prop := exists n, month_length y m n /\ 1 <= d <= n.
Inductive next_day : Z * Z * Z -> Z * Z * Z -> Prop :=
| nd_day y m d n : month_length y m n -> 1 <= d < n -> next_day (y, m, d) (y, m, d + 1)
| nd_month y m n : month_length y m n -> m < 12 -> next_day (y, m, n) (y, m + 1, 1)
| nd_year y : next_day (y, 12, 31) (y + 1, 1, 1).
(** Days since 1970-01-01. *)
Inductive day_number : Z * Z * Z -> Z -> Prop :=
| dn_epoch : day_number (1970, 1, 1) 0
| dn_next a b n : day_number a n -> next_day a b -> day_number b (n + 1)
| dn_previous a b n : day_number b n -> next_day a b -> day_number a (n - 1).

Definition two_digits (n : Z) (s : bytes) : Prop := 0 <= n <= 99 /\ s = [z2b (48 + n / 10); z2b (48 + n mod 10)].
(** Z, or a sign, hours and minutes, not both zero; in seconds east of Greenwich *)
Inductive zone_text : Z -> bytes -> Prop :=
| zt_utc : zone_text 0 ["Z"%byte]
| zt_offset (sign : bool) h m sh sm : 0 <= h <= 24 -> 0 <= m <= 59 -> 0 < h + m -> two_digits h sh -> two_digits m sm ->
    zone_text (if sign then - (h * 3600 + m * 60) else h * 3600 + m * 60) ((if sign then "-"%byte else "+"%byte) :: sh ++ sm).
(** Month, day, hours, minutes, the text of the seconds, zone: the Unix time, in a given year *)
Definition rest_text (y sec : Z) (ssec s : bytes) (t : Z) : Prop :=
  exists mo d h mi zone day smo sd sh smi sz,
    s = smo ++ sd ++ sh ++ smi ++ ssec ++ sz /\
    two_digits mo smo /\ two_digits d sd /\ two_digits h sh /\ two_digits mi smi /\ zone_text zone sz /\
    valid_date y mo d /\ h <= 23 /\ mi <= 59 /\ 0 <= sec <= 59 /\ day_number (y, mo, d) day /\
    t = day * 86400 + h * 3600 + mi * 60 + sec - zone.
(** YYMMDDhhmm[ss] zone, years 1950 to 2049 *)
Definition utc_text (s : bytes) (t : Z) : Prop :=
  exists y sy r sec ssec, 1950 <= y <= 2049 /\ s = sy ++ r /\ two_digits (y mod 100) sy /\
    ((sec = 0 /\ ssec = []) \/ two_digits sec ssec) /\ rest_text y sec ssec r t.
(** YYYYMMDDhhmmss zone *)
Definition generalized_text (s : bytes) (t : Z) : Prop :=
  exists y shi slo r sec ssec, 0 <= y <= 9999 /\ s = shi ++ slo ++ r /\ two_digits (y / 100) shi /\ two_digits (y mod 100) slo /\
    two_digits sec ssec /\ rest_text y sec ssec r t.
