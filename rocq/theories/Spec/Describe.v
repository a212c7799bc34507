(** What CertInfo.String and the dump of a lineage node show (C115) *)
From Coq Require Import String.
From Verif.Model Require Import Bytes GoStrings.
From Verif.Spec Require Import Time.

(** RFC 3339: Z, or the sign, hours and minutes of a zone; in seconds east of Greenwich *)
Inductive rfc3339_zone : Z -> bytes -> Prop :=
| rz_utc : rfc3339_zone 0 (s2b "Z")
| rz_offset (sign : bool) h m sh sm : 0 <= h <= 24 -> 0 <= m <= 59 -> 0 < h + m -> two_digits h sh -> two_digits m sm ->
    rfc3339_zone (if sign then - (h * 3600 + m * 60) else h * 3600 + m * 60) ((if sign then s2b "-" else s2b "+") ++ sh ++ s2b ":" ++ sm).
(** YYYY-MM-DDThh:mm:ss and the zone: the Unix time [t] *)
Definition rfc3339_text (off : Z) (s : bytes) (t : Z) : Prop :=
  exists y mo d h mi sec day sy sy' smo sd sh smi ss sz,
    s = sy ++ sy' ++ s2b "-" ++ smo ++ s2b "-" ++ sd ++ s2b "T" ++ sh ++ s2b ":" ++ smi ++ s2b ":" ++ ss ++ sz /\
    two_digits (y / 100) sy /\ two_digits (y mod 100) sy' /\ two_digits mo smo /\ two_digits d sd /\
    two_digits h sh /\ two_digits mi smi /\ two_digits sec ss /\ rfc3339_zone off sz /\
    valid_date y mo d /\ h <= 23 /\ mi <= 59 /\ sec <= 59 /\ day_number (y, mo, d) day /\
    t = day * 86400 + h * 3600 + mi * 60 + sec - off.
(** The zones that a time in a certificate can have, and the years *)
Definition zone_offset (off : Z) : Prop := exists s, zone_text off s.
Definition four_digit_year (off t : Z) : Prop := exists y mo d, valid_date y mo d /\ 0 <= y <= 9999 /\ day_number (y, mo, d) ((t + off) / 86400).
(** The values of Go's int32 *)
Definition int32 (z : Z) : Prop := - 2 ^ 31 <= z < 2 ^ 31.
