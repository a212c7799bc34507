(** UTCTime and GeneralizedTime: internal/asn1andr/asn1.go:341-384, with time.Parse, time.Date and Time.Format of the standard library
    (Go 1.24) for the three layouts used.  A time.Time is its Unix time in seconds.

    Simplifications: time.Parse reads the year and the zone with atoi, which would also take a sign; such a text does not format back
    (asn1.go:356, 379), here it is refused at once.  Time.Format works on the fields read, which are in range, and not on the fields
    recomputed from the seconds.  time.Parse may attach the local time zone, if the offset matches; AddDate(-100, 0, 0) is modelled for a
    zone whose offset does not change. *)
From Verif.Model Require Import Bytes Env Asn1 GoStrings.

Definition digitOf (c : byte) : Z := b2z c - 48.
(** time: getnum *)
Definition getnum (fixed : bool) (s : bytes) : option (Z * bytes) :=
  match s with
  | a :: r =>
      if negb (isDigit a) then None
      else match r with
           | b :: r' => if isDigit b then Some (digitOf a * 10 + digitOf b, r') else if fixed then None else Some (digitOf a, r)
           | [] => if fixed then None else Some (digitOf a, [])
           end
  | [] => None
  end.
(** time: isLeap, daysIn *)
Definition isLeap (y : Z) : bool := (y mod 4 =? 0) && (negb (y mod 100 =? 0) || (y mod 400 =? 0)).
Definition daysIn (m y : Z) : Z :=
  if m =? 2 then (if isLeap y then 29 else 28)
  else if (m =? 4) || (m =? 6) || (m =? 9) || (m =? 11) then 30 else 31.
(** time: daysBefore *)
Definition daysBefore (m : Z) : Z := nth (Z.to_nat (m - 1)) [0; 31; 59; 90; 120; 151; 181; 212; 243; 273; 304; 334] 0.
(** time: days from 0001-01-01 to the first day of the year (daysSinceEpoch), and time.Date in UTC: Unix day *)
Definition daysSince (year : Z) : Z :=
  let y := year - 1 in
  let y1 := y mod 400 in
  let y2 := y1 mod 100 in
  146097 * (y / 400) + 36524 * (y1 / 100) + 1461 * (y2 / 4) + 365 * (y2 mod 4).
Definition unixDay (y m d : Z) : Z :=
  daysSince y + daysBefore m + (if isLeap y && (3 <=? m) then 1 else 0) + (d - 1) - 719162.

Record timeFields : Set := { tf_year : Z; tf_month : Z; tf_day : Z; tf_hour : Z; tf_min : Z; tf_sec : Z; tf_offset : Z }.
(** time.Date(...) in UTC, minus the zone offset *)
Definition unixTime (t : timeFields) : Z :=
  unixDay (tf_year t) (tf_month t) (tf_day t) * 86400 + tf_hour t * 3600 + tf_min t * 60 + tf_sec t - tf_offset t.

(** time: appendInt with width 2 or 4, of a number that fits *)
Definition twoDigits (v : Z) : bytes := [z2b (48 + v / 10); z2b (48 + v mod 10)].
Definition fourDigits (v : Z) : bytes := twoDigits (v / 100) ++ twoDigits (v mod 100).

(** time.Parse, layout element Z0700; the offset in seconds *)
Definition parseZone (s : bytes) : option (Z * bytes) :=
  match s with
  | [] => None
  | sign :: r =>
      if b2z sign =? 90 then Some (0, r)                                   (* Z *)
      else match r with
           | h1 :: h2 :: m1 :: m2 :: r =>
               match getnum true [h1; h2], getnum true [m1; m2] with
               | Some (hr, _), Some (mm, _) =>
                   if (24 <? hr) || (60 <? mm) then None
                   else let off := (hr * 60 + mm) * 60 in
                        if b2z sign =? 43 then Some (off, r)               (* + *)
                        else if b2z sign =? 45 then Some (- off, r)        (* - *)
                        else None
               | _, _ => None
               end
           | _ => None
           end
  end.
(** Time.Format, layout element Z0700 *)
Definition formatZone (offset : Z) : bytes :=
  if offset =? 0 then ["Z"%byte]
  else let zone := Z.quot offset 60 in
       (if zone <? 0 then "-"%byte else "+"%byte) :: twoDigits (Z.abs zone / 60) ++ twoDigits (Z.abs zone mod 60).

(** time.Parse: a fraction of a second that is not in the layout is skipped *)
Fixpoint dropDigits (s : bytes) : bytes :=
  match s with c :: r => if isDigit c then dropDigits r else s | [] => [] end.
Definition skipFraction (s : bytes) : bytes :=
  match s with
  | c :: d :: r => if ((b2z c =? 46) || (b2z c =? 44)) && isDigit d then dropDigits r else s
  | _ => s
  end.
(** time.Parse: the part of the layouts after the year, 01021504[05]Z0700 *)
Definition parseRest (seconds : bool) (year : Z) (s : bytes) : option timeFields :=
  match getnum true s with None => None | Some (month, s) =>
  if (month <=? 0) || (12 <? month) then None else
  match getnum true s with None => None | Some (day, s) =>
  match getnum false s with None => None | Some (hour, s) =>
  if 24 <=? hour then None else
  match getnum true s with None => None | Some (min, s) =>
  if 60 <=? min then None else
  match (if seconds then getnum true s else Some (0, s)) with None => None | Some (sec, s) =>
  if 60 <=? sec then None else
  match parseZone (if seconds then skipFraction s else s) with None => None | Some (offset, s) =>
  match s with
  | _ :: _ => None                      (* extra text *)
  | [] => if (day <? 1) || (daysIn month year <? day) then None
          else Some {| tf_year := year; tf_month := month; tf_day := day; tf_hour := hour; tf_min := min; tf_sec := sec; tf_offset := offset |}
  end end end end end end end.
Definition formatRest (seconds : bool) (t : timeFields) : bytes :=
  twoDigits (tf_month t) ++ twoDigits (tf_day t) ++ twoDigits (tf_hour t) ++ twoDigits (tf_min t) ++ (if seconds then twoDigits (tf_sec t) else []) ++ formatZone (tf_offset t).
(** time.Parse with layout 0601021504[05]Z0700, and Time.Format *)
Definition parseShort (seconds : bool) (s : bytes) : option timeFields :=
  match getnum true s with
  | None => None
  | Some (yy, s) => parseRest seconds (if 69 <=? yy then 1900 + yy else 2000 + yy) s
  end.
Definition formatShort (seconds : bool) (t : timeFields) : bytes := twoDigits (tf_year t mod 100) ++ formatRest seconds t.
(** time.Parse with layout 20060102150405Z0700, and Time.Format *)
Definition parseLong (s : bytes) : option timeFields :=
  match getnum true s with
  | None => None
  | Some (hi, s) => match getnum true s with
                    | None => None
                    | Some (lo, s) => parseRest true (hi * 100 + lo) s
                    end
  end.
Definition formatLong (t : timeFields) : bytes := fourDigits (tf_year t) ++ formatRest true t.

(** time: AddDate(-100, 0, 0) *)
Definition century (t : timeFields) : timeFields :=
  {| tf_year := tf_year t - 100; tf_month := tf_month t; tf_day := tf_day t; tf_hour := tf_hour t; tf_min := tf_min t; tf_sec := tf_sec t; tf_offset := tf_offset t |}.

(** asn1.go:341-365 parseUTCTime *)
Definition parseUTCTime (s : bytes) : option Z :=
  match (match parseShort false s with
         | Some t => Some (t, false)
         | None => option_map (fun t => (t, true)) (parseShort true s)
         end) with
  | None => None
  | Some (t, seconds) =>
      if negb (bytes_eqb (formatShort seconds t) s) then None
      else Some (unixTime (if 2050 <=? tf_year t then century t else t))
  end.
(** asn1.go:367-384 parseGeneralizedTime *)
Definition parseGeneralizedTime (s : bytes) : option Z :=
  match parseLong s with
  | None => None
  | Some t => if negb (bytes_eqb (formatLong t) s) then None else Some (unixTime t)
  end.
