(** CertInfo.String (certinfo.go:95-99) and V3LineageSigningCertificateNode.Dump (schemev3lineage.go:89-123) *)
From Coq Require Import String.
From Verif.Model Require Import Bytes Env GoStrings Result SigBlock Utils CertInfo GoTime Printing.

(** time: absDate: year, month and day of a day; [n] counts days from 1970-01-01.  Go counts from a year that is 1 modulo 400 so that
    its unsigned numbers stay positive; year 1 is used here. *)
Definition absDate (n : Z) : Z * Z * Z :=
  let d := n + 719162 in
  let a := d / 146097 in let d := d - 146097 * a in
  let b := d / 36524 in let b := b - b / 4 in let d := d - 36524 * b in
  let c := d / 1461 in let d := d - 1461 * c in
  let e := d / 365 in let e := e - e / 4 in let yday := d - 365 * e in
  let year := 400 * a + 100 * b + 4 * c + e + 1 in
  if isLeap year && (yday =? 59) then (year, 2, 29) else
  let day := if isLeap year && (59 <? yday) then yday - 1 else yday in
  let month := day / 31 in
  let end_ := if month =? 11 then 365 else daysBefore (month + 2) in
  if end_ <=? day then (year, month + 2, day - end_ + 1) else (year, month + 1, day - daysBefore (month + 1) + 1).

(** time: Time.Format with layout time.RFC3339 (2006-01-02T15:04:05Z07:00) of a Unix time in a zone [off] seconds east; years 0 to 9999, which is all
    that fits in a certificate (time: appendInt with width 4) *)
Definition formatRFC3339 (off t : Z) : bytes :=
  let local := t + off in
  let '(y, m, d) := absDate (local / 86400) in
  let s := local mod 86400 in
  fourDigits y ++ s2b "-" ++ twoDigits m ++ s2b "-" ++ twoDigits d ++ s2b "T" ++
  twoDigits (s / 3600) ++ s2b ":" ++ twoDigits (s mod 3600 / 60) ++ s2b ":" ++ twoDigits (s mod 60) ++
  if off =? 0 then s2b "Z"
  else let zone := Z.quot off 60 in
       (if zone <? 0 then s2b "-" else s2b "+") ++ twoDigits (Z.abs zone / 60) ++ s2b ":" ++ twoDigits (Z.abs zone mod 60).

(** certinfo.go:95-99 CertInfo.String; [offFrom], [offTo]: the zones of ValidFrom and ValidTo *)
Definition certInfoString (offFrom offTo : Z) (ci : certinfo) : bytes :=
  s2b "Cert " ++ ci_sha1 ci ++ s2b ", valid from " ++ formatRFC3339 offFrom (ci_from ci) ++ s2b " to " ++ formatRFC3339 offTo (ci_to ci) ++
  s2b ", Subject: " ++ ci_subject ci ++ s2b ", Issuer: " ++ ci_issuer ci.

(** schemev3lineage.go:89-123 Dump: everything written to [w], if no write fails.  [timeText] is Time.String of NotBefore and NotAfter, whose zone names
    depend on the machine; [issuer], [subject] are the parsed names. *)
Definition lineageNodeDump (E : env) (from to : bytes) (issuer subject : pkix_name) (n : lnode) : bytes :=
  s2b "Cert " ++ hex_encode (e_hash E HSha1 (c_raw (ln_cert n))) ++ s2b ":" ++ [x0a] ++
  s2b "  ValidFrom: " ++ from ++ [x0a] ++ s2b "  ValidTo: " ++ to ++ [x0a] ++
  s2b "  Issuer: " ++ pkixNameToString issuer ++ [x0a] ++ s2b "  Subject: " ++ pkixNameToString subject ++ [x0a] ++
  s2b "ParentSigAlgorithm: " ++ sigAlgorithmString (ln_parent_algo n) ++ [x0a] ++
  s2b "SigAlgorithm: " ++ sigAlgorithmString (ln_algo n) ++ [x0a] ++
  s2b "Signature: " ++ hex_encode (e_hash E HSha1 (ln_signature n)) ++ [x0a] ++
  s2b "Flags: 0x" ++ fmtHexPad 4 (ln_flags n mod 2 ^ 32) ++ s2b " (" ++ lineageCapsString (ln_flags n) ++ s2b ")" ++ [x0a].
