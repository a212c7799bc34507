(** /repo/certinfo.go: the preferred certificate of an APK *)
From Verif.Model Require Import Bytes Env.

(** time.Duration of t.Sub(u): nanoseconds, saturating at the int64 bounds (package time) *)
Definition sat64 (d : Z) : Z := Z.max (- 2 ^ 63) (Z.min (2 ^ 63 - 1) d).
Definition timeSub (t u : Z) : Z := sat64 (t - u).

(** bytes.Compare(a, b) > 0 *)
Fixpoint bytesGreater (a b : bytes) : bool :=
  match a, b with
  | [], _ => false
  | _ :: _, [] => true
  | x :: a', y :: b' => if b2z x =? b2z y then bytesGreater a' b' else b2z y <? b2z x
  end.

(** certinfo.go:32-57 byPreference.Less on the first certificates of two chains.  Times are nanoseconds since
    an arbitrary instant.  Simplification: the code reads the clock in every comparison; here [now] is
    the same instant for the whole sort. *)
Definition looksValid (now : Z) (c : cert) : bool := (now <? c_not_after c) || (c_not_before c <? now).   (* certinfo.go:41, 43 *)
Definition certLess (now : Z) (ci cj : cert) : bool :=
  if negb (c_sigalg ci =? c_sigalg cj) then c_sigalg cj <? c_sigalg ci
  else if looksValid now ci then false
  else if looksValid now cj then true
  else if negb (c_not_before ci =? c_not_before cj) then c_not_before cj <? c_not_before ci
  else if negb (c_not_after ci =? c_not_after cj) then
    timeSub (c_not_after cj) (c_not_before cj) <? timeSub (c_not_after ci) (c_not_before ci)
  else bytesGreater (c_raw ci) (c_raw cj).
(* c[i][0]: an empty chain panics; [chainLess] is only used when there is none *)
Definition chainLess (now : Z) (a b : list cert) : bool :=
  match a, b with ci :: _, cj :: _ => certLess now ci cj | _, _ => false end.

(** certinfo.go:61-69 PickBestApkCert: the picked certificate (None = nil) and the reordered slice.
    sort.Sort of one chain makes no comparison, but chains[0][0] is read; with two or more chains every
    chain is compared, so that any empty chain is an index panic. *)
Definition pickBestApkCert (S : sched) (now : Z) (chains : list (list cert)) : outcome (option cert * list (list cert)) :=
  match chains with
  | [] => Ret (None, [])
  | _ => if existsb (fun c => match c with [] => true | _ => false end) chains then Panic PIndex
         else let sorted := srt S _ (chainLess now) chains in
              match sorted with
              | (c :: _) :: _ => Ret (Some c, sorted)
              | _ => Panic PIndex
              end
  end.

(** The fields of crypto/x509/pkix.Name that are printed, signingblock/utils.go:93-121 *)
Record pkix_name : Set := {
  pn_country : list bytes; pn_province : list bytes; pn_locality : list bytes;
  pn_org : list bytes; pn_unit : list bytes; pn_cn : bytes }.

(* strings.Join *)
Fixpoint joinWith (sep : bytes) (l : list bytes) : bytes :=
  match l with [] => [] | [x] => x | x :: t => x ++ sep ++ joinWith sep t end.
Definition field (k : bytes) (vs : list bytes) : bytes :=
  match vs with [] => [] | _ => k ++ [x3d] ++ joinWith [x3b] vs ++ [x2c; x20] end.
Definition pkixNameToString (n : pkix_name) : bytes :=
  let buf := field [x43] (pn_country n) ++ field [x53; x54] (pn_province n) ++ field [x4c] (pn_locality n) ++
             field [x4f] (pn_org n) ++ field [x4f; x55] (pn_unit n) ++
             match pn_cn n with [] => [] | cn => [x43; x4e] ++ [x3d] ++ cn ++ [x2c; x20] end in
  if zlen buf =? 0 then buf else takeZ (zlen buf - 2) buf.

(** certinfo.go:17-26, 79-93 CertInfo and Fill.  SignatureAlgorithm.String() is kept as the number; the printable
    names are given separately because [cert] carries the attribute sequences only. *)
Record certinfo : Set := {
  ci_md5 : bytes; ci_sha1 : bytes; ci_sha256 : bytes; ci_from : Z; ci_to : Z;
  ci_issuer : bytes; ci_subject : bytes; ci_sigalg : Z; ci_serial : Z }.
Definition newCertInfo (E : env) (issuer subject : pkix_name) (c : cert) : certinfo :=
  {| ci_md5 := hex_encode (e_hash E HMd5 (c_raw c));
     ci_sha1 := hex_encode (e_hash E HSha1 (c_raw c));
     ci_sha256 := hex_encode (e_hash E HSha256 (c_raw c));
     ci_from := c_not_before c; ci_to := c_not_after c;
     ci_issuer := pkixNameToString issuer; ci_subject := pkixNameToString subject;
     ci_sigalg := c_sigalg c; ci_serial := c_serial c |}.
