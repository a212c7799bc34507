(** Certificate revocation lists, RFC 5280 section 5 (C96). *)
From Verif.Model Require Import Bytes Env Asn1 X509 Pkcs7Verify.
From Verif.Spec Require Import Ber Asn1 Asn1Value Pkcs7 X509.

Record revoked_doc : Set := { rd_serial : Z; rd_date : Z; rd_exts : option (list ext_doc) }.
Record crl_doc : Type := {
  rl_version : option Z; rl_alg : oid * option bytes; rl_issuer : name_doc; rl_this : Z; rl_next : option Z;
  rl_revoked : option (list revoked_doc); rl_exts : option (list ext_doc); rl_tbs : bytes; rl_outer : oid * option bytes; rl_signature : bytes }.
Definition extensions_der (l : list ext_doc) (f : bytes) : Prop := exists es, Forall2 extension_der l es /\ seq_der es f.
Definition revoked_der (T : textenv) (r : revoked_doc) (f : bytes) : Prop :=
  exists serial date exts, integer_element (rd_serial r) serial /\ time_der T (rd_date r) date /\ optional extensions_der (rd_exts r) exts /\
    seq_der [serial; date; exts] f.
(** [rl_tbs] is the part of the list that is signed. *)
Definition crl_der (T : textenv) (d : crl_doc) (f : bytes) : Prop :=
  exists version alg issuer this next revoked exts outer sig,
    optional int64_element (rl_version d) version /\ algorithm_der (rl_alg d) alg /\ valid_oid (fst (rl_alg d)) /\ name_der T (rl_issuer d) issuer /\
    time_der T (rl_this d) this /\ optional (time_der T) (rl_next d) next /\
    optional (fun l e => exists rs, Forall2 (revoked_der T) l rs /\ seq_der rs e) (rl_revoked d) revoked /\
    optional (fun l e => exists s, extensions_der l s /\ der_element 2 0 true s e) (rl_exts d) exts /\
    seq_der [version; alg; issuer; this; next; revoked; exts] (rl_tbs d) /\
    algorithm_der (rl_outer d) outer /\ valid_oid (fst (rl_outer d)) /\ bit_string_der (rl_signature d) sig /\
    seq_der [rl_tbs d; outer; sig] f.

(** What pkix.CertificateList holds of it.  The time of a missing nextUpdate is time.Time's zero: 0001-01-01. *)
Definition listed {A} (x : option (list A)) : list A := match x with Some l => l | None => [] end.
Definition with_params (a : oid * option bytes) : oid * bytes := (fst a, match snd a with Some b => b | None => [] end).
Definition kept_extension (e : ext_doc) : oid * bool * bytes := (x_id e, x_critical e, x_value e).
Definition kept_revoked (r : revoked_doc) : revokedCert :=
  {| rv_serial := rd_serial r; rv_date := rd_date r; rv_exts := map kept_extension (listed (rd_exts r)) |}.
Definition kept_list (d : crl_doc) : certList := {|
  cl_raw := rl_tbs d; cl_version := match rl_version d with Some v => v | None => 0 end; cl_alg := with_params (rl_alg d);
  cl_issuer := name_text (rl_issuer d); cl_this := rl_this d; cl_next := match rl_next d with Some t => t | None => - 62135596800 end;
  cl_revoked := map kept_revoked (listed (rl_revoked d)); cl_exts := map kept_extension (listed (rl_exts d));
  cl_outer := with_params (rl_outer d); cl_sig := rl_signature d; cl_sig_bits := 8 * zlen (rl_signature d) |}.
