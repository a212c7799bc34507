(** Certificate chains and host names: what the chain verifier of x509andr promises (RFC 5280 path validation as far as
    the package does it). *)
From Verif.Model Require Import Bytes Env Chain.

(** ** Signatures *)

(** The hash a signature algorithm uses; MD2 and MD5 have none here. *)
Inductive algo_hash : Z -> hash_id -> Prop :=
| ah_sha1 a : In a [xSHA1WithRSA; xDSAWithSHA1; xECDSAWithSHA1] -> algo_hash a HSha1
| ah_sha256 a : In a [xSHA256WithRSA; xSHA256WithRSAPSS; xDSAWithSHA256; xECDSAWithSHA256] -> algo_hash a HSha256
| ah_sha384 a : In a [xSHA384WithRSA; xSHA384WithRSAPSS; xECDSAWithSHA384] -> algo_hash a HSha384
| ah_sha512 a : In a [xSHA512WithRSA; xSHA512WithRSAPSS; xECDSAWithSHA512] -> algo_hash a HSha512.
Definition pss_algo (a : Z) : Prop := In a [xSHA256WithRSAPSS; xSHA384WithRSAPSS; xSHA512WithRSAPSS].

(** [sig] is a signature of [msg]: the kind of key decides how it is checked. *)
Definition x_signature (E : env) (algo : Z) (msg sig : bytes) (key : pubkey) : Prop :=
  exists h, algo_hash algo h /\
    match key with
    | KRsa k _ => (pss_algo algo /\ e_rsa_pss E k h (hash_size h) (e_hash E h msg) sig = true) \/
                  (~ pss_algo algo /\ e_rsa_pkcs1 E k h (e_hash E h msg) sig = true)
    | KDsa k _ => exists r s, e_asn1_rs_andr E sig = Some (r, s, false) /\ 0 < r /\ 0 < s /\ e_dsa E k (e_hash E h msg) r s = true
    | KEcdsa k => exists r s, e_asn1_rs_andr E sig = Some (r, s, false) /\ 0 < r /\ 0 < s /\ e_ecdsa E k (e_hash E h msg) r s = true
    | KOther _ => False
    end.

(** A certificate that may sign others: a CA if it is of version 3 or says anything about it; if it restricts the use of its key
    then certificate signing is included. *)
Definition ca_like (c : vcert) : Prop := (vc_version c = 3 -> vc_bc_valid c = true) /\ (vc_bc_valid c = true -> vc_is_ca c = true).
Definition may_sign (c : vcert) : Prop := vc_key_usage c = 0 \/ Z.testbit (vc_key_usage c) 5 = true.
Definition signed_by (V : venv) (child parent : vcert) : Prop :=
  (ca_like parent \/ vc_raw_spki child = entrustBrokenSPKI) /\ may_sign parent /\ vc_known_key parent = true /\
  x_signature (v_env V) (vc_sig_algo child) (vc_raw_tbs child) (vc_signature child) (vc_key parent).

(** ** Names *)

(** [d] is [k] or below it, up to case; a [k] with leading dot does not cover the name without it, one without leading dot covers
    whole labels only; the empty [k] covers everything. *)
Definition dot : byte := z2b 46.
Definition constraint_covers (V : venv) (d k : bytes) : Prop :=
  k = [] \/
  exists pre tail, d = pre ++ tail /\ zlen tail = zlen k /\ v_equal_fold V tail k = true /\
    (pre = [] \/
     (exists pre', pre = pre' ++ [dot] /\ forall t, k <> dot :: t) \/
     (exists pre' b t, pre = pre' ++ [b] /\ b <> dot /\ k = dot :: t)).
Definition name_allowed (V : venv) (d : bytes) (c : vcert) : Prop :=
  (vc_permitted c = [] \/ exists k, In k (vc_permitted c) /\ constraint_covers V d k) /\
  (forall k, In k (vc_excluded c) -> ~ constraint_covers V d k).

(** Labels separated by dots. *)
Fixpoint dotted (l : list bytes) : bytes :=
  match l with [] => [] | [x] => x | x :: t => x ++ dot :: dotted t end.
Definition label (l : bytes) : Prop := ~ In dot l.
(** without the final dot *)
Definition no_final_dot (s t : bytes) : Prop := s = t ++ [dot] \/ (s = t /\ forall u, s <> u ++ [dot]).
(** Equal label by label, or the first label of the pattern is a star that stands for exactly one label. *)
Definition host_covered (pattern host : bytes) : Prop :=
  exists p h lp lh, no_final_dot pattern p /\ no_final_dot host h /\ p <> [] /\ h <> [] /\
    p = dotted lp /\ h = dotted lh /\ Forall label lp /\ Forall label lh /\
    (lp = lh /\ lp <> [] \/ exists x rest, lp = [z2b 42] :: rest /\ lh = x :: rest).

(** ASCII letters in lower case. *)
Definition ascii_lower (a b : bytes) : Prop :=
  Forall2 (fun x y => (65 <= b2z x <= 90 /\ b2z y = b2z x + 32) \/ (~ 65 <= b2z x <= 90 /\ y = x)) a b.

(** An address in brackets. *)
Definition unbracketed (h a : bytes) : Prop :=
  (exists x, x <> [] /\ h = z2b 91 :: x ++ [z2b 93] /\ a = x) \/
  ((forall x, x <> [] -> h <> z2b 91 :: x ++ [z2b 93]) /\ a = h).
(** The certificate is for the host [h]: an address is compared with the addresses only, a name with the alternative
    names if there is that extension, otherwise with the common name. *)
Definition for_host (V : venv) (c : vcert) (h : bytes) : Prop :=
  exists a, unbracketed h a /\
  match v_parse_ip V a with
  | Some ip => exists x, In x (vc_ips c) /\ v_ip_equal V ip x = true
  | None => exists hl n nl, ascii_lower h hl /\ ascii_lower n nl /\ host_covered nl hl /\
              (if vc_has_san c then In n (vc_dns_names c) else n = vc_common_name c)
  end.

(** ** Chains *)

Definition in_period (t : Z) (c : vcert) : Prop := vc_not_before c <= t <= vc_not_after c.
(** [n] certificates between this one and the end certificate *)
Definition path_len_ok (c : vcert) (n : Z) : Prop := vc_bc_valid c = true -> 0 <= vc_max_path_len c -> n <= vc_max_path_len c.

(** [path]: from the leaf through intermediates to a root; every certificate is signed by the next, whose subject is its issuer;
    every signer is within its validity period, allows the name, and has few enough certificates below it; intermediates are CAs;
    no certificate occurs twice. *)
Definition valid_chain (V : venv) (o : voptions) (roots inters : list vcert) (leaf : vcert) (path : list vcert) : Prop :=
  exists mids root, path = leaf :: mids ++ [root] /\ In root roots /\ Forall (fun m => In m inters) mids /\
    NoDup (map vc_raw path) /\
    (forall i child parent, nth_error path i = Some child -> nth_error path (S i) = Some parent ->
       signed_by V child parent /\ vc_raw_issuer child = vc_raw_subject parent /\
       in_period (vo_time o) parent /\ name_allowed V (vo_dns o) parent /\ path_len_ok parent (Z.of_nat i)) /\
    Forall (fun m => vc_bc_valid m = true /\ vc_is_ca m = true) mids.

(** ** Extended key usage *)

Definition eku_allows (c : vcert) (u : Z) : Prop :=
  (vc_eku c = [] /\ vc_unknown_eku c = 0) \/ In ekuAny (vc_eku c) \/ In u (vc_eku c) \/
  (u = ekuServerAuth /\ (In ekuNetscapeSGC (vc_eku c) \/ In ekuMicrosoftSGC (vc_eku c))).
(** One of the requested usages (server authentication if none is named) is allowed by the whole chain, or any is acceptable. *)
Definition usage_ok (requested : list Z) (path : list vcert) : Prop :=
  exists u, In u (match requested with [] => [ekuServerAuth] | r => r end) /\
    (u = ekuAny \/ Forall (fun c => eku_allows c u) path).

(** ** Pools *)

(** Which certificates of a pool are tried as the issuer of [child]: those whose subject key id is its authority key id, if there are any,
    otherwise those with the right name. *)
Definition issuer_candidate (pool : list vcert) (child parent : vcert) : Prop :=
  In parent pool /\
  ((vc_authority_key_id child <> [] /\ vc_subject_key_id parent = vc_authority_key_id child) \/
   ((vc_authority_key_id child = [] \/ forall x, In x pool -> vc_subject_key_id x <> vc_authority_key_id child) /\
    vc_raw_subject parent = vc_raw_issuer child)).

(** ** What Verify promises *)

(** The leaf by itself: current, allowing the name, for the host if one is given, without critical extensions nobody understood. *)
Definition leaf_ok (V : venv) (o : voptions) (leaf : vcert) : Prop :=
  vc_raw leaf <> [] /\ vc_unhandled leaf <= 0 /\ in_period (vo_time o) leaf /\ name_allowed V (vo_dns o) leaf /\
  (vo_dns o <> [] -> for_host V leaf (vo_dns o)).
(** The same bytes and name. *)
Definition same_cert (x y : vcert) : Prop := vc_raw x = vc_raw y /\ vc_raw_subject x = vc_raw_subject y.
(** Either the leaf is itself one of the roots, or the path leads to one. *)
Definition trusted_path (V : venv) (o : voptions) (roots inters : list vcert) (leaf : vcert) (path : list vcert) : Prop :=
  (path = [leaf] /\ exists r, In r roots /\ same_cert r leaf) \/ valid_chain V o roots inters leaf path.

(** Assumptions of the completeness theorem: the encoding determines the certificate; key identifiers agree with
    signatures; no path is longer than a CA permits. *)
Definition raw_determines (l : list vcert) : Prop := forall x y, In x l -> In y l -> vc_raw x = vc_raw y -> x = y.
Definition ids_agree (V : venv) (children parents : list vcert) : Prop :=
  forall c p, In c children -> In p parents -> signed_by V c p -> vc_authority_key_id c <> [] -> vc_subject_key_id p = vc_authority_key_id c.
Definition no_path_limit (l : list vcert) (n : Z) : Prop := forall p, In p l -> path_len_ok p n.
