(** /repo/signingblock/verificationresult.go and the lineage data of schemev3lineage.go *)
From Coq Require Import String.
From Verif.Model Require Import Bytes Env.


(** Error values.  The text is the fmt format without its arguments (simplification);
    [signingBlockNotFoundError] (signingblock.go:120-131) is kept apart because callers test for it. *)
Inductive verr : Set :=
| Err (msg : string)
| ErrNotFound (msg : string).

(** Warnings are strings; WSchemeV3 is fmt.Sprintf("schemeV3: %s", e.Error()) (signingblock.go:181). *)
Inductive vwarn : Set :=
| Warn (msg : string)
| WSchemeV3 (e : verr).

(** schemev3lineage.go:14-20 *)
Record lnode : Set := {
  ln_cert : cert;
  ln_parent_algo : Z;
  ln_algo : Z;
  ln_signature : bytes;
  ln_flags : Z
}.
(** schemev3lineage.go:152-155 *)
Record lineage : Set := { l_minSdk : Z; l_nodes : list lnode }.

(** verificationresult.go:8-28, the part written by the scheme parsers. *)
Record core : Set := mkCore {
  certs : list (list cert);
  signingLineage : option lineage;
  warnings : list vwarn;
  errors : list verr
}.
Definition core0 : core := mkCore [] None [] [].

(** verificationresult.go:44-50 *)
Definition addWarning (r : core) (w : string) : core :=
  mkCore (certs r) (signingLineage r) (warnings r ++ [Warn w]) (errors r).
Definition addError (r : core) (e : string) : core :=
  mkCore (certs r) (signingLineage r) (warnings r) (errors r ++ [Err e]).

(** Content-digest map: contentDigest -> bytes. *)
Definition digests := list (Z * bytes).
