(** The calls the properties talk about. *)
From Verif.Model Require Import Bytes Env Result Verify.
From Verif.Spec Require Import Signer SignerV3.

(** VerifySigningBlockReaderWithZip returns result [res] and error [err]. *)
Definition returns (E : env) (S : sched) (file : bytes) (minSdk maxSdk : Z) (z : zip) (res : vresult) (err : option verr) : Prop :=
  exists vr, verifySigningBlock E S file minSdk maxSdk z = Ret vr /\ vr_res vr = Some res /\ vr_err vr = err.
(** ... without error. *)
Definition verifies (E : env) (S : sched) (file : bytes) (minSdk maxSdk : Z) (z : zip) (res : vresult) : Prop :=
  returns E S file minSdk maxSdk z res None.

(** Parts of the result. *)
Definition scheme (res : vresult) : Z := v_schemeId res.
Definition chains (res : vresult) : list (list cert) := certs (v_core res).
Definition reported_lineage (res : vresult) : option (list lnode) := option_map l_nodes (signingLineage (v_core res)).
Definition extra_block (res : vresult) (id : Z) : option bytes := zget id (v_extraBlocks res).
Definition result_errors (res : vresult) : list verr := errors (v_core res).
Definition result_warnings (res : vresult) : list vwarn := warnings (v_core res).

(** Chains of the signers. *)
Definition chains2 (is : list signer_info) : list (list cert) := map si_chain is.
Definition chains3 (is : list v3_info) : list (list cert) := map (fun i => si_chain (i3_signer i)) is.
