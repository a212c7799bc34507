(** C10, C46: signature algorithms and API levels. *)
From Coq Require Import Lia.
From Verif.Model Require Import Bytes Env ApiLevel Utils Result Signer.
From Verif.Spec Require Import Encoding Algorithms Signer.
From Verif.Proofs Require Import UtilsFacts SignerFacts AlgorithmFacts.

(** C46: exactly the documented algorithms are supported, with their digest kind and platform. *)
Theorem C46_supported_iff : forall a, isSupported a = true <-> supported a.
Proof. exact isSupported_iff. Qed.
Print Assumptions C46_supported_iff.
Theorem C46_table : forall a k m, In (a, k, m) algorithm_table ->
  getDigestType a = Ret (kind_id k) /\ getMinSdkVersionJca a = m.
Proof. exact table_row. Qed.
Print Assumptions C46_table.
(** The digest type of any other id is a run-time panic; the callers only ask for supported ids. *)
Theorem C46_unsupported_panics : forall a, ~ supported a -> getDigestType a = Panic PExplicit.
Proof. exact unsupported_panics. Qed.
Print Assumptions C46_unsupported_panics.
Theorem C46_thresholds : forall level,
  (SupportsSigV2 level = true <-> 24 <= level) /\ (SupportsSigV3 level = true <-> 28 <= level) /\
  (SupportsSigV31 level = true <-> 33 <= level) /\ (RequiresSandboxV2 level = true <-> 26 <= level) /\
  (SupportsStampVerification level = true <-> 30 <= level).
Proof. exact thresholds. Qed.
Print Assumptions C46_thresholds.
(** Minimum platform of an algorithm used inside a lineage: 24, or 28 with verity digests; the code
    does not know 0x0101 (RSASSA-PSS with SHA2-256), for which it answers 2^31-1. *)
Theorem C51_platform_partial : forall a k m, In (a, k, m) algorithm_table -> a <> 0x0101 ->
  getMinSdkVersion a = match k with VeritySha256 => 28 | _ => 24 end.
Proof. exact min_platform. Qed.
Print Assumptions C51_platform_partial.
Theorem C51_platform_refuted : exists a, supported a /\ getMinSdkVersion a = 2147483647.
Proof. exact min_platform_missing. Qed.
Print Assumptions C51_platform_refuted.

(** C46: a signature check succeeds exactly for valid signatures in the sense of Spec/Algorithms.v. *)
Theorem C46_verify_signature_iff : forall E key algo data sig,
  verifySignature E key algo data sig = Ret true <-> sig_valid E key algo data sig.
Proof. exact verifySignature_true. Qed.
Print Assumptions C46_verify_signature_iff.

(** C10: comparing supported algorithms compares their digest strength. *)
Theorem C10_compare : forall a b ka kb, has_kind a ka -> has_kind b kb ->
  exists d, compareAlgos a b = Ret d /\ (d > 0 <-> strength ka > strength kb) /\ (d = 0 <-> ka = kb)
            /\ (d < 0 <-> strength ka < strength kb).
Proof. exact compareAlgos_strength. Qed.
Print Assumptions C10_compare.

(** C10: the signatures field is accepted exactly when it is a [signature_list] (Spec/Signer.v), i.e. a list
    of records one of which is supported and whose strongest first record holds a signature; that
    record's algorithm and signature are the ones used from then on.  No panic. *)
Theorem C10_best_signature : forall slice r,
  exists c r' ok, parseSignatures slice r = Ret (c, r', ok) /\
    (ok = false -> errors r' <> errors r /\ forall algos algo sig, ~ signature_list slice algos algo sig) /\
    (ok = true -> errors r' = errors r /\ signature_list slice (signaturesAlgos c) (bestAlgo c) (bestAlgoSignature c)).
Proof. exact best_signature. Qed.
Print Assumptions C10_best_signature.

(** A signature list determines what is used. *)
Theorem C10_unique : forall slice algos algo sig algos' algo' sig',
  signature_list slice algos algo sig -> signature_list slice algos' algo' sig' ->
  algos = algos' /\ algo = algo' /\ sig = sig'.
Proof. exact signature_list_det. Qed.
Print Assumptions C10_unique.

Example C10_nonvacuous :
  let rec a := le32 a ++ lp (map z2b [1; 2; 3]) in
  exists c r', parseSignatures (lps (map rec [0x0103; 0x7777; 0x0421; 0x0104; 0x0202])) core0 = Ret (c, r', true) /\ bestAlgo c = 0x0104.
Proof. do 2 eexists. split; vm_compute; reflexivity. Qed.
