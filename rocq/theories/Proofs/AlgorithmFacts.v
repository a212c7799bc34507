(** The tables, for Props/Algorithms.v *)
From Coq Require Import Lia.
From Verif.Model Require Import Bytes Env ApiLevel Utils Result Signer.
From Verif.Spec Require Import Encoding Algorithms Signer.
From Verif.Proofs Require Import BytesFacts UtilsFacts SignerFacts.

Lemma table_row a k m : In (a, k, m) algorithm_table -> getDigestType a = Ret (kind_id k) /\ getMinSdkVersionJca a = m.
Proof. intro H. split; [eapply getDigestType_kind | eapply getMinSdkJca_row]; eassumption. Qed.

Lemma unsupported_panics a : ~ supported a -> getDigestType a = Panic PExplicit.
Proof.
  intro N. destruct (getDigestType a) as [d|p] eqn:G.
  - exfalso. apply N. apply getDigestType_ret in G as (k & K & _). eapply kind_supported; eassumption.
  - unfold getDigestType in G. repeat (match type of G with context [if ?c then _ else _] => destruct c end); congruence.
Qed.

Lemma thresholds level :
  (SupportsSigV2 level = true <-> 24 <= level) /\ (SupportsSigV3 level = true <-> 28 <= level) /\
  (SupportsSigV31 level = true <-> 33 <= level) /\ (RequiresSandboxV2 level = true <-> 26 <= level) /\
  (SupportsStampVerification level = true <-> 30 <= level).
Proof. repeat split; apply Z.leb_le. Qed.

Lemma min_platform a k m : In (a, k, m) algorithm_table -> a <> 0x0101 ->
  getMinSdkVersion a = match k with VeritySha256 => 28 | _ => 24 end.
Proof.
  intros H N. cbn in H.
  repeat (destruct H as [H|H]; [inversion H; subst; first [reflexivity | contradiction]|]). contradiction.
Qed.
Lemma min_platform_missing : exists a, supported a /\ getMinSdkVersion a = 2147483647.
Proof. exists 0x0101. split; [|reflexivity]. exists ChunkedSha256, 23. now left. Qed.

Lemma best_signature slice r :
  exists c r' ok, parseSignatures slice r = Ret (c, r', ok) /\
    (ok = false -> errors r' <> errors r /\ forall algos algo sig, ~ signature_list slice algos algo sig) /\
    (ok = true -> errors r' = errors r /\ signature_list slice (signaturesAlgos c) (bestAlgo c) (bestAlgoSignature c)).
Proof.
  destruct (parseSignatures_spec slice r) as (c & r' & b & Eq & _ & F & T). exists c, r', b. split; [assumption|]. split; intro B.
  - destruct (F B) as [[_ W] N]. auto.
  - destruct (T B) as [Q S]. split; [now apply quiet_errors | assumption].
Qed.
