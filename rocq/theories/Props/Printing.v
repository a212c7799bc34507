(** C94: the texts printed for block ids, signature algorithms and lineage capabilities. *)
From Coq Require Import String Lia Sorted.
From Verif.Model Require Import Bytes GoStrings Printing.
From Verif.Spec Require Import CertPick Printing.
From Verif.Proofs Require Import BytesFacts PrintFacts.

(** C94.  Different block ids, and different signature algorithms, are printed differently. *)
Theorem C94_block_id : forall a b, 0 <= a < 2 ^ 32 -> 0 <= b < 2 ^ 32 -> blockIdString a = blockIdString b -> a = b.
Proof. exact blockId_inj. Qed.
Print Assumptions C94_block_id.
Theorem C94_algorithm : forall a b, - 2 ^ 31 <= a < 2 ^ 31 -> - 2 ^ 31 <= b < 2 ^ 31 -> sigAlgorithmString a = sigAlgorithmString b -> a = b.
Proof. exact sigAlgorithm_inj. Qed.
Print Assumptions C94_algorithm.

(** The capabilities printed are those of bits 0 to 30, in order: by name, or as a hexadecimal mask. *)
Theorem C94_capabilities : forall flags, exists bits words,
  StronglySorted Z.lt bits /\ (forall i, In i bits <-> 0 <= i < 31 /\ Z.testbit flags i = true) /\
  Forall2 capability_word bits words /\ capability_list words (lineageCapsString flags).
Proof.
  intro c. exists (capBits c), (map capWord (capBits c)). split; [apply filter_sorted, seq_sorted|]. split; [apply capBits_iff|].
  split; [|apply caps_text]. apply words_forall. intros i I. apply capBits_iff in I. tauto.
Qed.
Print Assumptions C94_capabilities.
(** So flags that are printed alike agree on those bits ... *)
Theorem C94_capabilities_injective_partial : forall flags flags', lineageCapsString flags = lineageCapsString flags' ->
  forall i, 0 <= i < 31 -> Z.testbit flags i = Z.testbit flags' i.
Proof.
  intros c c' Q i B. apply caps_inj in Q. pose proof (capBits_iff c i) as H. pose proof (capBits_iff c' i) as H'. rewrite Q in H.
  destruct (Z.testbit c i), (Z.testbit c' i); try reflexivity; exfalso; intuition congruence.
Qed.
Print Assumptions C94_capabilities_injective_partial.
(** ... but not on the top bit of the 32, which is not printed. *)
Theorem C94_top_bit_refuted : exists flags flags', - 2 ^ 31 <= flags < 2 ^ 31 /\ - 2 ^ 31 <= flags' < 2 ^ 31 /\ flags <> flags' /\
  lineageCapsString flags = lineageCapsString flags'.
Proof. exists 1, (1 - 2 ^ 31). split; [lia|]. split; [lia|]. split; [lia|]. vm_compute. reflexivity. Qed.
Print Assumptions C94_top_bit_refuted.
Example C94_nonvacuous : lineageCapsString 55 = s2b "InstalledData|SharedUserId|Permission|Auth|0x20" /\ lineageCapsString 0 = s2b "None" /\
  blockIdString 5 = s2b "Unknown (0x00000005)" /\ sigAlgorithmString (-1) = s2b "0xffffffff" /\ sigAlgorithmString 0x12 = s2b "0x0012".
Proof. repeat split. Qed.
