(** Lowering the maximum SDK level. *)
From Coq Require Import String Lia ZArith List Permutation Sorted.
From Verif.Model Require Import Bytes ApiLevel Env Utils SigBlock Result Signer SchemeV2 SchemeV3 SourceStamp Verify Manifest SchemeV1 ApkVerifier.
From Verif.Spec Require Import Encoding Algorithms Nondet Signer SignerV3 Ranges ApkLayout Digests Entries Verified Calls Levels.
From Verif.Proofs Require Import BytesFacts V3BlockFacts SchemeV3Facts EntriesFacts PropFacts.

Lemma Forall2_weaken' {A B} (P Q : A -> B -> Prop) l l' : (forall a b, P a b -> Q a b) -> Forall2 P l l' -> Forall2 Q l l'.
Proof. intro H. induction 1; constructor; auto. Qed.

Lemma v2_block_lower E present maxSdk m b is : m <= maxSdk -> v2_block E maxSdk present b is -> v2_block E m present b is.
Proof.
  intros L (ss & j & A1 & A2 & A3 & A4 & A5). exists ss, j. repeat (split; [assumption|]). split; [|exact A5].
  revert A4. apply Forall2_weaken'. intros s i. unfold v2_signer. intro H.
  repeat match goal with H : exists _, _ |- _ => destruct H as (? & H) end.
  repeat match goal with |- exists _, _ => eexists end.
  repeat match goal with H : _ /\ _ |- _ => destruct H as (? & H) end.
  repeat (split; [eassumption|]). eapply Forall_impl; [|exact H]. intros at_ Q I M. apply Q; [exact I | lia].
Qed.
Lemma v3_block_lower E rot rot' maxSdk m b is : m <= maxSdk -> (33 <= m -> rot = rot') -> v3_block E maxSdk rot b is -> v3_block E m rot' b is.
Proof.
  intros L R (ss & j & A1 & A2 & A3 & A4 & A5). exists ss, j. repeat (split; [assumption|]). split; [|exact A5].
  revert A4. apply Forall2_weaken'. intros s i (a & b0 & c & d & e & f & g & h & k & n & o & B1 & B2 & B3 & B4 & B5 & B6 & B7 & B8 & B9 & B10 & B11 & B12 & B13 & B14 & B15 & B16 & B17 & B18 & B19).
  exists a, b0, c, d, e, f, g, h, k, n, o. repeat (split; [assumption|]). split; [|exact B19].
  eapply Forall_impl; [|exact B18]. intros at_ [Q1 Q2]. split; [exact Q1|]. intros I M. rewrite <- (R M). apply Q2; [exact I | lia].
Qed.
Lemma covering_lower lo hi hi' is lin : hi' <= hi -> v3_covering lo hi is lin -> v3_covering lo hi' is lin.
Proof. intros L (js & a & b & P & T & La & Lb & R). exists js, a, b. split; [exact P|]. split; [exact T|]. split; [exact La|]. split; [lia | exact R]. Qed.

Lemma tiles_lowest a rs b : tiles a rs b -> In a (map fst rs) /\ forall x, In x (map fst rs) -> a <= x.
Proof.
  induction 1 as [a b L|a b rs c L T [I A]]; cbn [map fst].
  - split; [left; reflexivity|]. intros x [<- | []]. lia.
  - split; [left; reflexivity|]. intros x [<- | J]; [lia|]. specialize (A x J). lia.
Qed.
Lemma covering_lowest lo hi is lin m : v3_covering lo hi is lin -> lowest is m -> m <= lo.
Proof.
  intros (js & a & b & P & T & La & _) ((i & I & <-) & A). apply tiles_lowest in T as [Ia Aa]. rewrite map_map in Ia, Aa. cbn in Ia, Aa.
  assert (J : In a (map i3_min is)). { eapply Permutation_in; [apply Permutation_map; exact P | exact Ia]. }
  apply in_map_iff in J as (j & <- & J). specialize (A j J). lia.
Qed.
Lemma covering_from lo hi lo' is lin m : v3_covering lo hi is lin -> lowest is m -> m <= lo' -> v3_covering lo' hi is lin.
Proof.
  intros (js & a & b & P & T & La & R) ((i & I & <-) & A) L. exists js, a, b. split; [exact P|]. split; [exact T|]. split; [|exact R].
  apply tiles_lowest in T as [_ Aa]. rewrite map_map in Aa. cbn in Aa. enough (a <= i3_min i) by lia. apply Aa. apply in_map.
  eapply Permutation_in; [apply Permutation_sym; exact P | exact I].
Qed.
Lemma lowest_det E maxSdk b a a' m m' : v3_block E maxSdk 0 b a -> v3_block E maxSdk 0 b a' -> lowest a m -> lowest a' m' -> m = m'.
Proof.
  intros A A' L L'. destruct (v3_block_det E maxSdk 0 b a a') as [Q _]; [|assumption|assumption|].
  { unfold is_int32. lia. }
  assert (Qm : map i3_min a = map i3_min a').
  { assert (X : map vs_min (map kept a) = map vs_min (map kept a')) by now rewrite Q. now rewrite !map_map in X. }
  destruct L as ((i & I & <-) & LA), L' as ((i' & I' & <-) & LA').
  assert (J : In (i3_min i) (map i3_min a')) by (rewrite <- Qm; now apply in_map).
  assert (J' : In (i3_min i') (map i3_min a)) by (rewrite Qm; now apply in_map).
  apply in_map_iff in J as (j & Q1 & J). apply in_map_iff in J' as (j' & Q2 & J'). specialize (LA j' J'). specialize (LA' j J). lia.
Qed.
