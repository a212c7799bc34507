(** C40, C60: transcoding BER to DER. *)
From Coq Require Import Lia.
From Verif.Model Require Import Bytes Ber.
From Verif.Spec Require Import Ber.
From Verif.Proofs Require Import BytesFacts BerFacts.

(** C40, for any BER encoding (with anything after it): the output is the DER encoding of the same object tree.
    Missing: an empty list in the indefinite form (see C40_refuted); lengths written in more than four octets or of
    2^31 or more are outside [ber_length]. *)
Theorem C40_transcodes_partial : forall o b rest, ber false o b -> zlen b < 2 ^ 31 ->
  exists d, ber2der (b ++ rest) = BRet d /\ der o d.
Proof.
  intros o b rest H HL. exists (encodeTo o). split; [apply ber2der_ber; exact H|].
  apply encodeTo_der; [eapply (proj1 (ber_wf_mut false)); exact H|].
  pose proof (proj1 (encode_size_mut false) o b H HL). change (2 ^ 63) with 9223372036854775808. change (2 ^ 31) with 2147483648 in *. lia.
Qed.

(** DER is returned unchanged. *)
Theorem C40_der_unchanged : forall o d rest, der o d -> zlen d < 2 ^ 31 -> ber2der (d ++ rest) = BRet d.
Proof.
  intros o d rest H HL. pose proof (proj1 (der_ber_mut false) o d H HL) as HB.
  destruct (C40_transcodes_partial o d rest HB HL) as (d' & E & Hd'). rewrite E. f_equal. eapply (proj1 der_unique_mut); eassumption.
Qed.

(** Whatever the input is: a result (of a size a Go program can have) is the DER encoding of a tree, and converting it
    again changes nothing. *)
Theorem C40_output_is_der : forall b d, ber2der b = BRet d -> zlen d < 2 ^ 63 -> exists o, der o d.
Proof.
  intros b d H HL. unfold ber2der in H. destruct b as [|x b]; [discriminate|]. apply bbind_ret in H as ([o r] & Er & H).
  assert (d = encodeTo o) as -> by congruence. exists o. apply (proj1 (read_inv _)) in Er as (Hw & _). apply encodeTo_der; assumption.
Qed.
Theorem C40_idempotent : forall b d, ber2der b = BRet d -> zlen d < 2 ^ 31 -> ber2der d = BRet d.
Proof.
  intros b d H HL. destruct (C40_output_is_der b d H) as (o & Ho).
  { change (2 ^ 63) with 9223372036854775808. change (2 ^ 31) with 2147483648 in *. lia. }
  rewrite <- (app_nil_r d) at 1. eapply C40_der_unchanged; eassumption.
Qed.

(** An object tree has one DER encoding. *)
Theorem C40_der_unique : forall o a b, der o a -> der o b -> a = b.
Proof. intros o a b Ha Hb. exact (proj1 der_unique_mut o a Ha b Hb). Qed.

(** The conversion always terminates: the fuel of the model is never used up. *)
Theorem C40_terminates : forall b, ber2der b <> BFuel.
Proof.
  intros b. unfold ber2der. destruct b as [|x b]; [discriminate|].
  pose proof (proj1 (read_fuel (Datatypes.S (List.length (x :: b)))) (x :: b) ltac:(lia)) as H.
  destruct (readObject _ _) as [[? ?]| | |]; cbn [bbind]; try discriminate. congruence.
Qed.

(** C40 is false of an empty SEQUENCE in the indefinite form: valid BER, rejected. *)
Theorem C40_refuted : let b := [x30; x80; x00; x00] in ber true (Struct [x30] []) b /\ ber2der b = BErr.
Proof.
  split; [|vm_compute; reflexivity]. change [x30; x80; x00; x00] with ([x30] ++ [x80] ++ [] ++ [x00; x00]).
  constructor; [|constructor|left; reflexivity|constructor]. exists x30, []. split; [reflexivity|]. split; [reflexivity|]. left. split; [discriminate|reflexivity].
Qed.

(** A nested value: an indefinite SEQUENCE of an INTEGER and a definite SEQUENCE with a long-form length with
    leading zeros, and a tag of two bytes. *)
Definition nested_obj : asn1obj := Struct [x30] [Prim [x02] [x05]; Struct [xbf; x81; x01] [Prim [x04] [x41; x42]]].
Definition nested_ber : bytes := [x30; x80] ++ [x02; x01; x05] ++ [xbf; x81; x01; x83; x00; x00; x04] ++ [x04; x02; x41; x42] ++ [x00; x00].
Definition nested_der : bytes := [x30; x0b] ++ [x02; x01; x05] ++ [xbf; x81; x01; x04] ++ [x04; x02; x41; x42].
Lemma id_short (k : bool) (b : byte) : (b2z b / 32) mod 2 = (if k then 1 else 0) -> b2z b mod 32 <> 31 -> identifier k [b].
Proof. intros H1 H2. exists b, []. auto. Qed.
Lemma id_nested : identifier true [xbf; x81; x01].
Proof. exists xbf, [x81; x01]. split; [reflexivity|]. split; [reflexivity|]. right. split; [reflexivity|]. exists [x81], x01. split; [reflexivity|]. split; [constructor; [vm_compute; discriminate|constructor]|vm_compute; reflexivity]. Qed.
Example C40_nonvacuous : ber false nested_obj nested_ber /\ zlen nested_ber < 2 ^ 31 /\ der nested_obj nested_der /\ ber2der nested_ber = BRet nested_der.
Proof.
  assert (H4 : ber false (Prim [x04] [x41; x42]) [x04; x02; x41; x42]).
  { apply (ber_prim false [x04] [x41; x42] [x02]); [apply id_short; vm_compute; congruence|]. apply (short_form 2). lia. }
  assert (HS : ber false (Struct [xbf; x81; x01] [Prim [x04] [x41; x42]]) ([xbf; x81; x01] ++ [x83; x00; x00; x04] ++ [x04; x02; x41; x42] ++ [])).
  { apply ber_definite; [exact id_nested|constructor; [exact H4|constructor]|]. apply (long_form [x00; x00; x04]); vm_compute; intuition congruence. }
  assert (HI : ber false (Prim [x02] [x05]) [x02; x01; x05]).
  { apply (ber_prim false [x02] [x05] [x01]); [apply id_short; vm_compute; congruence|]. apply (short_form 1). lia. }
  split.
  { apply (ber_indefinite false [x30] _ ([x02; x01; x05] ++ ([xbf; x81; x01] ++ [x83; x00; x00; x04] ++ [x04; x02; x41; x42] ++ []) ++ [])).
    - apply id_short; vm_compute; congruence.
    - constructor; [exact HI|]. constructor; [exact HS|constructor].
    - right. discriminate.
    - repeat constructor; discriminate. }
  split; [vm_compute; reflexivity|]. split; [|vm_compute; reflexivity].
  apply (der_struct [x30] _ ([x02; x01; x05] ++ ([xbf; x81; x01] ++ [x04] ++ ([x04; x02; x41; x42] ++ [])) ++ []) [x0b]).
  - apply id_short; vm_compute; congruence.
  - constructor.
    + apply (der_prim [x02] [x05] [x01]); [apply id_short; vm_compute; congruence|]. apply (short_min 1). lia.
    + constructor; [|constructor]. apply der_struct; [exact id_nested| |apply (short_min 4); lia].
      constructor; [|constructor]. apply (der_prim [x04] [x41; x42] [x02]); [apply id_short; vm_compute; congruence|]. apply (short_min 2). lia.
  - apply (short_min 11). lia.
Qed.

(** C60 is false of the code: nested elements may be longer than their parent and are then read again, and there are inputs
    of 8n+8 bytes whose conversion has at least 2^n bytes ... *)
Theorem C60_refuted : forall n, exists b d, zlen b = 8 * Z.of_nat n + 8 /\ ber2der b = BRet d /\ 2 ^ Z.of_nat n <= zlen d.
Proof.
  intros n. exists (bomb (2 * n)). destruct (bomb_read (2 * n)) as (o1 & r1 & o2 & r2 & H1 & _ & HS & _).
  exists (encodeTo o1). split; [rewrite <- zlen_nat, bomb_len; lia|]. split.
  - unfold ber2der. pose proof (bomb_len (2 * n)) as HL. specialize (H1 (Datatypes.S (List.length (bomb (2 * n)))) ltac:(lia)).
    destruct (bomb (2 * n)) as [|x t] eqn:E; [cbn [List.length] in HL; lia|]. rewrite H1. reflexivity.
  - pose proof (bombSize_exp n). lia.
Qed.

(** ... such as this one, which is not the beginning of any BER encoding. *)
Theorem C60_overrun_refuted : let b := [x30; x02; x04; x02; x41; x42] in
  ber2der b = BRet [x30; x04; x04; x02; x41; x42] /\ forall o e rest, ber true o e -> b <> e ++ rest.
Proof.
  split; [vm_compute; reflexivity|]. intros o e rest He Hb.
  assert (HN : forall o e, ber true o e -> ~ In x80 e -> ber false o e).
  { assert (HM : (forall o e, ber true o e -> ~ In x80 e -> ber false o e) /\ (forall os e, bers true os e -> ~ In x80 e -> bers false os e)).
    { apply ber_mut; intros.
      - constructor; assumption.
      - constructor; [assumption| |assumption]. apply H. intros C. apply H0. rewrite !in_app_iff. auto.
      - exfalso. apply H0. apply in_or_app. right. left. reflexivity.
      - constructor.
      - rewrite in_app_iff in H1. constructor; auto. }
    apply HM. }
  assert (HE : ber false o e).
  { apply HN; [exact He|]. intros C. assert (HI : In x80 (e ++ rest)) by (apply in_or_app; left; exact C). rewrite <- Hb in HI. cbn [In] in HI. intuition discriminate. }
  pose proof (proj1 (read_ber_mut false eq_refl) o e HE 7%nat rest) as R.
  assert (HL : (List.length e <= 6)%nat). { assert (E6 : List.length (e ++ rest) = 6%nat) by (rewrite <- Hb; reflexivity). rewrite app_length in E6. lia. }
  specialize (R ltac:(lia)). rewrite <- Hb in R.
  assert (rest = [x41; x42]) as ->. { vm_compute in R. congruence. }
  assert (e = [x30; x02; x04; x02]) as ->. { change [x30; x02; x04; x02; x41; x42] with ([x30; x02; x04; x02] ++ [x41; x42]) in Hb. apply app_inv_tail in Hb. congruence. }
  pose proof (proj1 (read_ber_mut false eq_refl) o _ HE 7%nat []) as R2. specialize (R2 ltac:(cbn; lia)). vm_compute in R2. discriminate.
Qed.

(** What holds: the output for a BER encoding is at most twice as long.  Missing: every other input. *)
Theorem C60_size_partial : forall o b rest d, ber false o b -> zlen b < 2 ^ 31 -> ber2der (b ++ rest) = BRet d -> zlen d <= 2 * zlen b.
Proof.
  intros o b rest d H HL E. rewrite (ber2der_ber o b rest H) in E. assert (d = encodeTo o) as -> by congruence.
  apply (proj1 (encode_size_mut false)); assumption.
Qed.
Example C60_nonvacuous : zlen nested_ber = 18 /\ zlen nested_der = 13 /\ (exists d, ber2der (bomb 16) = BRet d /\ zlen (bomb 16) = 72 /\ 10000 < zlen d).
Proof. split; [reflexivity|]. split; [reflexivity|]. eexists. split; [vm_compute; reflexivity|]. split; [reflexivity|vm_compute; reflexivity]. Qed.
