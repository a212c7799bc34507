(** C76: the numbers in DSA and ECDSA signatures of JAR signatures. *)
From Coq Require Import String Lia.
From Verif.Model Require Import Bytes Env Asn1 Pkcs7 SchemeV1.
From Verif.Spec Require Import Ber Asn1 Asn1Value Pkcs7 JarSigned.
From Verif.Proofs Require Import BytesFacts Asn1Codec Asn1Decode Asn1Value DerFacts Pkcs7Facts Pkcs7Honest X509Facts X509Honest V1SigFacts.
From Verif.Examples Require Import Toy ToyApk ToyJar ToyPkcs7 ToyX509 DerToy.

Section P.
  Variable X : textenv.
  Lemma big_parsed old s v r : parseField X TyBig noParams old s = (v, Some r) -> exists z full, v = VInt z /\ s = full ++ r /\ loose_integer z full.
  Proof.
    intros H. apply parseField_mandatory in H; [|discriminate|reflexivity|reflexivity]. destruct H as (t & u & inner & _ & HH & HC).
    apply (parseHeader_universal _ _ _ _ _ _ TagInteger false) in HH; [|reflexivity|discriminate|discriminate]. destruct HH as (full & E & HE).
    cbn [parseContent] in HC. destruct (parseBigInt inner) as [z|] eqn:Ez; [|discriminate]. exists z, full. split; [|split; [exact E|]]; [unfold leafValue in HC; congruence|].
    exists inner. split; [apply parseBigInt_iff; exact Ez|exact HE].
  Qed.
  Lemma big_loose old z f r : loose_integer z f -> parseField X TyBig noParams old (f ++ r) = (VInt z, Some r).
  Proof.
    intros (oc & HO & HD). rewrite (field_parse X TyBig noParams old 0 2 false oc f r false TagInteger false); try assumption; try reflexivity; try discriminate; try (right; auto; fail).
    cbn [parseContent]. apply parseBigInt_iff in HO. rewrite HO. reflexivity.
  Qed.
End P.

(** Exactly which byte strings are read as the signature (r, s), and when something is left over. *)
Theorem C76_rs_decoded_partial : forall Q E b r s t, e_asn1_rs_andr (withPkcs7 Q E) b = Some (r, s, t) <->
  exists full rest, b = full ++ rest /\ rs_loose r s full /\ (t = true <-> rest <> []).
Proof.
  intros Q E b r s t. cbn [e_asn1_rs_andr withPkcs7]. unfold unmarshalRS, unmarshal. change (Pkcs7.X Q) with (q_text Q). generalize (q_text Q). clear Q. intros X. set (K := {| X509.k_text := X; X509.k_point := fun _ _ _ => true; X509.k_print := fun _ => [] |}). change X with (X509.k_text K). clearbody K. clear X. split.
  - destruct (parseField (X509.k_text K) tyRS noParams (zeroVal tyRS) b) as [v [rest|]] eqn:EP.
    2:{ intros C. exfalso. repeat match type of C with match ?x with _ => _ end = _ => destruct x; try congruence end. }
    apply (struct_local K) in EP as (full & inner & -> & HE & (l & -> & HF) & _).
    apply (fields_inv K) in HF as (v1 & s1 & l1 & -> & H1 & HF). apply (fields_inv K) in HF as (v2 & s2 & l2 & -> & H2 & HF). cbn [parseFields] in HF. assert (l2 = []) as -> by congruence.
    apply big_parsed in H1 as (z1 & f1 & -> & -> & L1). apply big_parsed in H2 as (z2 & f2 & -> & -> & L2). intros H. assert (z1 = r /\ z2 = s /\ t = match rest with [] => false | _ => true end) as (-> & -> & ->) by (repeat split; congruence).
    exists full, rest. split; [reflexivity|]. split; [exists f1, f2, s2; auto|]. destruct rest; split; congruence.
  - intros (full & rest & -> & (ri & si & junk & L1 & L2 & HE) & HT).
    assert (EP : parseField (X509.k_text K) tyRS noParams (zeroVal tyRS) (full ++ rest) = (VStruct [] [VInt r; VInt s], Some rest)).
    { unfold tyRS. rewrite (field_parse (X509.k_text K) _ noParams _ 0 16 true (ri ++ si ++ junk) full rest false TagSequence true); try assumption; try reflexivity; try discriminate; try (right; auto; fail).
      cbn [parseContent]. rewrite Asn1Value.parseFields_cons, (big_loose (X509.k_text K) _ r ri _ L1), Asn1Value.parseFields_cons, (big_loose (X509.k_text K) _ s si _ L2). reflexivity. }
    rewrite EP. do 2 f_equal. destruct rest, t; try reflexivity; exfalso; destruct HT as [H1 H2]; [apply H1; reflexivity|]. assert (false = true) by (apply H2; discriminate). discriminate.
Qed.
Print Assumptions C76_rs_decoded_partial.
(** The DER encoding of (r, s) is read as (r, s). *)
Theorem C76_der : forall Q E r s f, rs_der r s f -> zlen f < 2 ^ 31 -> e_asn1_rs_andr (withPkcs7 Q E) f = Some (r, s, false).
Proof.
  intros Q E r s f (ri & si & (o1 & O1 & H1) & (o2 & O2 & H2) & HS) HL. apply C76_rs_decoded_partial. exists f, []. split; [rewrite app_nil_r; reflexivity|]. split; [|split; congruence].
  pose proof (der_element_size _ _ _ _ _ HS) as HZ. cbn [concat] in HZ. rewrite !zlen_app in HZ. change (zlen ([] : bytes)) with 0 in HZ. pose proof (zlen_nonneg ri). pose proof (zlen_nonneg si).
  exists ri, si, []. split; [exists o1; split; [exact O1|apply der_small; [exact H1|lia]]|]. split; [exists o2; split; [exact O2|apply der_small; [exact H2|lia]]|]. apply der_small; [exact HS|exact HL].
Qed.
Print Assumptions C76_der.
(** A signature that is accepted for a DSA key, or with ECDSA and SHA-224, starts with its two numbers, which are positive and the ones that were checked, and nothing follows the SEQUENCE. *)
Theorem C76_dsa_checked_partial : forall Q E c data sig algo, In algo [7; 8; 65536; 65537] -> v1_sig_ok (withPkcs7 Q E) c data sig algo ->
  exists r s, 0 < r /\ 0 < s /\ rs_loose r s sig /\
    ((exists k q h, c_key c = KDsa k q /\ In (algo, h) [(7, HSha1); (8, HSha256); (65536, HSha224)] /\ e_dsa E k (takeZ (Z.min (q / 8) (zlen (e_hash E h data))) (e_hash E h data)) r s = true) \/
     (exists k, c_key c = KEcdsa k /\ algo = 65537 /\ e_ecdsa E k (e_hash E HSha224 data) r s = true)).
Proof.
  intros Q E c data sig algo HA H.
  assert (G : forall r s, e_asn1_rs_andr (withPkcs7 Q E) sig = Some (r, s, false) -> rs_loose r s sig).
  { intros r s HR. apply C76_rs_decoded_partial in HR as (full & rest & -> & HL & HT). assert (rest = []) as ->. { destruct rest; [reflexivity|]. assert (false = true) by (apply HT; discriminate). discriminate. } rewrite app_nil_r. exact HL. }
  destruct H as [k b HK HV|k b HK HV|algo h k q r s HI HK HR Hr Hs HV|k r s HK HR Hr Hs HV|algo H1 H2 HV].
  - exfalso. cbn in HA. lia.
  - exfalso. cbn in HA. lia.
  - exists r, s. split; [exact Hr|]. split; [exact Hs|]. split; [apply G; exact HR|]. left. exists k, q, h. split; [exact HK|]. split; [cbn in HI |- *; tauto|exact HV].
  - exists r, s. split; [exact Hr|]. split; [exact Hs|]. split; [apply G; exact HR|]. right. exists k. auto.
  - exfalso. cbn in HA, H2. lia.
Qed.
Print Assumptions C76_dsa_checked_partial.
(** Nothing else is accepted only in this sense: bytes after s inside the SEQUENCE are ignored, so there are signatures other than the DER encoding. *)
Theorem C76_refuted : exists Q E r s f f', f <> f' /\ rs_der r s f /\ (forall r' s', ~ rs_der r' s' f') /\
  e_asn1_rs_andr (withPkcs7 Q E) f = Some (r, s, false) /\ e_asn1_rs_andr (withPkcs7 Q E) f' = Some (r, s, false).
Proof.
  exists toy_q, toy_env, 1, 2, (seq [int [x01]; int [x02]]), (seq [int [x01]; int [x02]; [x00]]). split; [discriminate|]. split.
  { exists (int [x01]), (int [x02]). split; [apply int_tlv; vm_compute; reflexivity|]. split; [apply int_tlv; vm_compute; reflexivity|der_tlv]. }
  split; [|split; vm_compute; reflexivity].
  intros r s H. pose proof H as (ri & si & (o1 & O1 & H1) & (o2 & O2 & H2) & HS). assert (HL : zlen (seq [int [x01]; int [x02]; [x00]]) < 2 ^ 31) by reflexivity.
  apply (der_small _ _ _ _ _ HS) in HL as HE. apply der_element_size in HS as HZ.
  pose proof (C76_der toy_q toy_env r s _ H HL) as HD. assert (HD2 : e_asn1_rs_andr (withPkcs7 toy_q toy_env) (seq [int [x01]; int [x02]; [x00]]) = Some (1, 2, false)) by (vm_compute; reflexivity).
  assert (r = 1 /\ s = 2) as (-> & ->) by (split; congruence). clear HD HD2.
  assert (EC : concat [ri; si] = concat [int [x01]; int [x02]; [x00]]).
  { apply (element_unique 0 16 true _ 0 16 true (concat [int [x01]; int [x02]; [x00]]) (seq [int [x01]; int [x02]; [x00]]) HE). apply der_small; [der_tlv|reflexivity]. }
  assert (U : forall z l f, parseBigInt l = Some z -> zlen l <? 128 = true -> integer_element z f -> f = tlv x02 l).
  { intros z l f HP HB (o & HO & HF). apply parseBigInt_iff in HP. assert (o = l) as -> by (eapply Asn1Codec.integer_octets_unique; eassumption).
    eapply der_element_unique; [exact HF|apply tlv_der; [lia|lia|reflexivity|apply Z.ltb_lt; apply Z.ltb_lt in HB; lia]]. }
  rewrite (U 1 [x01] ri), (U 2 [x02] si) in EC; [|reflexivity|reflexivity|exists o2; auto|reflexivity|reflexivity|exists o1; auto]. discriminate EC.
Qed.
Print Assumptions C76_refuted.
