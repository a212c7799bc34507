(** C111: PKCS7.UnmarshalSignedAttribute. *)
From Coq Require Import String Lia.
From Verif.Model Require Import Bytes Env Utils Asn1 GoTime GoUtf8 Pkcs7 X509 Pkcs7Verify.
From Verif.Spec Require Import Ber Asn1 Asn1Value Asn1Read.
From Verif.Proofs Require Import BytesFacts X509Honest Asn1ReadFacts.
From Verif.Examples Require Import ToySigned ToyX509.
From Verif.Props Require Import Unmarshal Text Pkcs7Verify.

Lemma attributeNamed_iff l o a : attributeNamed l o = Some a <-> exists before after, l = before ++ a :: after /\ pa_type a = o /\ Forall (fun x => pa_type x <> o) before.
Proof.
  induction l as [|x l IH]; cbn [attributeNamed].
  - split; [discriminate|]. intros (b & c & E & _). destruct b; discriminate E.
  - destruct (oidEqual (pa_type x) o) eqn:E.
    + apply oidEqual_iff in E. split.
      * intros H. assert (x = a) as <- by congruence. exists [], l. split; [reflexivity|]. split; [exact E|constructor].
      * intros (b & c & EL & Ha & HF). destruct b as [|y b]; [cbn [app] in EL; congruence|]. inversion HF; subst. cbn [app] in EL. congruence.
    + rewrite IH. split.
      * intros (b & c & -> & Ha & HF). exists (x :: b), c. split; [reflexivity|]. split; [exact Ha|]. constructor; [|exact HF]. intros C. apply oidEqual_iff in C. congruence.
      * intros (b & c & EL & Ha & HF). destruct b as [|y b].
        { cbn [app] in EL. assert (x = a) as -> by congruence. apply oidEqual_iff in Ha. congruence. }
        cbn [app] in EL. exists b, c. split; [congruence|]. split; [exact Ha|]. inversion HF; assumption.
Qed.

(** C111: the value is that of the first attribute of this type of the first signer; it is what its octets start with. *)
Theorem C111_signed_attribute : forall K p o ty v, k_text K = goText -> well_described ty noParams ->
  (unmarshalSignedAttribute K p o ty = Some v <->
   po_envelope p = None /\ exists i others before a after rest, po_signers p = i :: others /\ gi_attrs i = before ++ a :: after /\ pa_type a = o /\
     Forall (fun x => pa_type x <> o) before /\ reads ty noParams (pa_value a) v rest).
Proof.
  intros K p o ty v HK Hw. unfold unmarshalSignedAttribute. rewrite HK. destruct (po_envelope p) as [e|].
  { split; [discriminate|intros (C & _); discriminate]. }
  destruct (po_signers p) as [|i others].
  { split; [discriminate|intros (_ & i & t & b & a & c & r & C & _); discriminate]. }
  destruct (attributeNamed (gi_attrs i) o) as [a|] eqn:EA.
  - pose proof (proj1 (attributeNamed_iff _ _ _) EA) as (b & c & El & Ha & HF).
    destruct (unmarshal goText ty (pa_value a)) as [w [rest|]] eqn:EU.
    + split.
      * intros E. assert (w = v) as -> by congruence. split; [reflexivity|]. exists i, others, b, a, c, rest. split; [reflexivity|]. split; [exact El|]. split; [exact Ha|]. split; [exact HF|]. apply C109_unmarshal; assumption.
      * intros (_ & i' & t & b' & a' & c' & r & Es & El' & Ha' & HF' & HR). assert (i' = i) as -> by congruence.
        assert (EA' : attributeNamed (gi_attrs i) o = Some a') by (apply attributeNamed_iff; exists b', c'; split; [exact El'|split; [exact Ha'|exact HF']]). assert (a' = a) as -> by congruence.
        apply C109_unmarshal in HR; [congruence|exact Hw].
    + split; [discriminate|]. intros (_ & i' & t & b' & a' & c' & r & Es & El' & Ha' & HF' & HR). assert (i' = i) as -> by congruence.
      assert (EA' : attributeNamed (gi_attrs i) o = Some a') by (apply attributeNamed_iff; exists b', c'; split; [exact El'|split; [exact Ha'|exact HF']]). assert (a' = a) as -> by congruence.
      apply C109_unmarshal in HR; [congruence|exact Hw].
  - split; [discriminate|]. intros (_ & i' & t & b' & a' & c' & r & Es & El' & Ha' & HF' & HR). assert (i' = i) as -> by congruence.
    assert (EA' : attributeNamed (gi_attrs i) o = Some a') by (apply attributeNamed_iff; exists b', c'; split; [exact El'|split; [exact Ha'|exact HF']]). congruence.
Qed.
Print Assumptions C111_signed_attribute.

(** The message digest of a signed file, as Parse returns it *)
Theorem C111_nonvacuous : exists p d, v_object = Some p /\ unmarshalSignedAttribute text_k p [1; 2; 840; 113549; 1; 9; 4] TyBytes = Some (VBytes d) /\ d <> [] /\
  unmarshalSignedAttribute text_k p [1; 2; 840; 113549; 1; 9; 4] TyInt = None.
Proof.
  destruct v_object as [p|] eqn:E; [|vm_compute in E; discriminate E].
  destruct (unmarshalSignedAttribute text_k p [1; 2; 840; 113549; 1; 9; 4] TyBytes) as [[| | | | | | |d| | | |]|] eqn:EU.
  all: try (exfalso; assert (C : match v_object with Some q => match unmarshalSignedAttribute text_k q [1; 2; 840; 113549; 1; 9; 4] TyBytes with Some (VBytes (_ :: _)) => true | _ => false end | None => false end = true) by (vm_compute; reflexivity); rewrite E, EU in C; discriminate C).
  exists p, d. split; [reflexivity|]. split; [exact EU|].
  assert (C : match v_object with Some q => match unmarshalSignedAttribute text_k q [1; 2; 840; 113549; 1; 9; 4] TyBytes with Some (VBytes (_ :: _)) => match unmarshalSignedAttribute text_k q [1; 2; 840; 113549; 1; 9; 4] TyInt with None => true | _ => false end | _ => false end | None => false end = true) by (vm_compute; reflexivity).
  rewrite E, EU in C. destruct d; [discriminate C|]. split; [discriminate|]. destruct (unmarshalSignedAttribute text_k p [1; 2; 840; 113549; 1; 9; 4] TyInt); [discriminate C|reflexivity].
Qed.
