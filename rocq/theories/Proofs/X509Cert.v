(** x509andr.ParseCertificate on DER certificates *)
From Coq Require Import Lia.
From Verif.Model Require Import Bytes Env Ber Asn1 Pkcs7 X509.
From Verif.Spec Require Import Ber Asn1 Asn1Value Pkcs7 X509.
From Verif.Proofs Require Import BytesFacts BerFacts Asn1Codec Asn1Header Asn1Value Asn1Decode DerFacts DerSize Pkcs7Facts Pkcs7Parse Pkcs7Honest X509Facts X509Keys X509Honest.

Section K.
  Variable K : xenv.
  Notation X := (k_text K).

  Lemma version_field v e s serial r : optional (fun v e => - 2 ^ 63 <= v < 2 ^ 63 /\ exists i, integer_element v i /\ der_element 2 0 true i e) v e -> zlen e < 2 ^ 31 ->
    integer_element s serial -> zlen serial < 2 ^ 31 ->
    exists w, forall old, parseField X TyInt pVersion old (e ++ serial ++ r) = (w, Some (serial ++ r)).
  Proof.
    intros HV HL (so & HSO & HSD) HL2. destruct v as [v|]; cbn [optional] in HV.
    - destruct HV as (HR & i & (oc & HO & HD) & HE). exists (VInt v). intros old. pose proof (der_element_size _ _ _ _ _ HE) as HZ. pose proof (der_element_size _ _ _ _ _ HD) as HZ2. apply der_small in HE; [|exact HL]. apply der_small in HD; [|lia].
      rewrite (explicit_field X TyInt pVersion old 0 0 2 false oc i e _ false TagInteger false); try assumption; try reflexivity; try discriminate; try (right; auto; fail).
      cbn [parseContent]. assert (E : parseInt64 oc = Some v); [|rewrite E; reflexivity]. rewrite (integer_octets_unique _ _ _ HO (proj1 (encodeInt64_octets v HR))). apply parse_encode_int64. exact HR.
    - subst e. exists (VInt 0). intros old. cbn [app]. rewrite (explicit_absent X TyInt pVersion old 0 0 2 false so serial r); try reflexivity; try discriminate.
      + apply der_small; assumption.
      + left. discriminate.
      + destruct HSO as ((HN & _) & _). intros C. apply app_eq_nil in C as [C _]. contradiction.
  Qed.
  (* an optional BIT STRING under tag t, before elements with greater tags *)
  Lemma uid_field t b e r : (t = 1 \/ t = 2) -> optional (fun b e => der_element 2 t false (x00 :: b) e) b e -> zlen e < 2 ^ 31 -> (r = [] \/ exists g r' t' k c, r = g ++ r' /\ t' <> t /\ element 2 t' k c g) ->
    exists w, parseField X TyBits (pOptionalTag t) (zeroVal TyBits) (e ++ r) = (w, Some r).
  Proof.
    intros Ht HB HL Hr. destruct b as [b|]; cbn [optional] in HB.
    - eexists. apply (bits_field X (pOptionalTag t) 2 t _ b e r); try reflexivity; assumption.
    - subst e. cbn [app]. exists (zeroVal TyBits). destruct Hr as [-> |(g & r' & t' & k & c & -> & Hne & HE)].
      + apply field_end; reflexivity.
      + apply (field_absent X TyBits (pOptionalTag t) _ 2 t' k c g r' false TagBitString false); try reflexivity; try discriminate; [exact HE|]. cbn. split; [reflexivity|right; exact Hne].
  Qed.
  Lemma extensions_field x e : optional (fun l e => exists es s, Forall2 extension_der l es /\ seq_der es s /\ der_element 2 3 true s e) x e -> zlen e < 2 ^ 31 ->
    exists w, asSlice w = map ext_val (present x) /\ parseField X (TySlice false tyExtension) (pExplicitTag 3) VNil e = (w, Some []).
  Proof.
    intros HX HL. destruct x as [l|]; cbn [optional present] in *.
    - destruct HX as (es & s & HF & HS & HE). pose proof (der_element_size _ _ _ _ _ HE) as HZ. pose proof (der_element_size _ _ _ _ _ HS) as HZ2. apply der_small in HE; [|exact HL]. apply der_small in HS; [|lia].
      exists (VSlice (map ext_val l)). split; [reflexivity|]. rewrite <- (app_nil_r e).
      rewrite (explicit_field X (TySlice false tyExtension) (pExplicitTag 3) VNil 3 0 16 true (concat es) s e [] false TagSequence true); try assumption; try reflexivity; try discriminate; try (right; auto; fail).
      assert (HB : forall g, In g es -> zlen g < 2 ^ 31) by (intros g Hg; pose proof (concat_bound es g Hg); lia).
      apply (slice_content X false tyExtension TagSequence true); try reflexivity; try discriminate.
      + apply Forall_forall. intros g Hg. destruct (Forall2_in_r _ _ _ _ HF Hg) as (a & _ & (i & c & v & _ & _ & _ & _ & HQ)). eexists. apply (der_small _ _ _ _ _ HQ). apply HB. exact Hg.
      + clear -HF HB. induction HF as [|a g l fs H F IH]; [constructor|]. cbn [map]. constructor; [|apply IH; intros g' Hg'; apply HB; right; exact Hg']. apply extension_field; [exact H|apply HB; left; reflexivity].
    - subst e. exists VNil. split; [reflexivity|]. apply field_end; reflexivity.
  Qed.

  Lemma certificate_value d f : certificate_der K d f -> zlen f < 2 ^ 31 ->
    exists v, unmarshal X tyCertificate f = (v, Some []) /\ structRaw v = f /\
      let tbs := field 0 v in
      parsePublicKey K (getPublicKeyAlgorithmFromOID (asOid (field 0 (field 0 (field 6 tbs))))) (field 6 tbs) = Some (d_key d, false) /\ structRaw (field 6 tbs) = d_spki d /\
      asInt (field 1 tbs) = d_serial d /\ asOid (field 0 (field 2 tbs)) = fst (d_sigalg d) /\ rawFull (field 1 (field 2 tbs)) = (match snd (d_sigalg d) with Some e => e | None => [] end) /\
      parseName K (rawFull (field 3 tbs)) = Some (goName (name_text (d_issuer d))) /\ parseName K (rawFull (field 5 tbs)) = Some (goName (name_text (d_subject d))) /\
      asTime (field 0 (field 4 tbs)) = d_not_before d /\ asTime (field 1 (field 4 tbs)) = d_not_after d /\
      asSlice (field 9 tbs) = map ext_val (present (d_exts d)).
  Proof.
    intros (version & serial & sigalg & issuer & nb & na & validity & subject & iuid & suid & exts & tbs & outer & sig & HVer & HSer & HAlg & HVA & HIss & Hnb & Hna & HVal & HSub & HSpki & HU1 & HU2 & HX & HTbs & HOut & HVO & HSig & HF) HL.
    pose proof (der_element_size _ _ _ _ _ HF) as Z1. pose proof (der_element_size _ _ _ _ _ HTbs) as Z2. cbn [concat] in Z1, Z2. rewrite !zlen_app in Z1. rewrite !zlen_app in Z2. change (zlen ([] : bytes)) with 0 in *.
    pose proof (zlen_nonneg tbs). pose proof (zlen_nonneg outer). pose proof (zlen_nonneg sig). pose proof (zlen_nonneg version). pose proof (zlen_nonneg serial). pose proof (zlen_nonneg sigalg). pose proof (zlen_nonneg issuer). pose proof (zlen_nonneg validity).
    pose proof (zlen_nonneg subject). pose proof (zlen_nonneg (d_spki d)). pose proof (zlen_nonneg iuid). pose proof (zlen_nonneg suid). pose proof (zlen_nonneg exts).
    destruct (algorithm_value X (d_sigalg d) sigalg HAlg HVA ltac:(lia)) as (va & EA1 & EA2 & PA). destruct (algorithm_value X (d_outer_alg d) outer HOut HVO ltac:(lia)) as (vo & _ & _ & PO).
    destruct (spki_key K (d_key d) (d_spki d) HSpki ltac:(lia)) as (vk & EK1 & PK & EK2). destruct (name_element X _ _ HIss ltac:(lia)) as (bi & EI). destruct (name_element X _ _ HSub ltac:(lia)) as (bs & ES).
    destruct (extensions_field _ _ HX ltac:(lia)) as (vx & EX & PX).
    assert (Xe : exts = [] \/ exists c, element 2 3 true c exts). { clear -HX Z1 Z2 HL H H0 H1 H2 H3 H4 H5 H6 H7 H8 H9 H10 H11. destruct (d_exts d); cbn [optional] in HX; [right|left; exact HX]. destruct HX as (es & s & _ & _ & HE). eexists. apply (der_small _ _ _ _ _ HE). lia. }
    destruct (uid_field 2 _ suid exts (or_intror eq_refl) HU2 ltac:(lia)) as (vs & PS). { destruct Xe as [-> |(c & Xe)]; [left; reflexivity|right]. exists exts, [], 3, true, c. rewrite app_nil_r. repeat split; [lia|exact Xe]. }
    assert (Se : suid ++ exts = [] \/ exists g r' t' k c, suid ++ exts = g ++ r' /\ t' <> 1 /\ element 2 t' k c g).
    { destruct (d_subject_uid d) as [b|]; cbn [optional] in HU2; [right; exists suid, exts, 2, false, (x00 :: b); repeat split; [lia|apply der_small; [exact HU2|lia]]|]. subst suid. cbn [app]. destruct Xe as [-> |(c & Xe)]; [left; reflexivity|right]. exists exts, [], 3, true, c. rewrite app_nil_r. repeat split; [lia|exact Xe]. }
    destruct (uid_field 1 _ iuid (suid ++ exts) (or_introl eq_refl) HU1 ltac:(lia) Se) as (vi & PI).
    destruct (version_field _ version _ serial (sigalg ++ issuer ++ validity ++ subject ++ d_spki d ++ iuid ++ suid ++ exts ++ []) HVer ltac:(lia) HSer ltac:(lia)) as (vv & PV).
    set (tv := VStruct tbs [vv; VInt (d_serial d); va; VRaw 0 16 true bi issuer; VStruct [] [VTime (d_not_before d); VTime (d_not_after d)]; VRaw 0 16 true bs subject; vk; vi; vs; vx]).
    assert (PT : forall r, parseField X tyTbs noParams (zeroVal tyTbs) (tbs ++ r) = (tv, Some r)).
    { intros r. apply (struct_field_raw X _ _ (concat [version; serial; sigalg; issuer; validity; subject; d_spki d; iuid; suid; exts])); [exact HTbs|lia|]. cbn [concat].
      rewrite parseFields_cons, PV. rewrite parseFields_cons, (big_field X _ (d_serial d) serial) by (try exact HSer; lia). cbn [zeroVal zeroFields fieldsOf tl tyTbs].
      rewrite parseFields_cons. match goal with |- context [parseField X tyAlgorithm noParams ?o _] => change o with (zeroVal tyAlgorithm) end. rewrite PA. cbn [tl].
      rewrite parseFields_cons, (raw_parse X noParams _ 0 16 true bi issuer) by (try reflexivity; exact EI). cbn [tl].
      rewrite parseFields_cons. match goal with |- context [parseField X tyValidity noParams ?o _] => change o with (zeroVal tyValidity) end. rewrite (validity_field X (d_not_before d) (d_not_after d) nb na validity) by (try assumption; lia). cbn [tl].
      rewrite parseFields_cons, (raw_parse X noParams _ 0 16 true bs subject) by (try reflexivity; exact ES). cbn [tl].
      rewrite parseFields_cons. match goal with |- context [parseField X tySpki noParams ?o _] => change o with (zeroVal tySpki) end. rewrite PK. cbn [tl]. rewrite app_nil_r.
      rewrite parseFields_cons. match goal with |- context [parseField X TyBits (pOptionalTag 1) ?o _] => change o with (zeroVal TyBits) end. rewrite PI. cbn [tl].
      rewrite parseFields_cons. match goal with |- context [parseField X TyBits (pOptionalTag 2) ?o _] => change o with (zeroVal TyBits) end. rewrite PS. cbn [tl].
      rewrite parseFields_cons, PX. reflexivity. }
    exists (VStruct f [tv; vo; VBits (d_signature d) (8 * zlen (d_signature d))]). split.
    { unfold unmarshal. rewrite <- (app_nil_r f) at 1. apply (struct_field_raw X _ _ (concat [tbs; outer; sig])); [exact HF|exact HL|]. cbn [concat]. rewrite parseFields_cons.
      match goal with |- context [parseField X tyTbs noParams ?o _] => change o with (zeroVal tyTbs) end. rewrite PT. rewrite parseFields_cons. match goal with |- context [parseField X tyAlgorithm noParams ?o _] => change o with (zeroVal tyAlgorithm) end. rewrite PO.
      rewrite parseFields_cons, (bits_field X noParams 0 3 _ (d_signature d) sig []); try reflexivity; [exact HSig|lia]. }
    split; [reflexivity|]. cbn [field nth tv asInt asTime rawFull]. split; [exact EK2|]. split; [exact EK1|]. split; [reflexivity|]. split; [exact EA1|]. split; [exact EA2|].
    split; [apply parse_name; [exact HIss|lia]|]. split; [apply parse_name; [exact HSub|lia]|]. split; [reflexivity|]. split; [reflexivity|]. exact EX.
  Qed.
End K.
