(** x509andr: exactly which byte strings are accepted as public keys *)
From Coq Require Import Lia.
From Verif.Model Require Import Bytes Env Ber Asn1 Pkcs7 X509.
From Verif.Spec Require Import Ber Asn1 Asn1Value Pkcs7 X509.
From Verif.Proofs Require Import BytesFacts BerFacts Asn1Codec Asn1Header Asn1Value Asn1Decode DerFacts DerSize Pkcs7Facts Pkcs7Parse Pkcs7Honest X509Facts X509Keys X509Honest.

Lemma shiftRight_len s l : forall prev, zlen (shiftRight s prev l) = zlen l.
Proof. induction l as [|x l IH]; intros prev; cbn [shiftRight]; [reflexivity|]. rewrite !zlen_cons, IH. reflexivity. Qed.
Lemma shiftRight_val s l : 0 < s < 8 -> forall prev, 0 <= prev -> be_val (shiftRight s prev l) = ((prev mod 2 ^ s) * 256 ^ zlen l + be_val l) / 2 ^ s.
Proof.
  intros Hs. assert (P : 0 < 2 ^ s) by (apply Z.pow_pos_nonneg; lia). assert (P8 : 2 ^ s * 2 ^ (8 - s) = 256). { rewrite <- Z.pow_add_r by lia. replace (s + (8 - s)) with 8 by lia. reflexivity. }
  induction l as [|x l IH]; intros prev Hp; cbn [shiftRight].
  - rewrite be_val_nil. change (zlen ([] : bytes)) with 0. change (256 ^ 0) with 1. rewrite Z.mul_1_r, Z.add_0_r. symmetry. apply Z.div_small. apply Z.mod_pos_bound. exact P.
  - rewrite !be_val_cons, shiftRight_len, IH by apply b2z_range. rewrite zlen_cons.
    replace ((prev * 2 ^ (8 - s)) mod 256) with ((prev mod 2 ^ s) * 2 ^ (8 - s)).
    2:{ rewrite <- P8. rewrite Z.mul_mod_distr_r; [reflexivity|lia|]. assert (0 < 2 ^ (8 - s)) by (apply Z.pow_pos_nonneg; lia). lia. }
    pose proof (Z.mod_pos_bound prev (2 ^ s) P) as M. pose proof (b2z_range x) as R. assert (P9 : 0 < 2 ^ (8 - s)) by (apply Z.pow_pos_nonneg; lia).
    pose proof (Z.div_mod (b2z x) (2 ^ s) ltac:(lia)) as DM. pose proof (Z.mod_pos_bound (b2z x) (2 ^ s) P) as M2.
    set (d := b2z x / 2 ^ s) in *. set (m := b2z x mod 2 ^ s) in *. set (q := prev mod 2 ^ s) in *.
    assert (0 <= d < 2 ^ (8 - s)). { split; [apply Z.div_pos; lia|]. apply Z.div_lt_upper_bound; lia. }
    rewrite b2z_z2b, Z.mod_small by nia. rewrite Z.pow_add_r by (pose proof (zlen_nonneg l); lia). change (256 ^ 1) with 256.
    replace (q * (256 * 256 ^ zlen l) + (b2z x * 256 ^ zlen l + be_val l)) with ((q * 2 ^ (8 - s) + d) * 256 ^ zlen l * 2 ^ s + (m * 256 ^ zlen l + be_val l)).
    2:{ rewrite DM, <- P8. ring. }
    rewrite Z.div_add_l by lia. reflexivity.
Qed.
Lemma be_val_last l : l <> [] -> forall k, 0 <= k < 8 -> be_val l mod 2 ^ k = b2z (last l x00) mod 2 ^ k.
Proof.
  intros H k Hk. destruct (exists_last H) as (l' & x & ->). rewrite last_last. rewrite <- be_acc0, be_acc_val. 
  assert (E : be_val (l' ++ [x]) = be_val l' * 256 + b2z x). { clear. unfold be_val. rewrite fold_left_app. cbn [fold_left]. lia. }
  rewrite E, Z.mul_0_l, Z.add_0_l. replace 256 with (2 ^ (8 - k) * 2 ^ k) by (rewrite <- Z.pow_add_r by lia; replace (8 - k + k) with 8 by lia; reflexivity).
  rewrite Z.mul_assoc, Z.add_comm, Z.mod_add; [reflexivity|]. assert (0 < 2 ^ k) by (apply Z.pow_pos_nonneg; lia). lia.
Qed.
Lemma align u pad : 0 <= pad < 8 -> (u = [] -> pad = 0) ->
  let key := rightAlign u (8 * zlen u - pad) in zlen key = zlen u /\ be_val key = be_val u / 2 ^ pad.
Proof.
  intros Hp Hu. cbv zeta. unfold rightAlign. destruct (Z.eq_dec pad 0) as [->|N].
  - rewrite Z.sub_0_r, Z.mul_comm, Z.mod_mul by lia. cbn [Z.sub Z.eqb Z.add]. change (2 ^ 0) with 1. rewrite Z.div_1_r. split; reflexivity.
  - assert (E : (8 * zlen u - pad) mod 8 = 8 - pad). { replace (8 * zlen u - pad) with ((8 - pad) + (zlen u - 1) * 8) by lia. rewrite Z.mod_add by lia. apply Z.mod_small. lia. }
    rewrite E. replace (8 - (8 - pad)) with pad by lia. destruct (Z.eqb_spec pad 8); [lia|]. split; [apply shiftRight_len|]. rewrite shiftRight_val by lia. rewrite Z.mod_0_l by (assert (0 < 2 ^ pad) by (apply Z.pow_pos_nonneg; lia); lia). reflexivity.
Qed.

Section F.
  Variable K : xenv.
  Notation X := (k_text K).

  Lemma oid_iff old s o r : parseField X TyOid noParams old s = (VOid o, Some r) <-> exists f, s = f ++ r /\ oid_loose o f.
  Proof.
    split.
    - intros H. apply oid_parsed in H as (o' & octets & f & Eo & -> & HE & HP). assert (o' = o) as -> by congruence. exists f. split; [reflexivity|].
      apply parseOid_iff in HP as (a & b & q & bs & -> & Ha & Hb & Hab & <- & F). exists a, b, q, bs. auto 8.
    - intros (f & -> & (a & b & q & bs & -> & Ha & Hb & Hab & F & HE)).
      rewrite (field_parse X TyOid noParams old 0 6 false (concat bs) f r false TagOID false); try assumption; try reflexivity; try discriminate; try (right; auto; fail).
      cbn [parseContent]. assert (HP : parseObjectIdentifier (concat bs) = Some (a :: b :: q)) by (apply parseOid_iff; exists a, b, q, bs; auto 8). rewrite HP. reflexivity.
  Qed.
  Lemma big_iff old s z r : parseField X TyBig noParams old s = (VInt z, Some r) <-> exists f, s = f ++ r /\ loose_integer z f.
  Proof.
    split.
    - intros H. apply parseField_mandatory in H; [|discriminate|reflexivity|reflexivity]. destruct H as (t & u & inner & _ & HH & HC).
      apply (parseHeader_universal _ _ _ _ _ _ TagInteger false) in HH; [|reflexivity|discriminate|discriminate]. destruct HH as (full & E & HE).
      cbn [parseContent] in HC. destruct (parseBigInt inner) as [w|] eqn:Ez; [|discriminate]. exists full. split; [exact E|]. exists inner. split; [apply parseBigInt_iff; unfold leafValue in HC; congruence|exact HE].
    - intros (f & -> & (oc & HO & HD)). rewrite (field_parse X TyBig noParams old 0 2 false oc f r false TagInteger false); try assumption; try reflexivity; try discriminate; try (right; auto; fail).
      cbn [parseContent]. apply parseBigInt_iff in HO. rewrite HO. reflexivity.
  Qed.
  Lemma big_value old s v r : parseField X TyBig noParams old s = (v, Some r) -> exists z, v = VInt z.
  Proof.
    intros H. apply parseField_mandatory in H; [|discriminate|reflexivity|reflexivity]. destruct H as (t & u & inner & _ & HH & HC). cbn [parseContent] in HC. destruct (parseBigInt inner) as [w|]; [|discriminate]. exists w. unfold leafValue in HC. congruence.
  Qed.
  Lemma int64_iff old s z r : parseField X TyInt noParams old s = (VInt z, Some r) <-> exists f, s = f ++ r /\ loose_integer z f /\ - 2 ^ 63 <= z < 2 ^ 63.
  Proof.
    split.
    - intros H. apply parseField_mandatory in H; [|discriminate|reflexivity|reflexivity]. destruct H as (t & u & inner & _ & HH & HC).
      apply (parseHeader_universal _ _ _ _ _ _ TagInteger false) in HH; [|reflexivity|discriminate|discriminate]. destruct HH as (full & E & HE).
      cbn [parseContent] in HC. destruct (parseInt64 inner) as [w|] eqn:Ez; [|discriminate]. assert (w = z) as -> by (unfold leafValue in HC; congruence). exists full. split; [exact E|].
      split; [|exact (proj1 (encode_parse_int64 _ _ Ez))]. exists inner. split; [apply parseInt64_iff in Ez; tauto|exact HE].
    - intros (f & -> & (oc & HO & HD) & HR). rewrite (field_parse X TyInt noParams old 0 2 false oc f r false TagInteger false); try assumption; try reflexivity; try discriminate; try (right; auto; fail).
      cbn [parseContent]. assert (E : parseInt64 oc = Some z); [|rewrite E; reflexivity].
      rewrite (integer_octets_unique _ _ _ HO (proj1 (encodeInt64_octets z HR))). apply parse_encode_int64. exact HR.
  Qed.
  Lemma oid_value old s v r : parseField X TyOid noParams old s = (v, Some r) -> exists o, v = VOid o.
  Proof. intros H. apply oid_parsed in H as (o & _ & _ & -> & _). eauto. Qed.
  Lemma bits_iff old s key r : (exists b n, parseField X TyBits noParams old s = (VBits b n, Some r) /\ rightAlign b n = key) <-> exists f, s = f ++ r /\ bit_string_loose key f.
  Proof.
    split.
    - intros (b & n & H & <-). apply parseField_mandatory in H; [|discriminate|reflexivity|reflexivity]. destruct H as (t & u & inner & _ & HH & HC).
      apply (parseHeader_universal _ _ _ _ _ _ TagBitString false) in HH; [|reflexivity|discriminate|discriminate]. destruct HH as (full & E & HE).
      cbn [parseContent] in HC. destruct (parseBitString inner) as [[b' n']|] eqn:Eb; [|discriminate]. assert (b' = b /\ n' = n) as [-> ->] by (cbn [leafValue fst snd] in HC; split; congruence).
      apply parseBits_iff in Eb as (pad & -> & Hp & -> & H0 & H1). exists full. split; [exact E|]. exists pad, b. split; [exact Hp|]. split; [exact HE|]. destruct (align b pad Hp H0) as [L V]. split; [exact L|]. split; [|exact H0].
      rewrite V. assert (P : 0 < 2 ^ pad) by (apply Z.pow_pos_nonneg; lia). pose proof (Z.div_mod (be_val b) (2 ^ pad) ltac:(lia)) as DM.
      assert (be_val b mod 2 ^ pad = 0). { destruct b as [|x b]; [rewrite be_val_nil; apply Z.mod_0_l; lia|]. rewrite be_val_last by (try discriminate; lia). apply H1. discriminate. } lia.
    - intros (f & -> & (pad & b & Hp & HE & HL & HV & H0)). exists b, (8 * zlen b - pad). assert (P : 0 < 2 ^ pad) by (apply Z.pow_pos_nonneg; lia). split.
      + rewrite (field_parse X TyBits noParams old 0 3 false (z2b pad :: b) f r false TagBitString false); try assumption; try reflexivity; try discriminate; try (right; auto; fail).
        cbn [parseContent]. assert (EB : parseBitString (z2b pad :: b) = Some (b, 8 * zlen b - pad)).
        { apply parseBits_iff. exists pad. repeat split; try lia; try exact H0. intros HN. rewrite <- be_val_last by assumption. rewrite HV. apply Z.mod_mul. lia. }
        rewrite EB. reflexivity.
      + destruct (align b pad Hp H0) as [L V]. apply be_val_inj; [lia|]. rewrite V, HV. apply Z.div_mul. lia.
  Qed.
  Lemma bits_value' old s v r : parseField X TyBits noParams old s = (v, Some r) -> exists b n, v = VBits b n.
  Proof.
    intros H. apply parseField_mandatory in H; [|discriminate|reflexivity|reflexivity]. destruct H as (t & u & inner & _ & HH & HC). cbn [parseContent] in HC. destruct (parseBitString inner) as [[b n]|]; [|discriminate]. exists b, n. cbn [leafValue fst snd] in HC. congruence.
  Qed.
  Lemma optraw_iff s params r : (exists v, parseField X TyRaw pOptional (zeroVal TyRaw) s = (v, Some r) /\ rawFull v = params) <->
    (params = [] /\ s = [] /\ r = []) \/ (s = params ++ r /\ exists class tag compound content, element class tag compound content params).
  Proof.
    split.
    - intros (v & H & <-). apply parseField_inv in H; [|discriminate]. destruct H as [(_ & -> & HD & [->|HM])|[(_ & _ & C)|(t & u & inner & _ & HH & HC)]].
      + left. split; [|auto]. assert (v = zeroVal TyRaw) as -> by (unfold setDefaultValue in HD; cbn [fp_optional fp_default pOptional] in HD; congruence). reflexivity.
      + exfalso. unfold parseHeader in HM. destruct (parseTagAndLength s) as [[t s1]|]; [|discriminate]. cbn [fp_explicit pOptional] in HM. unfold matchBody in HM. cbn [getUniversalType] in HM. cbn in HM. destruct (_ <? _) in HM; discriminate.
      + exfalso. exact (implicit_noflag _ pOptional _ _ eq_refl C).
      + right. apply parseHeader_inv in HH as (pre & full & -> & HE & Hp & _). rewrite Hp in * by (left; reflexivity). cbn [app] in *. cbn [parseContent] in HC.
        rewrite zlen_app, Z.add_simpl_r, takeZ_app in HC by reflexivity. assert (v = VRaw (tl_class t) (tl_tag t) (tl_compound t) inner full) as -> by congruence. cbn [rawFull]. split; [reflexivity|]. eauto.
    - intros [(-> & -> & ->)|(-> & c & t & k & b & HE)].
      + exists (zeroVal TyRaw). split; reflexivity.
      + exists (VRaw c t k b params). split; [|reflexivity]. apply raw_parse; [reflexivity|reflexivity|exact HE].
  Qed.
  Lemma struct_iff raw fs s v r : parseField X (TyStruct raw fs) noParams (zeroVal (TyStruct raw fs)) s = (v, Some r) <->
    exists full inner l, s = full ++ r /\ element 0 16 true inner full /\ v = VStruct (if raw then full else []) l /\ parseFields X fs (zeroFields fs) inner = (l, true).
  Proof.
    split.
    - intros H. apply struct_local in H as (full & inner & -> & HE & (l & -> & HF) & _). exists full, inner, l. auto.
    - intros (full & inner & l & -> & HE & -> & HF).
      rewrite (field_parse X (TyStruct raw fs) noParams _ 0 16 true inner full r false TagSequence true); try assumption; try reflexivity; try discriminate; try (right; auto; fail).
      cbn [parseContent zeroVal fieldsOf]. rewrite HF. reflexivity.
  Qed.
  Lemma algorithm_iff s o params r : (exists v, parseField X tyAlgorithm noParams (zeroVal tyAlgorithm) s = (v, Some r) /\ asOid (field 0 v) = o /\ rawFull (field 1 v) = params) <->
    exists f, s = f ++ r /\ algorithm_loose o params f.
  Proof.
    split.
    - intros (v & H & Ho & Hp). apply struct_iff in H as (full & inner & l & -> & HE & -> & HF). exists full. split; [reflexivity|].
      apply (fields_inv K) in HF as (v1 & s1 & l1 & -> & H1 & HF). apply (fields_inv K) in HF as (v2 & s2 & l2 & -> & H2 & HF). cbn [field nth asOid tl zeroFields] in *. clear HF.
      destruct (oid_value _ _ _ _ H1) as (o' & ->). cbn [asOid] in Ho. subst o'. apply oid_iff in H1 as (oe & -> & HO). exists oe, s2.
      assert (G : exists v, parseField X TyRaw pOptional (zeroVal TyRaw) s1 = (v, Some s2) /\ rawFull v = params) by eauto. apply optraw_iff in G as [(-> & -> & ->)|(-> & HX)]; (split; [exact HO|split; [exact HE|auto]]).
    - intros (f & -> & (oe & junk & HO & HE & HP)).
      assert (G : exists v, parseField X TyRaw pOptional (zeroVal TyRaw) (params ++ junk) = (v, Some junk) /\ rawFull v = params). { apply optraw_iff. destruct HP as [(-> & ->)|HP]; auto. }
      destruct G as (v & Hv & <-). exists (VStruct [] [VOid o; v]). split; [|split; reflexivity]. apply struct_iff. exists f, (oe ++ rawFull v ++ junk), [VOid o; v]. split; [reflexivity|]. split; [exact HE|]. split; [reflexivity|].
      assert (HO' : parseField X TyOid noParams (zeroVal TyOid) (oe ++ rawFull v ++ junk) = (VOid o, Some (rawFull v ++ junk))) by (apply oid_iff; eauto).
      rewrite parseFields_cons. cbn [zeroFields]. rewrite HO', parseFields_cons. cbn [tl]. rewrite Hv. reflexivity.
  Qed.
  Lemma spki_iff s o params key : (exists v b n, unmarshalAll K tySpki s = Some v /\ asOid (field 0 (field 0 v)) = o /\ rawFull (field 1 (field 0 v)) = params /\ field 1 v = VBits b n /\ rightAlign b n = key) <->
    spki_loose o params key s.
  Proof.
    split.
    - intros (v & b & n & H & Ho & Hp & Hb & Hk). apply unmarshalAll_some in H. unfold unmarshal in H. apply struct_iff in H as (full & inner & l & -> & HE & -> & HF). rewrite app_nil_r.
      apply (fields_inv K) in HF as (v1 & s1 & l1 & -> & H1 & HF). apply (fields_inv K) in HF as (v2 & s2 & l2 & -> & H2 & HF). cbn [field nth tl zeroFields] in *. clear HF. subst v2.
      assert (G1 : exists f, inner = f ++ s1 /\ algorithm_loose o params f) by (apply algorithm_iff; eauto). assert (G2 : exists f, s1 = f ++ s2 /\ bit_string_loose key f) by (apply (bits_iff (zeroVal TyBits)); eauto).
      destruct G1 as (a & -> & HA). destruct G2 as (bs & -> & HB). exists a, bs, s2. auto.
    - intros (a & bs & junk & HA & HB & HE).
      assert (G1 : exists v, parseField X tyAlgorithm noParams (zeroVal tyAlgorithm) (a ++ bs ++ junk) = (v, Some (bs ++ junk)) /\ asOid (field 0 v) = o /\ rawFull (field 1 v) = params) by (apply algorithm_iff; eauto).
      assert (G2 : exists b n, parseField X TyBits noParams (zeroVal TyBits) (bs ++ junk) = (VBits b n, Some junk) /\ rightAlign b n = key) by (apply bits_iff; eauto).
      destruct G1 as (v1 & H1 & Ho & Hp). destruct G2 as (b & n & H2 & Hk). exists (VStruct s [v1; VBits b n]), b, n. split; [|auto]. apply unmarshalAll_some. unfold unmarshal, tySpki. apply struct_iff.
      exists s, (a ++ bs ++ junk), [v1; VBits b n]. split; [rewrite app_nil_r; reflexivity|]. split; [exact HE|]. split; [reflexivity|].
      rewrite parseFields_cons. cbn [zeroFields]. rewrite H1, parseFields_cons. cbn [tl]. rewrite H2. reflexivity.
  Qed.

  Lemma modulus octets n : integer_octets octets n -> modulus_used octets n (if n <=? 0 then fixModulus n else n).
  Proof.
    intros HO. destruct (Z.leb_spec n 0) as [L|L]; [|constructor; exact L]. destruct (Z.eq_dec n 0) as [->|N]; [apply mu_zero; reflexivity|].
    pose proof HO as ((HN & _) & _). destruct octets as [|x t]; [congruence|]. apply parseBigInt_iff in HO as HP. unfold parseBigInt in HP. destruct (checkInteger (x :: t)) eqn:HC; [|discriminate]. cbn [negb] in HP.
    destruct (Z.leb_spec 128 (b2z x)) as [G|G].
    2:{ exfalso. rewrite be_acc0 in HP. pose proof (be_val_range (x :: t)). assert (be_val (x :: t) = n) by congruence. lia. }
    destruct (Byte.byte_eq_dec x xff) as [->|Nx].
    - replace (fixModulus n) with (be_val t); [apply mu_negative_ff; [lia|reflexivity]|].
      rewrite be_acc0 in HP. cbn [map] in HP. change (notByte xff) with x00 in HP. rewrite be_val_cons in HP. change (b2z x00) with 0 in HP. rewrite Z.mul_0_l, Z.add_0_l in HP.
      assert (n = - (be_val (map notByte t) + 1)) as -> by congruence. unfold fixModulus. rewrite be_acc0. pose proof (be_val_range (map notByte t)). replace (Z.abs (- - (be_val (map notByte t) + 1) - 1)) with (be_val (map notByte t)) by lia.
      destruct t as [|y u]; [reflexivity|]. cbn [map]. rewrite bigBytes_of.
      + change (notByte y :: map notByte u) with (map notByte (y :: u)). rewrite map_map. f_equal. rewrite <- (map_id (y :: u)) at 1. apply map_ext. intros a. symmetry. apply notByte_invol.
      + rewrite notByte_val. intros C. cbn [checkInteger] in HC. change (b2z xff) with 255 in HC. destruct (Z.leb_spec 128 (b2z y)); [|lia]. cbn in HC. discriminate.
    - assert (b2z x <> 255) by (intros C; apply Nx; apply b2z_inj; exact C). pose proof (b2z_range x). rewrite (fixModulus_unsigned x t n) by (try exact HO; lia). apply mu_negative with x t; [lia|reflexivity|exact Nx].
  Qed.
  Lemma modulus_unique octets n a : integer_octets octets n -> modulus_used octets n a -> a = if n <=? 0 then fixModulus n else n.
  Proof.
    intros HO H. pose proof (modulus _ _ HO) as H'. revert H'. generalize (if n <=? 0 then fixModulus n else n). intros b H'. destruct H; inversion H'; subst; try lia; try congruence.
  Qed.
  Lemma pkcs1_iff key n e : unmarshalAll K tyPkcs1 key = Some (VStruct [] [VInt n; VInt e]) <->
    exists ni ei junk, loose_integer n ni /\ loose_integer e ei /\ - 2 ^ 63 <= e < 2 ^ 63 /\ element 0 16 true (ni ++ ei ++ junk) key.
  Proof.
    rewrite unmarshalAll_some. unfold unmarshal, tyPkcs1. rewrite struct_iff. split.
    - intros (full & inner & l & -> & HE & EV & HF). rewrite app_nil_r. assert (l = [VInt n; VInt e]) as -> by congruence.
      apply (fields_inv K) in HF as (v1 & s1 & l1 & E1 & H1 & HF). apply (fields_inv K) in HF as (v2 & s2 & l2 & E2 & H2 & HF). assert (v1 = VInt n /\ v2 = VInt e) as [-> ->] by (split; congruence).
      apply big_iff in H1 as (ni & -> & L1). apply int64_iff in H2 as (ei & -> & L2 & R). exists ni, ei, s2. auto.
    - intros (ni & ei & junk & L1 & L2 & R & HE). exists key, (ni ++ ei ++ junk), [VInt n; VInt e]. split; [rewrite app_nil_r; reflexivity|]. split; [exact HE|]. split; [reflexivity|].
      assert (H1 : parseField X TyBig noParams (zeroVal TyBig) (ni ++ ei ++ junk) = (VInt n, Some (ei ++ junk))) by (apply big_iff; eauto).
      assert (H2 : parseField X TyInt noParams (zeroVal TyInt) (ei ++ junk) = (VInt e, Some junk)) by (apply int64_iff; eauto).
      rewrite parseFields_cons. cbn [zeroFields]. rewrite H1, parseFields_cons. cbn [tl]. rewrite H2. reflexivity.
  Qed.
  Lemma pkcs1_value key v : unmarshalAll K tyPkcs1 key = Some v -> exists n e, v = VStruct [] [VInt n; VInt e].
  Proof.
    intros H. apply unmarshalAll_some in H. unfold unmarshal, tyPkcs1 in H. apply struct_iff in H as (full & inner & l & _ & _ & -> & HF).
    apply (fields_inv K) in HF as (v1 & s1 & l1 & -> & H1 & HF). apply (fields_inv K) in HF as (v2 & s2 & l2 & -> & H2 & HF). cbn [parseFields] in HF. assert (l2 = []) as -> by congruence.
    apply big_value in H1 as (n & ->). apply int64_value in H2 as (e & -> & _); [eauto|reflexivity|reflexivity].
  Qed.
  Lemma dsa_params_iff params p q g : unmarshalAll K tyDsaParams params = Some (VStruct [] [VInt p; VInt q; VInt g]) <->
    exists pi qi gi junk, loose_integer p pi /\ loose_integer q qi /\ loose_integer g gi /\ element 0 16 true (pi ++ qi ++ gi ++ junk) params.
  Proof.
    rewrite unmarshalAll_some. unfold unmarshal, tyDsaParams. rewrite struct_iff. split.
    - intros (full & inner & l & -> & HE & EV & HF). rewrite app_nil_r. assert (l = [VInt p; VInt q; VInt g]) as -> by congruence.
      apply (fields_inv K) in HF as (v1 & s1 & l1 & E1 & H1 & HF). apply (fields_inv K) in HF as (v2 & s2 & l2 & E2 & H2 & HF). apply (fields_inv K) in HF as (v3 & s3 & l3 & E3 & H3 & HF).
      assert (v1 = VInt p /\ v2 = VInt q /\ v3 = VInt g) as (-> & -> & ->) by (repeat split; congruence).
      apply big_iff in H1 as (pi & -> & L1). apply big_iff in H2 as (qi & -> & L2). apply big_iff in H3 as (gi & -> & L3). exists pi, qi, gi, s3. auto.
    - intros (pi & qi & gi & junk & L1 & L2 & L3 & HE). exists params, (pi ++ qi ++ gi ++ junk), [VInt p; VInt q; VInt g]. split; [rewrite app_nil_r; reflexivity|]. split; [exact HE|]. split; [reflexivity|].
      assert (G : forall z f r, loose_integer z f -> parseField X TyBig noParams (zeroVal TyBig) (f ++ r) = (VInt z, Some r)) by (intros; apply big_iff; eauto).
      rewrite parseFields_cons. cbn [zeroFields]. rewrite (G p pi _ L1), parseFields_cons. cbn [tl]. rewrite (G q qi _ L2), parseFields_cons. cbn [tl]. rewrite (G g gi _ L3). reflexivity.
  Qed.
  Lemma dsa_params_value params v : unmarshalAll K tyDsaParams params = Some v -> exists p q g, v = VStruct [] [VInt p; VInt q; VInt g].
  Proof.
    intros H. apply unmarshalAll_some in H. unfold unmarshal, tyDsaParams in H. apply struct_iff in H as (full & inner & l & _ & _ & -> & HF).
    apply (fields_inv K) in HF as (v1 & s1 & l1 & -> & H1 & HF). apply (fields_inv K) in HF as (v2 & s2 & l2 & -> & H2 & HF). apply (fields_inv K) in HF as (v3 & s3 & l3 & -> & H3 & HF). cbn [parseFields] in HF. assert (l3 = []) as -> by congruence.
    apply big_value in H1 as (p & ->). apply big_value in H2 as (q & ->). apply big_value in H3 as (g & ->). eauto.
  Qed.
  Lemma curve_iff o c : namedCurveFromOID o = Some c <-> o = curve_id c.
  Proof.
    split; [|intros ->; destruct c; reflexivity]. unfold namedCurveFromOID.
    destruct (oidEqual o [1; 3; 132; 0; 33]) eqn:E1; [apply oidEqual_iff in E1; intros H; assert (c = P224) as -> by congruence; exact E1|].
    destruct (oidEqual o [1; 2; 840; 10045; 3; 1; 7]) eqn:E2; [apply oidEqual_iff in E2; intros H; assert (c = P256) as -> by congruence; exact E2|].
    destruct (oidEqual o [1; 3; 132; 0; 34]) eqn:E3; [apply oidEqual_iff in E3; intros H; assert (c = P384) as -> by congruence; exact E3|].
    destruct (oidEqual o [1; 3; 132; 0; 35]) eqn:E4; [apply oidEqual_iff in E4; intros H; assert (c = P521) as -> by congruence; exact E4|].
    intros H. congruence.
  Qed.
  Lemma algorithm_of o a : a <> UnknownKey -> (getPublicKeyAlgorithmFromOID o = a <-> o = match a with RSA => id_rsa | DSA => id_dsa | _ => id_ec end).
  Proof.
    intros Ha. split; [|intros ->; destruct a; try congruence; reflexivity]. unfold getPublicKeyAlgorithmFromOID.
    destruct (oidEqual o oidPublicKeyRSA) eqn:E1; [apply oidEqual_iff in E1; intros H; subst a; exact E1|].
    destruct (oidEqual o oidPublicKeyDSA) eqn:E2; [apply oidEqual_iff in E2; intros H; subst a; exact E2|].
    destruct (oidEqual o oidPublicKeyECDSA) eqn:E3; [apply oidEqual_iff in E3; intros H; subst a; exact E3|].
    intros H. exfalso. apply Ha. congruence.
  Qed.
  Lemma point_iff c data x y : ellipticUnmarshal K c data = Some (x, y) <->
    exists bx by_, data = x04 :: bx ++ by_ /\ zlen bx = field_size c /\ zlen by_ = field_size c /\ x = be_val bx /\ y = be_val by_ /\ k_point K c x y = true.
  Proof.
    assert (BL : byteLen c = field_size c) by (destruct c; reflexivity). assert (FP : 0 < field_size c) by (destruct c; reflexivity). unfold ellipticUnmarshal. rewrite BL. split.
    - destruct data as [|b d]; [discriminate|]. destruct (Z.eqb_spec (zlen (b :: d)) (1 + 2 * field_size c)) as [L|L]; [|discriminate]. destruct (Z.eqb_spec (b2z b) 4) as [B|B]; [|discriminate]. cbn [negb]. rewrite !be_acc0.
      destruct (k_point K c _ _) eqn:EP; [|discriminate]. intros H. assert (x = be_val (takeZ (field_size c) d) /\ y = be_val (dropZ (field_size c) d)) as [-> ->] by (split; congruence). rewrite zlen_cons in L.
      exists (takeZ (field_size c) d), (dropZ (field_size c) d). split; [rewrite take_drop; f_equal; apply b2z_inj; exact B|]. split; [rewrite zlen_takeZ; lia|]. split; [rewrite zlen_dropZ; lia|]. auto.
    - intros (bx & by_ & -> & Lx & Ly & -> & -> & HP). rewrite zlen_cons, zlen_app, Lx, Ly. match goal with |- context [?a =? 1 + 2 * field_size c] => assert (EL : a =? 1 + 2 * field_size c = true) by (apply Z.eqb_eq; lia) end. rewrite EL. cbn [negb]. change (b2z x04 =? 4) with true. cbn [negb]. cbv iota.
      rewrite takeZ_app by (symmetry; exact Lx). rewrite dropZ_app by (symmetry; exact Lx). rewrite !be_acc0, HP. reflexivity.
  Qed.

  Lemma key_iff s k : parsePKIXPublicKey K s = Some k <-> key_loose K k s.
  Proof.
    split.
    - unfold parsePKIXPublicKey. destruct (unmarshalAll K tySpki s) as [v|] eqn:EU; [|discriminate]. intros H.
      assert (GB : exists b n, field 1 v = VBits b n). { pose proof EU as EU'. apply unmarshalAll_some in EU'. unfold unmarshal, tySpki in EU'. apply struct_iff in EU' as (full & inner & l & _ & _ & -> & HF).
        apply (fields_inv K) in HF as (v1 & s1 & l1 & -> & H1 & HF). apply (fields_inv K) in HF as (v2 & s2 & l2 & -> & H2 & HF). cbn [field nth]. apply bits_value' in H2. exact H2. }
      destruct GB as (b & n & EB). assert (SP : spki_loose (asOid (field 0 (field 0 v))) (rawFull (field 1 (field 0 v))) (rightAlign b n) s) by (apply spki_iff; exists v, b, n; auto).
      unfold parsePublicKey in H. rewrite EB in H. set (key := rightAlign b n) in *. set (params := rawFull (field 1 (field 0 v))) in *. clearbody key params.
      destruct (getPublicKeyAlgorithmFromOID _) eqn:EA; [discriminate| | |]; apply algorithm_of in EA; try discriminate; rewrite EA in SP; clear EA EB EU v b n.
      + destruct (unmarshalAll K tyPkcs1 key) as [p|] eqn:EP; [|discriminate]. destruct (pkcs1_value _ _ EP) as (n & e & ->). apply pkcs1_iff in EP as (ni & ei & junk & (oc & HO & Hn) & L2 & R & HE). cbn [field nth asInt] in H.
        pose proof (modulus _ _ HO) as HM. destruct (n <=? 0); (destruct (Z.leb_spec e 0); [discriminate|]); cbn [option_map fst] in H; match type of H with Some ?x = _ => assert (k = x) as -> by congruence end; eapply kl_rsa; try eassumption; lia.
      + destruct (unmarshalAll K TyBig key) as [y|] eqn:EY; [|discriminate]. destruct (unmarshalAll K tyDsaParams params) as [p|] eqn:EP; [|discriminate]. apply unmarshalAll_some in EY. destruct (big_value _ _ _ _ EY) as (z & ->). apply big_iff in EY as (f & -> & LY). rewrite app_nil_r in SP.
        destruct (dsa_params_value _ _ EP) as (p' & q & g & ->). apply dsa_params_iff in EP as (pi & qi & gi & junk & L1 & L2 & L3 & HE). cbn [field nth asInt] in H.
        destruct (Z.leb_spec z 0); [discriminate|]. destruct (Z.leb_spec p' 0); [discriminate|]. destruct (Z.leb_spec q 0); [discriminate|]. destruct (Z.leb_spec g 0); [discriminate|]. cbn [orb option_map fst] in H. match type of H with Some ?x = _ => assert (k = x) as -> by congruence end. eapply kl_dsa; eassumption.
      + destruct (unmarshalAll K TyOid params) as [o|] eqn:EO; [|discriminate]. apply unmarshalAll_some in EO. destruct (oid_value _ _ _ _ EO) as (oo & ->). cbn [asOid] in H. destruct (namedCurveFromOID oo) as [c|] eqn:EC; [|discriminate]. apply curve_iff in EC. subst oo. apply oid_iff in EO as (f & -> & LO). rewrite app_nil_r in SP.
        destruct (ellipticUnmarshal K c key) as [[x y]|] eqn:EE; [|discriminate]. apply point_iff in EE as (bx & by_ & -> & Lx & Ly & -> & -> & HP). cbn [option_map fst] in H. match type of H with Some ?x = _ => assert (k = x) as -> by congruence end. eapply kl_ec; eassumption.
    - intros H. unfold parsePKIXPublicKey.
      assert (G : forall o params key, spki_loose o params key s -> exists v b n, unmarshalAll K tySpki s = Some v /\ asOid (field 0 (field 0 v)) = o /\ rawFull (field 1 (field 0 v)) = params /\ field 1 v = VBits b n /\ rightAlign b n = key) by (intros; apply spki_iff; assumption).
      destruct H as [oc n n' e ni ei junk params key f HO Hn HM L2 R HE SP|y p q g pi qi gi junk params key f Hy Hp Hq Hg L1 L2 L3 HE LY SP|c bx by_ params f HP Lx Ly LO SP]; destruct (G _ _ _ SP) as (v & b & m & -> & EA & EP & EB & EK); rewrite EA.
      + change (getPublicKeyAlgorithmFromOID id_rsa) with RSA. cbv iota. unfold parsePublicKey. rewrite EB, EK.
        rewrite (proj2 (pkcs1_iff key n e)) by (exists ni, ei, junk; split; [exists oc; auto|]; split; [exact L2|]; split; [lia|exact HE]). cbn [field nth asInt]. rewrite (modulus_unique _ _ _ HO HM). destruct (n <=? 0); (destruct (Z.leb_spec e 0); [lia|reflexivity]).
      + change (getPublicKeyAlgorithmFromOID id_dsa) with DSA. cbv iota. unfold parsePublicKey. rewrite EB, EK, EP.
        assert (EY : unmarshalAll K TyBig key = Some (VInt y)). { apply unmarshalAll_some. apply big_iff. exists key. rewrite app_nil_r. auto. }
        rewrite EY, (proj2 (dsa_params_iff params p q g)) by (exists pi, qi, gi, junk; auto). cbn [field nth asInt]. destruct (Z.leb_spec y 0); [lia|]. destruct (Z.leb_spec p 0); [lia|]. destruct (Z.leb_spec q 0); [lia|]. destruct (Z.leb_spec g 0); [lia|]. reflexivity.
      + change (getPublicKeyAlgorithmFromOID id_ec) with ECDSA. cbv iota. unfold parsePublicKey. rewrite EB, EK, EP.
        assert (EO : unmarshalAll K TyOid params = Some (VOid (curve_id c))). { apply unmarshalAll_some. apply oid_iff. exists params. rewrite app_nil_r. auto. }
        rewrite EO. cbn [asOid]. rewrite (proj2 (curve_iff _ c) eq_refl). rewrite (proj2 (point_iff c (x04 :: bx ++ by_) (be_val bx) (be_val by_))) by (exists bx, by_; auto 8). reflexivity.
  Qed.

  Lemma time_parsed old s v r : parseField X TyTime noParams old s = (v, Some r) -> exists t f, v = VTime t /\ s = f ++ r /\ time_loose X t f.
  Proof.
    intros H. apply parseField_mandatory in H; [|discriminate|reflexivity|reflexivity]. destruct H as (t & u & inner & _ & HH & HC).
    apply parseHeader_inv in HH as (pre & full & -> & HE & Hp & any & ut & comp & HU & -> & Hc & Ht). rewrite Hp in * by (left; reflexivity). cbn [app] in *. cbn [getUniversalType] in HU. assert (any = false /\ ut = TagUTCTime /\ comp = false) as (-> & -> & ->) by (repeat split; congruence).
    cbn [parseContent] in HC. specialize (Hc eq_refl). unfold expected in Ht. cbn [fp_tag noParams] in Ht. destruct (Ht eq_refl) as [Hcl Htg]. clear Ht. rewrite Hc, Hcl, Htg in HE.
    assert (U : adjustTag noParams t TagUTCTime = 23 \/ adjustTag noParams t TagUTCTime = 24). { unfold adjustTag. cbn [fp_set noParams]. change (TagUTCTime =? TagPrintableString) with false. cbv iota. destruct (_ && _ && _); auto. }
    match type of HC with leafValue _ _ _ ?x = _ => destruct x as [tm|] eqn:ET; cbn [leafValue] in HC; [|congruence] end. exists tm, full. split; [congruence|]. split; [reflexivity|]. exists inner.
    destruct U as [U|U]; rewrite U in *; [left|right]; split; try exact HE; exact ET.
  Qed.
  Lemma version_parsed s v r : parseField X TyInt pVersion (zeroVal TyInt) s = (v, Some r) -> exists f, s = f ++ r /\ version_loose f.
  Proof.
    intros H. apply parseField_inv in H; [|discriminate]. destruct H as [(_ & -> & _)|[(_ & _ & C)|(t & u & inner & _ & HH & HC)]].
    - exists []. split; [reflexivity|left; reflexivity].
    - exfalso. unfold parseHeader in C. destruct (parseTagAndLength s) as [[t s1]|]; [|discriminate]. cbn [fp_explicit pVersion isRaw isFlag negb andb] in C. unfold matchBody in C. cbn [getUniversalType] in C.
      repeat match type of C with context [if ?x then _ else _] => destruct x; try discriminate | context [match ?x with _ => _ end] => destruct x; try discriminate end.
    - apply parseHeader_explicit in HH as (id & len & n & tg & full & -> & ET & HI & HD & Hn & HE & any & ut & comp & HU & -> & Hc & Ht); [|reflexivity|reflexivity]. cbn [pVersion fp_tag fp_application] in ET, HI. assert (tg = 0) as -> by congruence. cbn [getUniversalType] in HU. assert (any = false /\ ut = TagInteger /\ comp = false) as (-> & -> & ->) by (repeat split; congruence).
      specialize (Hc eq_refl). unfold expected in Ht. cbn [fp_tag fp_explicit pVersion] in Ht. destruct (Ht eq_refl) as [Hcl Htg]. rewrite Hc, Hcl, Htg in HE. cbn [parseContent] in HC. destruct (parseInt64 inner) as [z|] eqn:Ez; cbn [leafValue] in HC; [|congruence].
      exists ((id ++ len) ++ full). split; [rewrite <- !app_assoc; reflexivity|]. right. exists id, len, n, z, full. split; [reflexivity|]. split; [exact HI|]. split; [exact HD|]. split; [exact Hn|]. exists inner. split; [apply parseInt64_iff in Ez; tauto|exact HE].
  Qed.
  Lemma algorithm_parsed s v r : parseField X tyAlgorithm noParams (zeroVal tyAlgorithm) s = (v, Some r) -> exists f, s = f ++ r /\ exists o params, algorithm_loose o params f.
  Proof.
    intros H. assert (G : exists f, s = f ++ r /\ algorithm_loose (asOid (field 0 v)) (rawFull (field 1 v)) f) by (apply algorithm_iff; eauto). destruct G as (f & -> & G). exists f. split; [reflexivity|eauto].
  Qed.
  Lemma raw_element s v r : parseField X TyRaw noParams (zeroVal TyRaw) s = (v, Some r) -> exists f, s = f ++ r /\ some_element f.
  Proof. intros H. apply raw_parsed in H; try reflexivity. destruct H as (c & t & k & b & f & _ & -> & HE). exists f. split; [reflexivity|]. unfold some_element. eauto. Qed.
  Lemma certificate_sound b c : parseCertificateForGo K b = Some c -> certificate_loose K c b.
  Proof.
    intros H. apply parse_certificate_iff in H as (v & HU & HC). constructor.
    unfold unmarshal, tyCertificate in HU. apply struct_iff in HU as (full & inner & l & -> & HE & -> & HF). rewrite app_nil_r.
    apply (fields_inv K) in HF as (tbs & s1 & l1 & -> & HT & HF). apply (fields_inv K) in HF as (va & s2 & l2 & -> & HA & HF). apply (fields_inv K) in HF as (vs & s3 & l3 & -> & HS & _).
    cbn [tl zeroFields] in *. apply algorithm_parsed in HA as (alg & -> & HA). destruct (bits_value' _ _ _ _ HS) as (sb & sn & ->).
    assert (G : exists f, s2 = f ++ s3 /\ bit_string_loose (rightAlign sb sn) f) by (apply (bits_iff (zeroVal TyBits)); eauto). destruct G as (sig & -> & HS').
    unfold tyTbs in HT. apply struct_iff in HT as (ftbs & itbs & lt & -> & HEt & -> & HF).
    apply (fields_inv K) in HF as (v0 & t1 & k0 & -> & H0 & HF). apply (fields_inv K) in HF as (v1 & t2 & k1 & -> & H1 & HF). apply (fields_inv K) in HF as (v2 & t3 & k2 & -> & H2 & HF). apply (fields_inv K) in HF as (v3 & t4 & k3 & -> & H3 & HF).
    apply (fields_inv K) in HF as (v4 & t5 & k4 & -> & H4 & HF). apply (fields_inv K) in HF as (v5 & t6 & k5 & -> & H5 & HF). apply (fields_inv K) in HF as (v6 & t7 & k6 & -> & H6 & _). cbn [tl zeroFields] in *.
    apply version_parsed in H0 as (version & -> & HV). destruct (big_value _ _ _ _ H1) as (serial & ->). apply big_iff in H1 as (fserial & -> & HSer). apply algorithm_parsed in H2 as (salg & -> & HSA).
    apply raw_element in H3 as (issuer & -> & HI). apply raw_element in H5 as (subject & -> & HSub).
    unfold tyValidity in H4. apply struct_iff in H4 as (fval & ival & lv & -> & HEv & -> & HF). apply (fields_inv K) in HF as (w0 & r1 & m0 & -> & W0 & HF). apply (fields_inv K) in HF as (w1 & r2 & m1 & -> & W1 & _). cbn [tl zeroFields] in *.
    apply time_parsed in W0 as (nb & fnb & -> & -> & TB). apply time_parsed in W1 as (na & fna & -> & -> & TA).
    assert (HSP : exists f, t6 = f ++ t7 /\ unmarshalAll K tySpki f = Some v6). { unfold tySpki in H6. apply struct_local in H6 as (f & i & -> & _ & _ & HL). exists f. split; [reflexivity|]. apply unmarshalAll_some. unfold unmarshal. rewrite <- (app_nil_r f). apply HL. }
    destruct HSP as (spki & -> & HSP).
    exists ftbs, alg, sig, s3, version, fserial, salg, issuer, fval, subject, spki, t7, fnb, fna, r2.
    unfold parseCertificate in HC. cbn [field nth] in HC.
    destruct (parsePublicKey K _ v6) as [[key re]|] eqn:EK; [|discriminate].
    match type of HC with match ?x with _ => _ end = _ => destruct x as [raw|] eqn:ER; [|discriminate] end.
    destruct (parseName K _); [|discriminate]. destruct (parseName K _); [|discriminate]. destruct (parseExtensions K _); [|discriminate].
    match type of HC with Some ?x = _ => assert (c = x) as -> by congruence end. cbn [c_key c_serial c_not_before c_not_after asInt asTime]. clear HC ER.
    split; [exact HE|]. split; [exact HEt|]. split; [exact HEv|]. split; [exact HA|]. split; [eauto|]. split; [exact HV|]. split; [exact HSer|]. split; [exact HSA|]. split; [exact HI|]. split; [exact HSub|]. split; [exact TB|]. split; [exact TA|].
    destruct (getPublicKeyAlgorithmFromOID (asOid (field 0 (field 0 v6)))) eqn:EA.
    - right. assert (key = GNone) as -> by (cbn in EK; congruence). split; [reflexivity|].
      assert (GB : exists b n, field 1 v6 = VBits b n). { pose proof HSP as EU'. apply unmarshalAll_some in EU'. unfold unmarshal, tySpki in EU'. apply struct_iff in EU' as (full' & inner' & l & _ & _ & -> & HF).
        apply (fields_inv K) in HF as (x1 & y1 & z1 & -> & _ & HF). apply (fields_inv K) in HF as (x2 & y2 & z2 & -> & G2 & HF). cbn [field nth]. apply bits_value' in G2. exact G2. }
      destruct GB as (bb & n & EB). exists (asOid (field 0 (field 0 v6))), (rawFull (field 1 (field 0 v6))), (rightAlign bb n). split; [apply spki_iff; exists v6, bb, n; auto|].
      split; [|split]; intros C; rewrite C in EA; discriminate EA.
    - left. exists key. split; [|reflexivity]. apply key_iff. unfold parsePKIXPublicKey. rewrite HSP, EA, EK. reflexivity.
    - left. exists key. split; [|reflexivity]. apply key_iff. unfold parsePKIXPublicKey. rewrite HSP, EA, EK. reflexivity.
    - left. exists key. split; [|reflexivity]. apply key_iff. unfold parsePKIXPublicKey. rewrite HSP, EA, EK. reflexivity.
  Qed.
End F.
