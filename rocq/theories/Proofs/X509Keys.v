(** x509andr: public keys *)
From Coq Require Import Lia.
From Verif.Model Require Import Bytes Env Ber Asn1 Pkcs7 X509.
From Verif.Spec Require Import Ber Asn1 Asn1Value Pkcs7.
From Verif.Proofs Require Import BytesFacts BerFacts Asn1Codec Asn1Header Asn1Value Asn1Decode DerFacts DerSize Pkcs7Facts Pkcs7Parse Pkcs7Honest X509Facts.

Lemma be_lead x t : b2z x <> 0 -> 256 ^ zlen t <= be_val (x :: t) < 256 ^ (zlen t + 1).
Proof.
  intros H. rewrite be_val_cons, Z.pow_add_r by (pose proof (zlen_nonneg t); lia). change (256 ^ 1) with 256.
  pose proof (b2z_range x). pose proof (be_val_range t). pose proof (pow256_pos (zlen t) (zlen_nonneg t)). nia.
Qed.
Lemma be_unique x t y u : b2z x <> 0 -> b2z y <> 0 -> be_val (x :: t) = be_val (y :: u) -> x :: t = y :: u.
Proof.
  intros Hx Hy E. apply be_val_inj; [|exact E]. rewrite !zlen_cons. pose proof (be_lead x t Hx) as [A1 A2]. pose proof (be_lead y u Hy) as [B1 B2]. rewrite E in *.
  pose proof (zlen_nonneg t) as T. pose proof (zlen_nonneg u) as U.
  destruct (Z.lt_trichotomy (zlen t) (zlen u)) as [L|[L|L]]; [|lia|].
  - assert (256 ^ (zlen t + 1) <= 256 ^ zlen u) by (apply Z.pow_le_mono_r; lia). lia.
  - assert (256 ^ (zlen u + 1) <= 256 ^ zlen t) by (apply Z.pow_le_mono_r; lia). lia.
Qed.
Lemma bigBytes_of x t : b2z x <> 0 -> bigBytes (be_val (x :: t)) = x :: t.
Proof.
  intros Hx. pose proof (be_lead x t Hx) as [A1 A2]. pose proof (pow256_pos (zlen t) (zlen_nonneg t)). destruct (bigBytes_val (be_val (x :: t))) as [HV HB]; [lia|].
  destruct (bigBytes (be_val (x :: t))) as [|y u] eqn:E; [lia|]. symmetry. apply be_unique; [exact Hx|exact HB|]. symmetry. exact HV.
Qed.

(* the modulus as the unsigned value of its octets *)
Lemma fixModulus_unsigned x t n : integer_octets (x :: t) n -> 128 <= b2z x < 255 -> fixModulus n = be_val (x :: t).
Proof.
  intros HO Hx. apply parseBigInt_iff in HO. unfold parseBigInt in HO. destruct (negb (checkInteger (x :: t))); [discriminate|].
  destruct (Z.leb_spec 128 (b2z x)); [|lia]. rewrite be_acc0 in HO. unfold fixModulus. rewrite be_acc0.
  set (c := map notByte (x :: t)) in *. assert (n = - (be_val c + 1)) as -> by congruence.
  pose proof (be_val_range c). replace (Z.abs (- - (be_val c + 1) - 1)) with (be_val c) by lia.
  unfold c. cbn [map]. rewrite bigBytes_of by (rewrite notByte_val; lia). change (notByte x :: map notByte t) with (map notByte (x :: t)).
  rewrite map_map. f_equal. rewrite <- (map_id (x :: t)) at 2. apply map_ext. intros a. apply notByte_invol.
Qed.
Lemma fixModulus_nonneg n : 0 <= fixModulus n.
Proof. unfold fixModulus. rewrite be_acc0. apply be_val_range. Qed.

Lemma bitLen_zero n : 0 <= n -> bitLen n = 0 -> n = 0.
Proof. unfold bitLen. destruct (Z.eqb_spec n 0); [auto|]. intros H. pose proof (Z.log2_nonneg (Z.abs n)). lia. Qed.

Lemma rightAlign_whole b : rightAlign b (8 * zlen b) = b.
Proof. unfold rightAlign. rewrite Z.mul_comm, Z.mod_mul by lia. reflexivity. Qed.

(* key material determines the numbers *)
Lemma keyMaterial_inj l : forall l', keyMaterial l = keyMaterial l' -> Forall (fun z => zlen (encodeBigInt z) < 2 ^ 31) l -> Forall (fun z => zlen (encodeBigInt z) < 2 ^ 31) l' -> l = l'.
Proof.
  assert (NE : forall a (b : bytes), appendTagAndLength a ++ b <> []). { intros a b C. apply app_eq_nil in C as [C _]. exact (appendTagAndLength_nonempty _ C). }
  induction l as [|z l IH]; intros [|z' l'] H F F'; [reflexivity| | |]; unfold keyMaterial in H; cbn [flat_map] in H; cbv zeta in H; rewrite <- ?app_assoc in H.
  - symmetry in H. exfalso. exact (NE _ _ H).
  - exfalso. exact (NE _ _ H).
  - inversion F as [|? ? Hz F1]; inversion F' as [|? ? Hz' F1']; subst. pose proof (zlen_nonneg (encodeBigInt z)). pose proof (zlen_nonneg (encodeBigInt z')).
    assert (V : forall w, zlen (encodeBigInt w) < 2 ^ 31 -> valid_header {| tl_class := 0; tl_tag := TagInteger; tl_length := zlen (encodeBigInt w); tl_compound := false |}).
    { intros w Hw. pose proof (zlen_nonneg (encodeBigInt w)). unfold valid_header, TagInteger, max_int32. cbn [tl_class tl_tag tl_length]. lia. }
    pose proof (f_equal parseTagAndLength H) as HP. rewrite !parse_append_header in HP by (apply V; assumption).
    assert (HL : zlen (encodeBigInt z) = zlen (encodeBigInt z')) by congruence.
    match type of HP with Some (_, ?a) = Some (_, ?b) => assert (HB : a = b) by congruence end.
    assert (encodeBigInt z = encodeBigInt z' /\ flat_map (fun z => let b := encodeBigInt z in appendTagAndLength {| tl_class := 0; tl_tag := TagInteger; tl_length := zlen b; tl_compound := false |} ++ b) l =
             flat_map (fun z => let b := encodeBigInt z in appendTagAndLength {| tl_class := 0; tl_tag := TagInteger; tl_length := zlen b; tl_compound := false |} ++ b) l') as [E1 E2].
    { split.
      - apply (f_equal (takeZ (zlen (encodeBigInt z)))) in HB. rewrite takeZ_app in HB by reflexivity. rewrite takeZ_app in HB by exact HL. exact HB.
      - apply (f_equal (dropZ (zlen (encodeBigInt z)))) in HB. rewrite dropZ_app in HB by reflexivity. rewrite dropZ_app in HB by exact HL. exact HB. }
    f_equal; [|apply IH; assumption]. pose proof (parse_encode_big z) as P. rewrite E1, parse_encode_big in P. congruence.
Qed.

Section F.
  Variable K : xenv.
  Notation X := (k_text K).

  (* re-encoding an RSA key and parsing it again *)
  Lemma marshal_pkix n e b : 0 < n -> 0 < e < 2 ^ 63 -> marshalPKIXPublicKey K n e = Some b -> zlen b < 2 ^ 31 -> parsePKIXPublicKey K b = Some (GRsa n e).
  Proof.
    intros Hn He H HL. unfold marshalPKIXPublicKey in H. destruct (marshal X tyPkcs1 (VStruct [] [VInt n; VInt e])) as [pk|] eqn:Epk; [|discriminate].
    unfold marshal, tyPkixPublicKey in H. rewrite makeField_struct in H. rewrite !makeFields_cons in H.
    assert (EA : makeField X tyAlgorithm noParams (VStruct [] [VOid oidPublicKeyRSA; VRaw 0 5 false [] []]) = Some [x30; x0d; x06; x09; x2a; x86; x48; x86; xf7; x0d; x01; x01; x01; x05; x00]) by reflexivity.
    rewrite EA in H. set (ai := [x30; x0d; x06; x09; x2a; x86; x48; x86; xf7; x0d; x01; x01; x01; x05; x00]) in *.
    assert (EB : makeField X TyBits noParams (VBits pk (8 * zlen pk)) = Some (appendTagAndLength (hd 0 3 (zlen (x00 :: pk)) false) ++ x00 :: pk)).
    { unfold makeField. cbn [andb negb orb fp_omitEmpty fp_optional fp_set fp_stringType noParams getUniversalType]. unfold wrapTags. cbn [fp_tag noParams].
      change (0 =? 0) with true. cbv iota. unfold encodeBitString. rewrite Z.mul_comm, Z.mod_mul by lia. reflexivity. }
    rewrite EB in H. change (makeFields X FNil []) with (Some ([] : bytes)) in H. cbv iota in H. rewrite app_nil_r in H.
    set (bs := appendTagAndLength (hd 0 3 (zlen (x00 :: pk)) false) ++ x00 :: pk) in *. set (body := ai ++ bs) in *.
    assert (b = appendTagAndLength (hd 0 16 (zlen body) true) ++ body) as -> by congruence. clear H. rewrite zlen_app in HL. pose proof (zlen_nonneg (appendTagAndLength (hd 0 16 (zlen body) true))) as L1.
    assert (HL2 : zlen body < 2 ^ 31) by lia.
    assert (LB : zlen (x00 :: pk) < 2 ^ 31). { unfold body, bs in HL2. rewrite !zlen_app in HL2. pose proof (zlen_nonneg ai). pose proof (zlen_nonneg (appendTagAndLength (hd 0 3 (zlen (x00 :: pk)) false))). lia. }
    assert (HE : element 0 16 true body (appendTagAndLength (hd 0 16 (zlen body) true) ++ body)). { apply header_element; unfold max_int32; lia. }
    assert (HB : element 0 3 false (x00 :: pk) bs). { apply header_element; unfold max_int32; lia. }
    set (spki := VStruct (appendTagAndLength (hd 0 16 (zlen body) true) ++ body) [VStruct [] [VOid oidPublicKeyRSA; VRaw 0 5 false [] [x05; x00]]; VBits pk (8 * zlen pk)]).
    assert (HU : unmarshalAll K tySpki (appendTagAndLength (hd 0 16 (zlen body) true) ++ body) = Some spki).
    { apply unmarshalAll_some. unfold unmarshal. rewrite <- (app_nil_r (appendTagAndLength _ ++ body)). unfold tySpki.
      rewrite (field_parse X (TyStruct true (FCons noParams tyAlgorithm (FCons noParams TyBits FNil))) noParams _ 0 16 true body _ [] false TagSequence true); try exact HE; try reflexivity; try discriminate; try (right; auto; fail).
      cbn [parseContent zeroVal fieldsOf]. unfold body at 1. rewrite parseFields_cons. cbn [zeroFields].
      assert (EP : forall r, parseField X tyAlgorithm noParams (zeroVal tyAlgorithm) (ai ++ r) = (VStruct [] [VOid oidPublicKeyRSA; VRaw 0 5 false [] [x05; x00]], Some r)).
      { intros r. assert (HAE : element 0 16 true (dropZ 2 ai) ai). { exists [x30], [x0d]. split; [reflexivity|]. split; [|left; split; [change (zlen (dropZ 2 ai)) with 13; lia|reflexivity]]. split; [lia|]. left. split; [lia|reflexivity]. }
        unfold tyAlgorithm. rewrite (field_parse X (TyStruct false (FCons noParams TyOid (FCons pOptional TyRaw FNil))) noParams _ 0 16 true (dropZ 2 ai) ai r false TagSequence true); try exact HAE; try reflexivity; try discriminate; try (right; auto; fail). }
      rewrite EP. rewrite parseFields_cons. cbn [tl]. rewrite <- (app_nil_r bs).
      rewrite (field_parse X TyBits noParams _ 0 3 false (x00 :: pk) bs [] false TagBitString false); try exact HB; try reflexivity; try discriminate; try (right; auto; fail).
      cbn [parseContent]. assert (EBits : parseBitString (x00 :: pk) = Some (pk, 8 * zlen pk)).
      { apply parseBits_iff. exists 0. repeat split; try lia. intros _. rewrite Z.mod_1_r. reflexivity. }
      rewrite EBits. cbn [leafValue fst snd parseFields]. reflexivity. }
    unfold parsePKIXPublicKey. rewrite HU. cbn [spki field nth asOid]. change (getPublicKeyAlgorithmFromOID oidPublicKeyRSA) with RSA. unfold parsePublicKey. cbn [spki field nth]. cbv beta iota zeta. rewrite rightAlign_whole.
    assert (HP : unmarshalAll K tyPkcs1 pk = Some (VStruct [] [VInt n; VInt e])).
    { apply unmarshalAll_some. unfold unmarshal. rewrite <- (app_nil_r pk). apply (proj1 (value_round_trip X)); [|exact Epk|rewrite zlen_cons in LB; lia].
      cbn [storable tyPkcs1 storable_fields]. assert (M : mandatory noParams) by (repeat split; try reflexivity; try discriminate). repeat split; try exact M; try lia. all: try discriminate; try congruence. }
    rewrite HP. cbn [field nth asInt]. destruct (Z.leb_spec n 0); [lia|]. destruct (Z.leb_spec e 0); [lia|]. reflexivity.
  Qed.

  Lemma int64_value p old s v r : fp_optional p = false -> fp_explicit p = false -> parseField X TyInt p old s = (v, Some r) -> exists z, v = VInt z /\ - 2 ^ 63 <= z < 2 ^ 63.
  Proof.
    intros Ho He H. apply parseField_mandatory in H; [|discriminate|exact Ho|exact He]. destruct H as (t & u & inner & _ & _ & HC). cbn [parseContent] in HC.
    destruct (parseInt64 inner) as [z|] eqn:E; cbn [leafValue] in HC; [|congruence]. exists z. split; [congruence|]. apply encode_parse_int64 in E as [E _]. exact E.
  Qed.
  Lemma rsa_key spki n e re : parsePublicKey K RSA spki = Some (GRsa n e, re) -> 0 <= n /\ 0 < e < 2 ^ 63 /\ (re = false -> 0 < n).
  Proof.
    unfold parsePublicKey. destruct (unmarshalAll K tyPkcs1 _) as [p|] eqn:E; [|discriminate]. apply unmarshalAll_some in E. unfold unmarshal in E.
    apply struct_local in E as (f & i & _ & _ & (l & -> & HF) & _). apply fields_inv in HF as (v1 & s1 & l1 & -> & _ & HF). apply fields_inv in HF as (v2 & s2 & l2 & -> & HI & _).
    apply int64_value in HI as (z & -> & Hz); [|reflexivity|reflexivity]. cbn [field nth asInt]. destruct (Z.leb_spec (asInt v1) 0) as [L|L]; (destruct (Z.leb_spec z 0); [discriminate|]); intros H1; apply (f_equal (fun x => match x with Some y => y | None => (GNone, false) end)) in H1.
    - assert (n = fixModulus (asInt v1) /\ e = z /\ re = true) as (-> & -> & ->) by (repeat split; congruence). pose proof (fixModulus_nonneg (asInt v1)). repeat split; try lia; try discriminate.
    - assert (n = asInt v1 /\ e = z /\ re = false) as (-> & -> & ->) by (repeat split; congruence). repeat split; lia.
  Qed.
  Lemma parsePublicKey_kind algo spki k re : parsePublicKey K algo spki = Some (k, re) ->
    match algo, k with RSA, GRsa _ _ => True | DSA, GDsa _ _ _ _ => re = false | ECDSA, GEcdsa _ _ _ => re = false | UnknownKey, GNone => re = false | _, _ => False end.
  Proof.
    unfold parsePublicKey. destruct algo.
    - intros H. assert (k = GNone /\ re = false) as [-> ->] by (split; congruence). reflexivity.
    - destruct (unmarshalAll K tyPkcs1 _); [|discriminate]. destruct (_ <=? 0); destruct (_ <=? 0); try discriminate; intros H; match type of H with Some (?a, _) = _ => assert (k = a) as -> by congruence end; exact I.
    - destruct (unmarshalAll K TyBig _); [|discriminate]. destruct (unmarshalAll K tyDsaParams _); [|discriminate]. destruct (_ || _); [discriminate|]. intros H. match type of H with Some (?a, _) = _ => assert (k = a) as -> by congruence end. congruence.
    - destruct (unmarshalAll K TyOid _); [|discriminate]. destruct (namedCurveFromOID _); [|discriminate]. destruct (ellipticUnmarshal K _ _) as [[x y]|]; [|discriminate]. intros H. match type of H with Some (?a, _) = _ => assert (k = a) as -> by congruence end. congruence.
  Qed.

  (* the key of a certificate is the key its public key information holds *)
  Lemma key_of_certificate b c : parseCertificateForGo K b = Some c -> zlen (c_spki c) < 2 ^ 31 -> (forall k, c_key c <> KRsa k 0) ->
    (c_key c = KOther [] /\ parsePKIXPublicKey K (c_spki c) = None) \/ exists k, parsePKIXPublicKey K (c_spki c) = Some k /\ c_key c = pubkeyOf k.
  Proof.
    intros H HL HZ. apply parse_certificate_iff in H as (v & HU & HC). apply certificate_spki in HU as (full & _ & _ & _ & _ & HS). cbv zeta in HS.
    unfold parseCertificate in HC. set (spki := field 6 (field 0 v)) in *. set (algo := getPublicKeyAlgorithmFromOID (asOid (field 0 (field 0 spki)))) in *.
    destruct (parsePublicKey K algo spki) as [[key re]|] eqn:EK; [|discriminate].
    destruct (match key with GRsa n e => if re then marshalPKIXPublicKey K n e else Some (structRaw spki) | _ => Some (structRaw spki) end) as [raw|] eqn:ER; [|discriminate].
    destruct (parseName K _); [|discriminate]. destruct (parseName K _); [|discriminate]. destruct (parseExtensions K _); [|discriminate].
    match type of HC with Some ?x = _ => assert (c = x) as -> by congruence end. cbn [c_spki c_key] in *. clear HC.
    assert (HSelf : raw = structRaw spki -> parsePKIXPublicKey K raw = match algo with UnknownKey => None | _ => Some key end).
    { intros ->. unfold parsePKIXPublicKey. rewrite (proj2 (unmarshalAll_some K tySpki _ _) HS). fold algo. clearbody algo. revert EK. destruct algo; intros EK; rewrite ?EK; reflexivity. }
    pose proof (parsePublicKey_kind _ _ _ _ EK) as HKd. destruct key as [n e|y p q g|cv x y|].
    - right. destruct algo eqn:Ea; try contradiction. destruct (rsa_key _ _ _ _ EK) as (Hn & He & _). assert (0 < n). { destruct (Z.eq_dec n 0) as [->|]; [|lia]. exfalso. exact (HZ _ eq_refl). }
      destruct re; [exists (GRsa n e); split; [apply marshal_pkix; assumption|reflexivity]|]. exists (GRsa n e). split; [|reflexivity]. rewrite HSelf by congruence. reflexivity.
    - right. destruct algo eqn:Ea; try contradiction. eexists. split; [rewrite HSelf by congruence; reflexivity|reflexivity].
    - right. destruct algo eqn:Ea; try contradiction. eexists. split; [rewrite HSelf by congruence; reflexivity|reflexivity].
    - left. destruct algo eqn:Ea; try contradiction. split; [reflexivity|]. rewrite HSelf by congruence. reflexivity.
  Qed.
End F.
