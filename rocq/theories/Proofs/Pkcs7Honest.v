(** pkcs7.Parse on a DER SignedData *)
From Coq Require Import Lia.
From Verif.Model Require Import Bytes Env Ber Asn1 Pkcs7.
From Verif.Spec Require Import Ber Asn1 Asn1Value Pkcs7.
From Verif.Proofs Require Import BytesFacts BerFacts Asn1Codec Asn1Header Asn1Value Asn1Decode DerFacts DerSize Pkcs7Facts Pkcs7Parse.

Lemma header_parse ty p c t k b f r any ut comp : fp_explicit p = false -> getUniversalType ty = Some (any, ut, comp) -> element c t k b f ->
  (let '(ec, et, anyTag) := expected p any (adjustTag p (hd c t (zlen b) k) ut) in anyTag = true \/ (c = ec /\ t = et)) -> (any = true \/ k = comp) ->
  parseHeader ty p (f ++ r) = HMatch (hd c t (zlen b) k) (adjustTag p (hd c t (zlen b) k) ut) b r.
Proof.
  intros He HU HE Hx Hk. unfold parseHeader. rewrite (element_parse _ _ _ _ _ r HE), He. unfold matchBody. rewrite HU.
  destruct (expected p any (adjustTag p (hd c t (zlen b) k) ut)) as [[ec et] ea]. cbn [hd tl_class tl_tag tl_length tl_compound] in *.
  assert (E1 : negb ea && (negb (c =? ec) || negb (t =? et)) = false). { destruct Hx as [-> |[-> ->]]; [reflexivity|]. rewrite !Z.eqb_refl. apply andb_false_r. }
  assert (E2 : negb any && negb (Bool.eqb k comp) = false). { destruct Hk as [-> | ->]; [reflexivity|]. rewrite Bool.eqb_reflx. apply andb_false_r. }
  rewrite E1, E2. cbn [orb]. destruct (Z.ltb_spec (zlen (b ++ r)) (zlen b)) as [C|C]; [rewrite zlen_app in C; pose proof (zlen_nonneg r); lia|].
  rewrite takeZ_app, dropZ_app by reflexivity. reflexivity.
Qed.
Lemma header_absent ty p c t k b f r any ut comp : fp_explicit p = false -> getUniversalType ty = Some (any, ut, comp) -> element c t k b f ->
  (let '(ec, et, anyTag) := expected p any (adjustTag p (hd c t (zlen b) k) ut) in anyTag = false /\ (c <> ec \/ t <> et)) -> parseHeader ty p (f ++ r) = HMismatch.
Proof.
  intros He HU HE Hx. unfold parseHeader. rewrite (element_parse _ _ _ _ _ r HE), He. unfold matchBody. rewrite HU.
  destruct (expected p any (adjustTag p (hd c t (zlen b) k) ut)) as [[ec et] ea]. cbn [hd tl_class tl_tag tl_length tl_compound] in *. destruct Hx as (-> & Hx).
  assert (E1 : negb (c =? ec) || negb (t =? et) = true). { apply orb_true_iff. destruct Hx as [Hx|Hx]; [left|right]; apply negb_true_iff, Z.eqb_neq; exact Hx. }
  rewrite E1. reflexivity.
Qed.
Lemma element_nonempty c t k b f r : element c t k b f -> f ++ r <> [].
Proof. intros H C. apply app_eq_nil in C as [-> _]. apply element_size in H. pose proof (zlen_nonneg b). change (zlen ([] : bytes)) with 0 in H. lia. Qed.

Section H.
  Variable X : textenv.

  Lemma field_parse ty p old c t k b f r any ut comp : ty <> TyAny -> fp_explicit p = false -> getUniversalType ty = Some (any, ut, comp) -> element c t k b f ->
    (let '(ec, et, anyTag) := expected p any (adjustTag p (hd c t (zlen b) k) ut) in anyTag = true \/ (c = ec /\ t = et)) -> (any = true \/ k = comp) ->
    parseField X ty p old (f ++ r) = parseContent X ty old (hd c t (zlen b) k) (adjustTag p (hd c t (zlen b) k) ut) f b r.
  Proof.
    intros Hty He HU HE Hx Hk. rewrite (parseField_match X ty p old (f ++ r) _ _ _ _ (element_nonempty _ _ _ _ _ _ HE) Hty (header_parse ty p c t k b f r any ut comp He HU HE Hx Hk)).
    rewrite zlen_app, Z.add_simpl_r, takeZ_app by reflexivity. reflexivity.
  Qed.
  Lemma field_absent ty p old c t k b f r any ut comp : ty <> TyAny -> fp_optional p = true -> fp_default p = None -> fp_explicit p = false -> getUniversalType ty = Some (any, ut, comp) -> element c t k b f ->
    (let '(ec, et, anyTag) := expected p any (adjustTag p (hd c t (zlen b) k) ut) in anyTag = false /\ (c <> ec \/ t <> et)) ->
    parseField X ty p old (f ++ r) = (old, Some (f ++ r)).
  Proof.
    intros Hty Ho Hd He HU HE Hx. pose proof (header_absent ty p c t k b f r any ut comp He HU HE Hx) as HH. pose proof (element_nonempty _ _ _ _ _ r HE) as HN.
    destruct (f ++ r) as [|x xs]; [congruence|]. destruct ty; try congruence; cbn [parseField]; rewrite HH; unfold setDefaultValue; rewrite Ho, Hd; reflexivity.
  Qed.
  Lemma field_end ty p old : fp_optional p = true -> fp_default p = None -> parseField X ty p old [] = (old, Some []).
  Proof. intros Ho Hd. destruct ty; cbn [parseField]; unfold setDefaultValue; rewrite Ho, Hd; reflexivity. Qed.

  Lemma oid_field old o f r : oid_element o f -> valid_oid o -> zlen f < 2 ^ 31 -> parseField X TyOid noParams old (f ++ r) = (VOid o, Some r).
  Proof.
    intros (oc & HO & HD) HV HL. pose proof (der_element_size _ _ _ _ _ HD). apply der_element_element in HD; [|lia].
    rewrite (field_parse TyOid noParams old 0 6 false oc f r false TagOID false); try assumption; try reflexivity; try discriminate; try (right; auto; fail).
    cbn [parseContent]. rewrite (parse_encode_oid o oc HV (oid_der_encode o oc HV HO)). reflexivity.
  Qed.
  Lemma big_field old z f r : integer_element z f -> zlen f < 2 ^ 31 -> parseField X TyBig noParams old (f ++ r) = (VInt z, Some r).
  Proof.
    intros (oc & HO & HD) HL. pose proof (der_element_size _ _ _ _ _ HD). apply der_element_element in HD; [|lia].
    rewrite (field_parse TyBig noParams old 0 2 false oc f r false TagInteger false); try assumption; try reflexivity; try discriminate; try (right; auto; fail).
    cbn [parseContent]. apply parseBigInt_iff in HO. rewrite HO. reflexivity.
  Qed.
  Lemma int_field d old z f r : integer_element z f -> - 2 ^ 63 <= z < 2 ^ 63 -> zlen f < 2 ^ 31 -> parseField X TyInt (pDefault d) old (f ++ r) = (VInt z, Some r).
  Proof.
    intros (oc & HO & HD) HR HL. pose proof (der_element_size _ _ _ _ _ HD). apply der_element_element in HD; [|lia].
    rewrite (field_parse TyInt (pDefault d) old 0 2 false oc f r false TagInteger false); try assumption; try reflexivity; try discriminate; try (right; auto; fail).
    cbn [parseContent]. assert (E : parseInt64 oc = Some z); [|rewrite E; reflexivity].
    rewrite (integer_octets_unique _ _ _ HO (proj1 (encodeInt64_octets z HR))). apply parse_encode_int64. exact HR.
  Qed.
  Lemma bytes_field old b f r : der_element 0 4 false b f -> zlen f < 2 ^ 31 -> parseField X TyBytes noParams old (f ++ r) = (VBytes b, Some r).
  Proof.
    intros HD HL. pose proof (der_element_size _ _ _ _ _ HD). apply der_element_element in HD; [|lia].
    rewrite (field_parse TyBytes noParams old 0 4 false b f r false TagOctetString false); try assumption; try reflexivity; try discriminate; try (right; auto; fail).
  Qed.
  Lemma struct_field fs old c f r l : der_element 0 16 true c f -> zlen f < 2 ^ 31 -> parseFields X fs (fieldsOf old (zeroFields fs)) c = (l, true) ->
    parseField X (TyStruct false fs) noParams old (f ++ r) = (VStruct [] l, Some r).
  Proof.
    intros HD HL HF. pose proof (der_element_size _ _ _ _ _ HD). apply der_element_element in HD; [|lia].
    rewrite (field_parse (TyStruct false fs) noParams old 0 16 true c f r false TagSequence true); try assumption; try reflexivity; try discriminate; try (right; auto; fail).
    cbn [parseContent]. rewrite HF. reflexivity.
  Qed.
  Lemma count_seqs fields : forall fs fuel, Forall (fun f => exists c, element 0 16 true c f) fs -> (List.length (concat fs) <= fuel)%nat ->
    countElements fuel (TyStruct false fields) (concat fs) = Some (List.length fs).
  Proof.
    induction fs as [|f fs IH]; intros fuel HF HL; [destruct fuel; reflexivity|]. inversion HF as [|? ? (c & HE) HF']; subst. cbn [concat] in *. rewrite app_length in HL.
    pose proof (element_nonempty _ _ _ _ _ (concat fs) HE) as HN. pose proof (element_parse _ _ _ _ _ (concat fs) HE) as HP. pose proof (element_size _ _ _ _ _ HE) as HS.
    assert (HL1 : (2 <= List.length f)%nat). { pose proof (zlen_nonneg c). unfold zlen in *. lia. }
    destruct (f ++ concat fs) as [|x xs] eqn:EF; [congruence|]. destruct fuel as [|fuel]; [lia|]. cbn [countElements getUniversalType]. rewrite HP. cbn [hd tl_class tl_tag tl_length tl_compound].
    change (isStringTag 16) with false. change (16 =? TagGeneralizedTime) with false. change (16 =? TagUTCTime) with false. change (16 =? TagSequence) with true. cbv zeta. cbn [orb negb andb Bool.eqb].
    change (0 =? ClassUniversal) with true. cbn [negb orb andb]. destruct (Z.ltb_spec (zlen (c ++ concat fs)) (zlen c)) as [C|C]; [rewrite zlen_app in C; pose proof (zlen_nonneg (concat fs)); lia|].
    rewrite dropZ_app by reflexivity. rewrite IH; [reflexivity|exact HF'|lia].
  Qed.
  Lemma parse_seqs elem : forall vs fs, Forall2 (fun v f => forall r, parseField X elem noParams (zeroVal elem) (f ++ r) = (v, Some r)) vs fs ->
    parseElems X elem (List.length fs) (concat fs) = Some vs.
  Proof.
    induction 1 as [|v f vs fs H F IH]; [reflexivity|]. cbn [List.length concat parseElems]. rewrite H. fold (parseElems X elem). rewrite IH. reflexivity.
  Qed.
  (* a slice of structs *)
  Lemma slice_field fields p old c t b f r vs fs : fp_explicit p = false -> element c t true b f -> b = concat fs ->
    (let '(ec, et, anyTag) := expected p false (adjustTag p (hd c t (zlen b) true) TagSequence) in anyTag = true \/ (c = ec /\ t = et)) ->
    Forall (fun f => exists c, element 0 16 true c f) fs ->
    Forall2 (fun v f => forall r, parseField X (TyStruct false fields) noParams (zeroVal (TyStruct false fields)) (f ++ r) = (v, Some r)) vs fs ->
    parseField X (TySlice false (TyStruct false fields)) p old (f ++ r) = (VSlice vs, Some r).
  Proof.
    intros He HE -> Hx HF H2. rewrite (field_parse (TySlice false (TyStruct false fields)) p old c t true (concat fs) f r false TagSequence true); try assumption; try reflexivity; try discriminate; try (right; reflexivity).
    cbn [parseContent]. rewrite count_seqs by (try exact HF; lia). rewrite (parse_seqs _ _ _ H2). reflexivity.
  Qed.

  Lemma element_concat (l : list bytes) f : In f l -> zlen f <= zlen (concat l).
  Proof. induction l as [|x l IH]; [contradiction|]. cbn [concat]. rewrite zlen_app. pose proof (zlen_nonneg x). pose proof (zlen_nonneg (concat l)). intros [-> |HI]; [lia|]. specialize (IH HI). lia. Qed.

  Lemma algorithm_field a f : algorithm_der a f -> valid_oid (fst a) -> zlen f < 2 ^ 31 ->
    exists v, asOid (field 0 v) = fst a /\ forall old r, parseField X tyAlgorithm noParams (VStruct old (zeroFields (FCons noParams TyOid (FCons pOptional TyRaw FNil)))) (f ++ r) = (v, Some r).
  Proof.
    intros (o & params & HO & HP & HS) HV HL. pose proof (der_element_size _ _ _ _ _ HS) as HZ. cbn [concat] in HZ. rewrite !zlen_app in HZ. pose proof (zlen_nonneg o). pose proof (zlen_nonneg params). change (zlen ([] : bytes)) with 0 in HZ.
    destruct (snd a) as [e|]; cbn [optional] in HP.
    - destruct HP as ((c & t & k & b & HE) & ->). exists (VStruct [] [VOid (fst a); VRaw c t k b e]). split; [reflexivity|]. intros old r. apply (struct_field _ _ (concat [o; e])); [exact HS|exact HL|].
      cbn [concat fieldsOf zeroFields]. rewrite parseFields_cons, (oid_field _ (fst a) o) by (try assumption; lia). rewrite parseFields_cons. rewrite (raw_parse X pOptional _ c t k b e []) by (try reflexivity; exact HE). reflexivity.
    - subst params. exists (VStruct [] [VOid (fst a); zeroVal TyRaw]). split; [reflexivity|]. intros old r. apply (struct_field _ _ (concat [o; []])); [exact HS|exact HL|].
      cbn [concat fieldsOf zeroFields app]. rewrite parseFields_cons, (oid_field _ (fst a) o) by (try assumption; lia). reflexivity.
  Qed.

  Definition attr_of (x : oid * bytes) (a : p7_attr) : Prop := said a = x /\ attribute_ok a.
  Lemma attribute_field a f : attribute_der (fst a, snd a) f -> valid_oid (fst a) -> is_element (snd a) -> zlen f < 2 ^ 31 ->
    exists v, attr_of a (signerAttribute v) /\ forall r, parseField X tyAttribute noParams (zeroVal tyAttribute) (f ++ r) = (v, Some r).
  Proof.
    intros (oc & te & HO & HT & HS) HV (c & t & k & b & HE) HL. cbn [fst snd] in *. pose proof (der_element_size _ _ _ _ _ HS) as HZ. rewrite !zlen_app in HZ. pose proof (zlen_nonneg (snd a)).
    exists (VStruct [] [VOid (fst a); VRaw c t k b (snd a)]). split.
    { split; [destruct a; reflexivity|]. split; [exact HV|]. exists c, t, k. exact HE. }
    intros r. apply (struct_field _ _ (te ++ snd a)); [exact HS|exact HL|]. cbn [fieldsOf zeroVal zeroFields tyAttribute]. rewrite parseFields_cons, (oid_field _ (fst a) te) by (try assumption; try lia; exists oc; auto).
    rewrite parseFields_cons. match goal with |- context [parseField X TyRaw pSet ?o _] => pose proof (raw_parse X pSet o c t k b (snd a) [] eq_refl eq_refl HE) as HR end. rewrite app_nil_r in HR. rewrite HR. reflexivity.
  Qed.
  Lemma attributes_field tag l f old : tagged_attributes tag l f -> 0 <= tag -> Forall valid_oid (map fst l) -> zlen f < 2 ^ 31 ->
    exists vs, Forall2 attr_of l (map signerAttribute vs) /\ forall r, parseField X tyAttributes (pOptionalTag tag) old (f ++ r) = (VSlice vs, Some r).
  Proof.
    intros (c & HA & HE & HD) Ht HV HL. pose proof (der_element_size _ _ _ _ _ HD) as HZ. apply der_element_element in HD; [|lia].
    assert (G : exists vs fs, c = concat fs /\ Forall2 attr_of l (map signerAttribute vs) /\ Forall (fun f => exists c, element 0 16 true c f) fs /\
      Forall2 (fun v f => forall r, parseField X tyAttribute noParams (zeroVal tyAttribute) (f ++ r) = (v, Some r)) vs fs).
    { assert (HLc : zlen c < 2 ^ 31) by lia. clear HD HZ HL f. revert HE HV HLc. induction HA as [|a f l fs Hf Hfs IH]; intros HE HV HLc.
      - exists [], []. repeat split; constructor.
      - inversion HE; inversion HV; subst. rewrite zlen_app in HLc. pose proof (zlen_nonneg f). pose proof (zlen_nonneg fs). destruct IH as (vs & gs & -> & H1' & H2' & H3'); try assumption; [lia|].
        destruct (attribute_field a f) as (v & Hv1 & Hv2); [destruct a; exact Hf|assumption|assumption|lia|]. exists (v :: vs), (f :: gs). split; [reflexivity|]. split; [constructor; assumption|]. split; [|constructor; assumption].
        constructor; [|assumption]. destruct Hf as (oc & te & _ & _ & Hf). eexists. eapply der_element_element; [exact Hf|]. apply der_element_size in Hf. lia. }
    destruct G as (vs & fs & -> & H1 & H2 & H3). exists vs. split; [exact H1|]. intros r. unfold tyAttributes, tyAttribute. apply (slice_field _ _ _ 2 tag (concat fs) f r vs fs); try assumption; try reflexivity.
    right. auto.
  Qed.
End H.

Section S.
  Variable Q : p7env.
  Notation X := (q_text Q).

  Lemma attr_of_said l : forall l', Forall2 attr_of l l' -> map said l' = l /\ Forall attribute_ok l'.
  Proof. induction 1 as [|x a l l' (H1 & H2) F (IH1 & IH2)]; [split; [reflexivity|constructor]|]. cbn [map]. split; [congruence|constructor; assumption]. Qed.

  (* an optional attribute list before another element or the end *)
  Lemma optional_attributes tag x f : optional (tagged_attributes tag) x f -> 0 <= tag -> Forall valid_oid (map fst (present x)) -> zlen f < 2 ^ 31 ->
    exists v, map said (map signerAttribute (asSlice v)) = present x /\ Forall attribute_ok (map signerAttribute (asSlice v)) /\
      forall r, (r = [] \/ exists g r' k b, r = g ++ r' /\ element 0 16 k b g) -> parseField X tyAttributes (pOptionalTag tag) VNil (f ++ r) = (v, Some r).
  Proof.
    intros Hx Ht HV HL. destruct x as [l|]; cbn [optional present] in *.
    - destruct (attributes_field X tag l f VNil Hx Ht HV HL) as (vs & H1 & H2). apply attr_of_said in H1 as (H1 & H3). exists (VSlice vs). split; [exact H1|]. split; [exact H3|]. intros r _. apply H2.
    - subst f. exists VNil. split; [reflexivity|]. split; [constructor|]. intros r [-> |(g & r' & k & b & -> & HE)]; cbn [app].
      + apply field_end; reflexivity.
      + apply (field_absent X _ _ _ 0 16 k b g r' false TagSequence true); try reflexivity; try discriminate; [exact HE|]. cbn. split; [reflexivity|left; discriminate].
  Qed.

  Lemma seq_element parts f : seq_der parts f -> zlen f < 2 ^ 31 -> element 0 16 true (concat parts) f.
  Proof. intros H HL. pose proof (der_element_size _ _ _ _ _ H). apply der_element_element; [exact H|lia]. Qed.

  Lemma signer_field d f : signer_der d f -> Forall valid_oid (signer_oids d) -> zlen f < 2 ^ 31 ->
    exists v, signer_says (issuerName Q) d (signerInfoOf Q v) /\ forall r, parseField X tySignerInfo noParams (zeroVal tySignerInfo) (f ++ r) = (v, Some r).
  Proof.
    intros (ver & serial & iss & digest & attrs & enc & sig & unauth & HR & Hver & Hser & (ic & it & ik & ib & Hiss) & HS1 & Hdig & Hat & Henc & Hsig & Hun & HS) HV HL.
    unfold signer_oids in HV. inversion HV as [|? ? V1 HV']; subst. inversion HV' as [|? ? V2 HV'']; subst. apply Forall_app in HV'' as [V3 V4].
    pose proof (der_element_size _ _ _ _ _ HS) as HZ. cbn [concat] in HZ. rewrite !zlen_app in HZ. change (zlen ([] : bytes)) with 0 in HZ.
    pose proof (der_element_size _ _ _ _ _ HS1) as HZ1. cbn [concat] in HZ1. rewrite !zlen_app in HZ1. change (zlen ([] : bytes)) with 0 in HZ1.
    pose proof (zlen_nonneg ver). pose proof (zlen_nonneg iss). pose proof (zlen_nonneg digest). pose proof (zlen_nonneg attrs). pose proof (zlen_nonneg enc). pose proof (zlen_nonneg sig). pose proof (zlen_nonneg unauth). pose proof (zlen_nonneg serial). pose proof (zlen_nonneg (sd_issuer d)).
    destruct (algorithm_field X (sd_digest d) digest Hdig V1 ltac:(lia)) as (vdig & Ed & Pd). destruct (algorithm_field X (sd_enc d) enc Henc V2 ltac:(lia)) as (venc & Ee & Pe).
    destruct (optional_attributes 0 (sd_attrs d) attrs Hat ltac:(lia) V3 ltac:(lia)) as (vat & Ea & Oa & Pa).
    destruct (optional_attributes 1 (sd_unauth d) unauth Hun ltac:(lia) V4 ltac:(lia)) as (vun & Eu & Ou & Pu).
    assert (Piss : forall r, parseField X tyIssuerAndSerial noParams (zeroVal tyIssuerAndSerial) (iss ++ r) = (VStruct [] [VRaw ic it ik ib (sd_issuer d); VInt (sd_serial d)], Some r)).
    { intros r. apply (struct_field X _ _ (concat [sd_issuer d; serial])); [exact HS1|lia|]. cbn [concat]. rewrite parseFields_cons, (raw_parse X noParams _ ic it ik ib _ _ eq_refl eq_refl Hiss).
      rewrite parseFields_cons, (big_field X _ (sd_serial d) serial [] Hser) by lia. reflexivity. }
    exists (VStruct [] [VInt (sd_version d); VStruct [] [VRaw ic it ik ib (sd_issuer d); VInt (sd_serial d)]; vdig; vat; venc; VBytes (sd_signature d); vun]). split.
    { unfold signer_says, signerInfoOf. cbn [field nth ps_issuer ps_serial ps_digest_alg ps_enc_alg ps_enc_digest ps_auth_attrs rawFull asInt asBytes]. rewrite Ed, Ee. repeat split; assumption. }
    intros r. apply (struct_field X _ _ (concat [ver; iss; digest; attrs; enc; sig; unauth])); [exact HS|exact HL|]. cbn [concat].
    rewrite parseFields_cons, (int_field X 1 _ (sd_version d) ver _ Hver HR) by lia. cbn [zeroVal zeroFields fieldsOf tl tySignerInfo].
    rewrite parseFields_cons. change (VStruct [] [VRaw 0 0 false [] []; VNil]) with (zeroVal tyIssuerAndSerial). rewrite Piss. cbn [tl].
    rewrite parseFields_cons. cbn [tl]. match goal with |- context [parseField X tyAlgorithm noParams ?o (digest ++ _)] => change o with (VStruct [] (zeroFields (FCons noParams TyOid (FCons pOptional TyRaw FNil)))) end. rewrite Pd. cbn [tl].
    assert (HEenc : exists c, element 0 16 true c enc). { destruct Henc as (? & ? & _ & _ & Henc). eexists. apply seq_element; [exact Henc|lia]. }
    destruct HEenc as (ce & HEe).
    rewrite parseFields_cons. rewrite Pa by (right; do 4 eexists; split; [reflexivity|exact HEe]). cbn [tl].
    rewrite parseFields_cons. match goal with |- context [parseField X tyAlgorithm noParams ?o (enc ++ _)] => change o with (VStruct [] (zeroFields (FCons noParams TyOid (FCons pOptional TyRaw FNil)))) end. rewrite Pe. cbn [tl].
    rewrite parseFields_cons, (bytes_field X _ (sd_signature d) sig _ Hsig) by lia. cbn [tl].
    rewrite parseFields_cons, Pu by (left; reflexivity). reflexivity.
  Qed.

  Lemma oidEqual_refl o : oidEqual o o = true.
  Proof. induction o as [|x o IH]; [reflexivity|]. cbn [oidEqual]. rewrite Z.eqb_refl. exact IH. Qed.

  Lemma Forall2_map_exists {A B C} (R : A -> C -> Prop) (P : B -> C -> Prop) (g : A -> B -> Prop) l fs :
    (forall a f, In a l -> In f fs -> R a f -> exists v, g a v /\ P v f) -> Forall2 R l fs -> exists vs, Forall2 g l vs /\ Forall2 P vs fs.
  Proof.
    intros HX F. induction F as [|a f l fs H F IH]; [exists []; split; constructor|].
    destruct IH as (vs & H1 & H2); [intros a' f' Ha Hf; apply HX; right; assumption|]. destruct (HX a f (or_introl eq_refl) (or_introl eq_refl) H) as (v & H3 & H4). exists (v :: vs). split; constructor; assumption.
  Qed.

  (* the SignedData structure *)
  Lemma signed_data_parse d f certs : signed_data_der d f -> Forall valid_oid (doc_oids d) -> zlen f < 2 ^ 31 ->
    (match s_certs d with Some c => q_certs Q c = Some certs | None => certs = [] end) -> ber2der f = BRet f ->
    exists p, pkcs7Parse Q f = Ret (Some p) /\ p7_certs p = certs /\ object_says (issuerName Q) d p.
  Proof.
    intros (ver & digs & dset & ctype & cinfo & cs & sigs & sset & sdata & sdoid & expl & HR & Hver & Hdigs & HSd & Hct & HSc & Hcs & Hsigs & HSs & HS & Hoid & Hexp & HF) HV HL HC HB.
    unfold doc_oids in HV. inversion HV as [|? ? V1 HV']; subst. apply Forall_app in HV' as [V2 V3].
    pose proof (der_element_size _ _ _ _ _ HF) as ZF. cbn [concat] in ZF. rewrite !zlen_app in ZF. change (zlen ([] : bytes)) with 0 in ZF.
    pose proof (der_element_size _ _ _ _ _ Hexp) as ZE. pose proof (der_element_size _ _ _ _ _ HS) as ZS. cbn [concat] in ZS. rewrite !zlen_app in ZS. change (zlen ([] : bytes)) with 0 in ZS.
    pose proof (zlen_nonneg sdoid). pose proof (zlen_nonneg expl). pose proof (zlen_nonneg ver). pose proof (zlen_nonneg dset). pose proof (zlen_nonneg cinfo). pose proof (zlen_nonneg cs). pose proof (zlen_nonneg sset).
    pose proof (der_element_size _ _ _ _ _ HSc) as ZC. cbn [concat] in ZC. rewrite !zlen_app in ZC. change (zlen ([] : bytes)) with 0 in ZC. pose proof (zlen_nonneg ctype).
    pose proof (der_element_size _ _ _ _ _ HSd) as ZD. pose proof (der_element_size _ _ _ _ _ HSs) as ZSS.
    (* digest algorithms *)
    destruct (Forall2_map_exists algorithm_der (fun v f => forall r, parseField X tyAlgorithm noParams (zeroVal tyAlgorithm) (f ++ r) = (v, Some r)) (fun _ _ => True) (s_digests d) digs) as (vd & _ & Pd).
    { intros a g Ha Hg HA. assert (zlen g <= zlen (concat digs)) by (apply element_concat; exact Hg). rewrite Forall_map, Forall_forall in V2.
      destruct (algorithm_field X a g HA (V2 a Ha) ltac:(lia)) as (v & _ & Pv). exists v. split; [exact I|]. intros r. apply (Pv [] r). }
    { exact Hdigs. }
    assert (Ed : Forall (fun f => exists c, element 0 16 true c f) digs).
    { clear -Hdigs ZD ZS ZE ZF HL. apply Forall_forall. intros g Hg. assert (zlen g <= zlen (concat digs)) by (apply element_concat; exact Hg).
      assert (HA : exists a, algorithm_der a g). { clear -Hdigs Hg. induction Hdigs as [|a f l fs Hf F IH]; [contradiction|]. destruct Hg as [<-|Hg]; [eauto|auto]. }
      destruct HA as (a & ? & ? & _ & _ & HA). eexists. apply seq_element; [exact HA|]. pose proof (zlen_nonneg sset). pose proof (zlen_nonneg cs). pose proof (zlen_nonneg cinfo). pose proof (zlen_nonneg ver). pose proof (zlen_nonneg sdoid). lia. }
    (* signers *)
    destruct (Forall2_map_exists signer_der (fun v f => forall r, parseField X tySignerInfo noParams (zeroVal tySignerInfo) (f ++ r) = (v, Some r)) (fun s v => signer_says (issuerName Q) s (signerInfoOf Q v)) (s_signers d) sigs) as (vs & Hsay & Ps).
    { intros s g Hs Hg HG. assert (zlen g <= zlen (concat sigs)) by (apply element_concat; exact Hg).
      apply (signer_field s g HG); [|lia]. rewrite Forall_forall in V3 |- *. intros o Ho. apply V3. apply in_flat_map. eauto. }
    { exact Hsigs. }
    assert (Es : Forall (fun f => exists c, element 0 16 true c f) sigs).
    { clear -Hsigs ZSS ZS ZE ZF HL. apply Forall_forall. intros g Hg. assert (zlen g <= zlen (concat sigs)) by (apply element_concat; exact Hg).
      assert (HA : exists a, signer_der a g). { clear -Hsigs Hg. induction Hsigs as [|a f l fs Hf F IH]; [contradiction|]. destruct Hg as [<-|Hg]; [eauto|auto]. }
      destruct HA as (a & ? & ? & ? & ? & ? & ? & ? & ? & _ & _ & _ & _ & _ & _ & _ & _ & _ & _ & HA). eexists. apply seq_element; [exact HA|]. pose proof (zlen_nonneg dset). pose proof (zlen_nonneg cs). pose proof (zlen_nonneg cinfo). pose proof (zlen_nonneg ver). pose proof (zlen_nonneg sdoid). lia. }
    assert (HEs : element 0 17 true (concat sigs) sset) by (apply der_element_element; [exact HSs|lia]).
    assert (HEd : element 0 17 true (concat digs) dset) by (apply der_element_element; [exact HSd|lia]).
    (* certificates *)
    assert (Pc : exists vc, parseRawCertificates Q (structRaw vc) = Some certs /\ forall r, (exists r', r = sset ++ r') -> parseField X tyRawCertificates (pOptionalTag 0) (zeroVal tyRawCertificates) (cs ++ r) = (vc, Some r)).
    { destruct (s_certs d) as [c|]; cbn [optional] in Hcs.
      - pose proof (der_element_size _ _ _ _ _ Hcs) as ZCs. apply der_element_element in Hcs; [|lia]. exists (VStruct cs []). split.
        + cbn [structRaw parseRawCertificates]. pose proof (raw_parse X noParams (zeroVal TyRaw) 2 0 true c cs [] eq_refl eq_refl Hcs) as HRp. rewrite app_nil_r in HRp.
          destruct cs as [|y ys]; [change (zlen ([] : bytes)) with 0 in ZCs; pose proof (zlen_nonneg c); lia|]. unfold unmarshal, parseRawCertificates. unfold unmarshal. change (Pkcs7.X Q) with X. rewrite HRp. exact HC.
        + intros r _. rewrite (field_parse X tyRawCertificates (pOptionalTag 0) _ 2 0 true c cs r false TagSequence true); try reflexivity; try discriminate; [exact Hcs|right; auto|right; reflexivity].
      - subst cs. exists (zeroVal tyRawCertificates). split; [subst certs; reflexivity|]. intros r (r' & ->). cbn [app].
        apply (field_absent X _ _ _ 0 17 true (concat sigs) sset r' false TagSequence true); try reflexivity; try discriminate; [exact HEs|]. cbn. split; [reflexivity|left; discriminate]. }
    destruct Pc as (vc & Ecerts & Pc).
    set (cinfov := VStruct [] [VOid (s_content_type d); zeroVal TyRaw]).
    assert (PS : forall old r, old = zeroVal tySignedData -> parseField X tySignedData noParams old (sdata ++ r) = (VStruct [] [VInt (s_version d); VSlice vd; cinfov; vc; VNil; VSlice vs], Some r)).
    { intros old r ->. apply (struct_field X _ _ (concat [ver; dset; cinfo; cs; sset])); [exact HS|lia|]. cbn [concat].
      rewrite parseFields_cons, (int_field X 1 _ (s_version d) ver _ Hver HR) by lia. cbn [zeroVal zeroFields fieldsOf tl tySignedData].
      rewrite parseFields_cons. unfold tyAlgorithm at 1. rewrite (slice_field X _ pSet _ 0 17 (concat digs) dset _ vd digs); try reflexivity; [|exact HEd|right; split; reflexivity|exact Ed|exact Pd]. cbn [tl].
      rewrite parseFields_cons. unfold tyContentInfo at 1.
      rewrite (struct_field X _ _ (concat [ctype]) cinfo _ [VOid (s_content_type d); zeroVal TyRaw] HSc); [|lia|]. 2:{ cbn [concat]. rewrite parseFields_cons, (oid_field X _ (s_content_type d) ctype [] Hct V1) by lia. reflexivity. }
      cbn [tl]. rewrite parseFields_cons. match goal with |- context [parseField X tyRawCertificates _ ?o _] => change o with (zeroVal tyRawCertificates) end. rewrite Pc by (exists []; reflexivity). cbn [tl].
      rewrite parseFields_cons. rewrite (field_absent X _ _ _ 0 17 true (concat sigs) sset [] false TagSequence true); try reflexivity; try discriminate; [|exact HEs|cbn; split; [reflexivity|left; discriminate]]. cbn [tl].
      rewrite parseFields_cons. unfold tySignerInfo at 1. rewrite (slice_field X _ pSet _ 0 17 (concat sigs) sset _ vs sigs); try reflexivity; [exact HEs|right; split; reflexivity|exact Es|exact Ps]. }
    assert (HEx : element 2 0 true sdata expl) by (apply der_element_element; [exact Hexp|lia]).
    assert (PF : unmarshal X tyContentInfo f = (VStruct [] [VOid oidSignedData; VRaw 2 0 true sdata expl], Some [])).
    { unfold unmarshal. rewrite <- (app_nil_r f) at 1. apply (struct_field X _ _ (concat [sdoid; expl])); [exact HF|exact HL|]. cbn [concat]. rewrite app_nil_r.
      rewrite parseFields_cons, (oid_field X _ oidSignedData sdoid _ Hoid); [| |lia].
      2:{ exists 1, 2, [840; 113549; 1; 7; 2]. unfold max_int32. repeat split; try lia. repeat constructor; lia. }
      rewrite parseFields_cons. pose proof (element_parse _ _ _ _ _ [] HEx) as HPx. rewrite app_nil_r in HPx.
      assert (HH : parseHeader TyRaw (pExplicitTag 0) expl = HMatch (hd 2 0 (zlen sdata) true) (-1) sdata []).
      { unfold parseHeader. rewrite HPx. cbn [fp_explicit pExplicitTag]. assert (HN : sdata ++ [] <> []). { rewrite app_nil_r. intros ->. change (zlen ([] : bytes)) with 0 in ZS. pose proof (zlen_nonneg sset). lia. }
        destruct (sdata ++ []) as [|y ys] eqn:EY; [congruence|]. cbn [hd tl_class tl_tag tl_compound tl_length fp_application fp_tag isRaw]. rewrite orb_true_r. change ((2 =? ClassContextSpecific) && (0 =? 0) && true) with true. cbv iota.
        rewrite <- EY. unfold matchBody. cbn [getUniversalType expected fp_tag fp_explicit pExplicitTag hd tl_length negb andb orb]. rewrite app_nil_r. destruct (Z.ltb_spec (zlen sdata) (zlen sdata)); [lia|].
        rewrite takeZ_all, dropZ_all by lia. reflexivity. }
      rewrite (parseField_match X TyRaw (pExplicitTag 0) _ expl _ _ _ _ ltac:(intros ->; change (zlen ([] : bytes)) with 0 in ZE; pose proof (zlen_nonneg sdata); lia) ltac:(discriminate) HH).
      cbn [parseContent hd tl_class tl_tag tl_compound]. change (zlen ([] : bytes)) with 0. rewrite Z.sub_0_r, takeZ_all by lia. reflexivity. }
    unfold pkcs7Parse. rewrite HB. change (Pkcs7.X Q) with X. rewrite PF. destruct f as [|y ys]; [change (zlen ([] : bytes)) with 0 in ZF; lia|]. cbn [field nth asOid rawBytes]. rewrite oidEqual_refl.
    unfold parseSignedData. change (Pkcs7.X Q) with X. unfold unmarshal. pose proof (PS _ [] eq_refl) as PS0. rewrite app_nil_r in PS0. rewrite PS0. cbn [fst field nth]. rewrite Ecerts. unfold cinfov. cbn [field nth rawBytes zeroVal rawCompound andb asOid asSlice].
    eexists. split; [reflexivity|]. split; [reflexivity|]. split; [reflexivity|]. cbn [p7_signers]. clear -Hsay. induction Hsay; constructor; assumption.
  Qed.
End S.
