(** x509andr on DER certificates *)
From Coq Require Import Lia.
From Verif.Model Require Import Bytes Env Ber Asn1 Pkcs7 X509.
From Verif.Spec Require Import Ber Asn1 Asn1Value Pkcs7 X509.
From Verif.Proofs Require Import BytesFacts BerFacts Asn1Codec Asn1Header Asn1Value Asn1Decode DerFacts DerSize Pkcs7Facts Pkcs7Parse Pkcs7Honest X509Facts X509Keys.

Lemma oidEqual_iff a : forall b, oidEqual a b = true <-> a = b.
Proof.
  induction a as [|x a IH]; intros [|y b]; cbn [oidEqual]; try (split; congruence). rewrite andb_true_iff, Z.eqb_eq, IH. split; [intros [-> ->]; reflexivity|intros H; split; congruence].
Qed.
Lemma oidEqual_neq a b : a <> b -> oidEqual a b = false.
Proof. intros H. destruct (oidEqual a b) eqn:E; [|reflexivity]. apply oidEqual_iff in E. contradiction. Qed.

(* explicit tags *)
Lemma header_explicit ty p t c' t' k' b' f' f r any ut comp : fp_explicit p = true -> fp_application p = false -> fp_tag p = Some t -> isRaw ty = false ->
  element 2 t true f' f -> getUniversalType ty = Some (any, ut, comp) -> element c' t' k' b' f' ->
  (let '(ec, et, anyTag) := expected p any (adjustTag p (hd c' t' (zlen b') k') ut) in anyTag = true \/ (c' = ec /\ t' = et)) -> (any = true \/ k' = comp) ->
  parseHeader ty p (f ++ r) = HMatch (hd c' t' (zlen b') k') (adjustTag p (hd c' t' (zlen b') k') ut) b' r.
Proof.
  intros He Ha Ht Hr HE HU HE' Hx Hk. unfold parseHeader. rewrite (element_parse _ _ _ _ _ r HE), He, Ha, Ht. cbn [hd tl_class tl_tag tl_length tl_compound].
  pose proof (element_size _ _ _ _ _ HE') as HS. pose proof (zlen_nonneg b') as HB.
  destruct (f' ++ r) as [|y ys] eqn:EF; [apply app_eq_nil in EF as [-> _]; change (zlen ([] : bytes)) with 0 in HS; lia|]. rewrite <- EF. clear EF y ys.
  change (2 =? ClassContextSpecific) with true. rewrite Z.eqb_refl, orb_true_r, Hr. cbn [andb]. destruct (Z.ltb_spec 0 (zlen f')); [|lia].
  rewrite (element_parse _ _ _ _ _ r HE'). unfold matchBody. rewrite HU.
  destruct (expected p any (adjustTag p (hd c' t' (zlen b') k') ut)) as [[ec et] ea]. cbn [hd tl_class tl_tag tl_length tl_compound] in *.
  assert (E1 : negb ea && (negb (c' =? ec) || negb (t' =? et)) = false). { destruct Hx as [-> |[-> ->]]; [reflexivity|]. rewrite !Z.eqb_refl. apply andb_false_r. }
  assert (E2 : negb any && negb (Bool.eqb k' comp) = false). { destruct Hk as [-> | ->]; [reflexivity|]. rewrite Bool.eqb_reflx. apply andb_false_r. }
  rewrite E1, E2. cbn [orb]. destruct (Z.ltb_spec (zlen (b' ++ r)) (zlen b')) as [C|C]; [rewrite zlen_app in C; pose proof (zlen_nonneg r); lia|].
  rewrite takeZ_app, dropZ_app by reflexivity. reflexivity.
Qed.

Section F.
  Variable X : textenv.

  Lemma explicit_field ty p old t c' t' k' b' f' f r any ut comp : ty <> TyAny -> fp_explicit p = true -> fp_application p = false -> fp_tag p = Some t -> isRaw ty = false ->
    element 2 t true f' f -> getUniversalType ty = Some (any, ut, comp) -> element c' t' k' b' f' ->
    (let '(ec, et, anyTag) := expected p any (adjustTag p (hd c' t' (zlen b') k') ut) in anyTag = true \/ (c' = ec /\ t' = et)) -> (any = true \/ k' = comp) ->
    parseField X ty p old (f ++ r) = parseContent X ty old (hd c' t' (zlen b') k') (adjustTag p (hd c' t' (zlen b') k') ut) f b' r.
  Proof.
    intros Hty He Ha Ht Hr HE HU HE' Hx Hk. rewrite (parseField_match X ty p old (f ++ r) _ _ _ _ (element_nonempty _ _ _ _ _ _ HE) Hty (header_explicit ty p t c' t' k' b' f' f r any ut comp He Ha Ht Hr HE HU HE' Hx Hk)).
    rewrite zlen_app, Z.add_simpl_r, takeZ_app by reflexivity. reflexivity.
  Qed.
  (* the wrong element where an explicit tag may stand *)
  Lemma explicit_absent ty p old t c' t' k' b' f r : ty <> TyAny -> fp_optional p = true -> fp_explicit p = true -> fp_application p = false -> fp_tag p = Some t ->
    element c' t' k' b' f -> c' <> 2 \/ t' <> t -> b' ++ r <> [] -> setDefaultValue ty p old <> None ->
    parseField X ty p old (f ++ r) = (match setDefaultValue ty p old with Some v => v | None => old end, Some (f ++ r)).
  Proof.
    intros Hty Ho He Ha Ht HE Hx HN HD. assert (HH : parseHeader ty p (f ++ r) = HMismatch).
    { unfold parseHeader. rewrite (element_parse _ _ _ _ _ r HE), He, Ha, Ht. cbn [hd tl_class tl_tag tl_length tl_compound]. destruct (b' ++ r); [congruence|].
      assert ((c' =? ClassContextSpecific) && (t' =? t) = false) as ->; [|reflexivity]. apply andb_false_iff. unfold ClassContextSpecific. destruct Hx; [left|right]; apply Z.eqb_neq; assumption. }
    pose proof (element_nonempty _ _ _ _ _ r HE) as HN2. destruct (f ++ r) as [|x xs]; [congruence|]. destruct ty; try congruence; cbn [parseField]; rewrite HH; destruct (setDefaultValue _ p old); congruence.
  Qed.

  Lemma struct_field_raw fs old c f r l : der_element 0 16 true c f -> zlen f < 2 ^ 31 -> parseFields X fs (fieldsOf old (zeroFields fs)) c = (l, true) ->
    parseField X (TyStruct true fs) noParams old (f ++ r) = (VStruct f l, Some r).
  Proof.
    intros HD HL HF. pose proof (der_element_size _ _ _ _ _ HD). apply der_element_element in HD; [|lia].
    rewrite (field_parse X (TyStruct true fs) noParams old 0 16 true c f r false TagSequence true); try assumption; try reflexivity; try discriminate; try (right; auto; fail).
    cbn [parseContent]. rewrite HF. reflexivity.
  Qed.
  Lemma int64_field old z f r : integer_element z f -> - 2 ^ 63 <= z < 2 ^ 63 -> zlen f < 2 ^ 31 -> parseField X TyInt noParams old (f ++ r) = (VInt z, Some r).
  Proof.
    intros (oc & HO & HD) HR HL. pose proof (der_element_size _ _ _ _ _ HD). apply der_element_element in HD; [|lia].
    rewrite (field_parse X TyInt noParams old 0 2 false oc f r false TagInteger false); try assumption; try reflexivity; try discriminate; try (right; auto; fail).
    cbn [parseContent]. assert (E : parseInt64 oc = Some z); [|rewrite E; reflexivity].
    rewrite (integer_octets_unique _ _ _ HO (proj1 (encodeInt64_octets z HR))). apply parse_encode_int64. exact HR.
  Qed.
  Lemma bits_field p ec et old b f r : expected p false 3 = (ec, et, false) -> fp_explicit p = false -> fp_set p = false -> der_element ec et false (x00 :: b) f -> zlen f < 2 ^ 31 ->
    parseField X TyBits p old (f ++ r) = (VBits b (8 * zlen b), Some r).
  Proof.
    intros Hx He Hs HD HL. pose proof (der_element_size _ _ _ _ _ HD) as HZ. apply der_element_element in HD; [|lia].
    assert (HA : forall u, adjustTag p (hd ec et (zlen (x00 :: b)) false) 3 = u -> u = 3). { intros u <-. unfold adjustTag. rewrite Hs. reflexivity. }
    rewrite (field_parse X TyBits p old ec et false (x00 :: b) f r false TagBitString false); try assumption; try reflexivity; try discriminate.
    - cbn [parseContent]. assert (E : parseBitString (x00 :: b) = Some (b, 8 * zlen b)). { apply parseBits_iff. exists 0. repeat split; try lia. intros _. rewrite Z.mod_1_r. reflexivity. }
      rewrite E. reflexivity.
    - unfold TagBitString. rewrite (HA _ eq_refl), Hx. right. auto.
    - right. reflexivity.
  Qed.
  Lemma algorithm_value a f : algorithm_der a f -> valid_oid (fst a) -> zlen f < 2 ^ 31 ->
    exists v, asOid (field 0 v) = fst a /\ rawFull (field 1 v) = (match snd a with Some e => e | None => [] end) /\
      forall r, parseField X tyAlgorithm noParams (zeroVal tyAlgorithm) (f ++ r) = (v, Some r).
  Proof.
    intros (o & params & HO & HP & HS) HV HL. pose proof (der_element_size _ _ _ _ _ HS) as HZ. cbn [concat] in HZ. rewrite !zlen_app in HZ. pose proof (zlen_nonneg o). pose proof (zlen_nonneg params). change (zlen ([] : bytes)) with 0 in HZ.
    destruct (snd a) as [e|]; cbn [optional] in HP.
    - destruct HP as ((c & t & k & b & HE) & ->). exists (VStruct [] [VOid (fst a); VRaw c t k b e]). split; [reflexivity|]. split; [reflexivity|]. intros r. apply (struct_field X _ _ (concat [o; e])); [exact HS|exact HL|].
      cbn [concat fieldsOf zeroFields]. rewrite parseFields_cons, (oid_field X _ (fst a) o) by (try assumption; lia). rewrite parseFields_cons. rewrite (raw_parse X pOptional _ c t k b e []) by (try reflexivity; exact HE). reflexivity.
    - subst params. exists (VStruct [] [VOid (fst a); zeroVal TyRaw]). split; [reflexivity|]. split; [reflexivity|]. intros r. apply (struct_field X _ _ (concat [o; []])); [exact HS|exact HL|].
      cbn [concat fieldsOf zeroFields app]. rewrite parseFields_cons, (oid_field X _ (fst a) o) by (try assumption; lia). reflexivity.
  Qed.
  (* a slice of elements of any type with one tag *)
  Lemma count_elems elem ut comp : getUniversalType elem = Some (false, ut, comp) -> isStringTag ut = false -> ut <> TagGeneralizedTime -> ut <> TagUTCTime -> forall fs fuel,
    Forall (fun f => exists c, element 0 ut comp c f) fs -> (List.length (concat fs) <= fuel)%nat -> countElements fuel elem (concat fs) = Some (List.length fs).
  Proof.
    intros HU H1 H2 H3. induction fs as [|f fs IH]; intros fuel HF HL; [destruct fuel; reflexivity|]. inversion HF as [|? ? (c & HE) HF']; subst. cbn [concat] in *. rewrite app_length in HL.
    pose proof (element_nonempty _ _ _ _ _ (concat fs) HE) as HN. pose proof (element_parse _ _ _ _ _ (concat fs) HE) as HP. pose proof (element_size _ _ _ _ _ HE) as HS.
    assert (HL1 : (2 <= List.length f)%nat). { pose proof (zlen_nonneg c). unfold zlen in *. lia. }
    destruct (f ++ concat fs) as [|x xs] eqn:EF; [congruence|]. destruct fuel as [|fuel]; [lia|]. cbn [countElements]. rewrite HU, HP. cbn [hd tl_class tl_tag tl_length tl_compound].
    rewrite H1. apply Z.eqb_neq in H2, H3. rewrite H2, H3. cbn [orb]. cbv zeta. change (0 =? ClassUniversal) with true. rewrite (Z.eqb_refl ut), Bool.eqb_reflx. cbn [negb orb andb].
    destruct (Z.ltb_spec (zlen (c ++ concat fs)) (zlen c)) as [C|C]; [rewrite zlen_app in C; pose proof (zlen_nonneg (concat fs)); lia|].
    rewrite dropZ_app by reflexivity. rewrite IH; [reflexivity|exact HF'|lia].
  Qed.
  Lemma slice_content set elem ut comp t u old full r vs fs : getUniversalType elem = Some (false, ut, comp) -> isStringTag ut = false -> ut <> TagGeneralizedTime -> ut <> TagUTCTime ->
    Forall (fun f => exists c, element 0 ut comp c f) fs ->
    Forall2 (fun v f => forall r, parseField X elem noParams (zeroVal elem) (f ++ r) = (v, Some r)) vs fs ->
    parseContent X (TySlice set elem) old t u full (concat fs) r = (VSlice vs, Some r).
  Proof. intros HU H1 H2 H3 HF H4. cbn [parseContent]. rewrite (count_elems elem ut comp) by (try assumption; lia). rewrite (parse_seqs X elem _ _ H4). reflexivity. Qed.

  (* names *)
  Lemma any_string old tag s f r : string_ok X tag s -> element 0 tag false s f -> parseField X TyAny noParams old (f ++ r) = (VAny (VString s), Some r).
  Proof.
    intros HS HE. pose proof (element_nonempty _ _ _ _ _ r HE) as HN. pose proof (element_parse _ _ _ _ _ r HE) as HP.
    assert (EP : parseField X TyAny noParams old (f ++ r) = parseAny X old (f ++ r)) by (destruct (f ++ r); [congruence|reflexivity]). rewrite EP. unfold parseAny. rewrite HP. cbn [hd tl_class tl_tag tl_length tl_compound].
    destruct (Z.ltb_spec (zlen (s ++ r)) (zlen s)) as [C|_]; [rewrite zlen_app in C; pose proof (zlen_nonneg r); lia|]. cbv zeta. rewrite takeZ_app, dropZ_app by reflexivity. change (0 =? ClassUniversal) with true. cbn [negb andb].
    destruct HS as [[-> | ->]|[[-> HU]|[[-> HF]|[-> HF]]]]; cbn [existsb]; unfold parseString.
    - reflexivity.
    - reflexivity.
    - cbn. rewrite HU. reflexivity.
    - assert (G : forallb (fun c => b2z c <? 128) s = true). { apply forallb_forall. intros c Hc. apply Z.ltb_lt. rewrite Forall_forall in HF. apply HF. exact Hc. }
      assert (E : parseString X 22 s = Some s). { unfold parseString. change (22 =? TagPrintableString) with false. change (22 =? TagNumericString) with false. change (22 =? TagIA5String) with true. cbv iota. rewrite G. reflexivity. }
      unfold parseString in E. change (0 =? 0) with true. rewrite E. reflexivity.
    - assert (G : forallb isNumeric s = true). { apply forallb_forall. intros c Hc. rewrite Forall_forall in HF. specialize (HF c Hc). unfold isNumeric. destruct HF as [HF|HF]; [apply orb_true_iff; left; apply andb_true_iff; split; apply Z.leb_le; lia|apply orb_true_iff; right; apply Z.eqb_eq; lia]. }
      assert (E : parseString X 18 s = Some s). { unfold parseString. change (18 =? TagPrintableString) with false. change (18 =? TagNumericString) with true. cbv iota. rewrite G. reflexivity. }
      unfold parseString in E. rewrite E. reflexivity.
  Qed.
End F.

Lemma concat_bound (fs : list bytes) f : In f fs -> zlen f <= zlen (concat fs).
Proof. induction fs as [|g fs IH]; [contradiction|]. cbn [concat]. rewrite zlen_app. pose proof (zlen_nonneg g). pose proof (zlen_nonneg (concat fs)). intros [-> |H1]; [lia|]. specialize (IH H1). lia. Qed.
Lemma Forall2_in_r {A B} (R : A -> B -> Prop) l fs f : Forall2 R l fs -> In f fs -> exists a, In a l /\ R a f.
Proof. induction 1 as [|a g l fs H F IH]; [contradiction|]. intros [-> |HI]; [exists a; split; [left; reflexivity|exact H]|]. destruct (IH HI) as (b & H1 & H2). exists b. split; [right; exact H1|exact H2]. Qed.
Lemma der_small c t k b f : der_element c t k b f -> zlen f < 2 ^ 31 -> element c t k b f.
Proof. intros H HL. pose proof (der_element_size _ _ _ _ _ H). apply der_element_element; [exact H|lia]. Qed.

Section N.
  Variable X : textenv.

  Lemma name_attribute_field a f : name_attribute_der X a f -> zlen f < 2 ^ 31 ->
    forall r, parseField X tyAttributeValue noParams (zeroVal tyAttributeValue) (f ++ r) = (VStruct [] [VOid (fst a); VAny (VString (snd (snd a)))], Some r).
  Proof.
    intros (t & v & HO & HV & HS & HD & HQ) HL r. pose proof (der_element_size _ _ _ _ _ HQ) as HZ. cbn [concat] in HZ. rewrite !zlen_app in HZ. change (zlen ([] : bytes)) with 0 in HZ. pose proof (zlen_nonneg t). pose proof (zlen_nonneg v).
    apply (struct_field X _ _ (concat [t; v])); [exact HQ|exact HL|]. cbn [concat]. rewrite parseFields_cons, (oid_field X _ (fst a) t) by (try assumption; lia). cbn [zeroVal zeroFields fieldsOf tl tyAttributeValue].
    rewrite parseFields_cons, (any_string X _ (fst (snd a)) (snd (snd a)) v []); [reflexivity|exact HS|apply der_small; [exact HD|lia]].
  Qed.
  Lemma rdn_field l f : rdn_der X l f -> zlen f < 2 ^ 31 ->
    forall r, parseField X (TySlice true tyAttributeValue) noParams (zeroVal (TySlice true tyAttributeValue)) (f ++ r) = (VSlice (map (fun a => VStruct [] [VOid (fst a); VAny (VString (snd (snd a)))]) l), Some r).
  Proof.
    intros (fs & HF & HS) HL r. pose proof (der_element_size _ _ _ _ _ HS) as HZ. pose proof (der_small _ _ _ _ _ HS HL) as HE.
    rewrite (field_parse X (TySlice true tyAttributeValue) noParams _ 0 17 true (concat fs) f r false TagSet true); try exact HE; try reflexivity; try discriminate; try (right; auto; fail).
    apply (slice_content X true tyAttributeValue TagSequence true); try reflexivity; try discriminate.
    - apply Forall_forall. intros g Hg. destruct (Forall2_in_r _ _ _ _ HF Hg) as (a & _ & (t & v & _ & _ & _ & _ & HQ)). eexists. apply (der_small _ _ _ _ _ HQ). pose proof (concat_bound fs g Hg). lia.
    - assert (HB : forall g, In g fs -> zlen g < 2 ^ 31) by (intros g Hg; pose proof (concat_bound fs g Hg); lia). clear -HF HB. induction HF as [|a g l fs H F IH]; [constructor|]. cbn [map]. constructor; [|apply IH; intros g' Hg'; apply HB; right; exact Hg'].
      apply name_attribute_field; [exact H|apply HB; left; reflexivity].
  Qed.
  Definition name_val (n : name_doc) : goval := VSlice (map (fun l => VSlice (map (fun a => VStruct [] [VOid (fst a); VAny (VString (snd (snd a)))]) l)) n).
  Lemma name_field n f : name_der X n f -> zlen f < 2 ^ 31 -> forall r, parseField X tyRdnSequence noParams (zeroVal tyRdnSequence) (f ++ r) = (name_val n, Some r).
  Proof.
    intros (fs & HF & HS) HL r. pose proof (der_element_size _ _ _ _ _ HS) as HZ. pose proof (der_small _ _ _ _ _ HS HL) as HE.
    unfold tyRdnSequence. rewrite (field_parse X (TySlice false (TySlice true tyAttributeValue)) noParams _ 0 16 true (concat fs) f r false TagSequence true); try exact HE; try reflexivity; try discriminate; try (right; auto; fail).
    apply (slice_content X false (TySlice true tyAttributeValue) TagSet true); try reflexivity; try discriminate.
    - apply Forall_forall. intros g Hg. destruct (Forall2_in_r _ _ _ _ HF Hg) as (a & _ & (gs & _ & HQ)). eexists. apply (der_small _ _ _ _ _ HQ). pose proof (concat_bound fs g Hg). lia.
    - assert (HB : forall g, In g fs -> zlen g < 2 ^ 31) by (intros g Hg; pose proof (concat_bound fs g Hg); lia). clear -HF HB. induction HF as [|a g l fs H F IH]; [constructor|]. cbn [map]. constructor; [|apply IH; intros g' Hg'; apply HB; right; exact Hg'].
      apply rdn_field; [exact H|apply HB; left; reflexivity].
  Qed.
  Lemma rdnSequence_val Q n : rdnSequence Q (name_val n) = name_text n.
  Proof. unfold rdnSequence, name_val, name_text. cbn [asSlice]. rewrite map_map. apply map_ext. intros l. cbn [asSlice]. rewrite map_map. apply map_ext. intros a. reflexivity. Qed.
  Lemma name_element n f : name_der X n f -> zlen f < 2 ^ 31 -> exists b, element 0 16 true b f.
  Proof. intros (fs & _ & HS) HL. eexists. exact (der_small _ _ _ _ _ HS HL). Qed.

  Lemma time_field t old f r : time_der X t f -> zlen f < 2 ^ 31 -> parseField X TyTime noParams old (f ++ r) = (VTime t, Some r).
  Proof.
    intros HT HL. destruct HT as [s f Hs HD|s f Hs HD]; apply der_small in HD; try exact HL.
    - rewrite (field_parse X TyTime noParams old 0 23 false s f r false TagUTCTime false); try exact HD; try reflexivity; try discriminate; try (right; auto; fail).
      cbn [parseContent]. change (adjustTag noParams (hd 0 23 (zlen s) false) TagUTCTime =? TagUTCTime) with true. cbv iota. rewrite Hs. reflexivity.
    - rewrite (field_parse X TyTime noParams old 0 24 false s f r false TagUTCTime false); try exact HD; try reflexivity; try discriminate; try (right; auto; fail).
      cbn [parseContent]. change (adjustTag noParams (hd 0 24 (zlen s) false) TagUTCTime =? TagUTCTime) with false. cbv iota. rewrite Hs. reflexivity.
  Qed.
  Lemma validity_field a b nb na f r : time_der X a nb -> time_der X b na -> seq_der [nb; na] f -> zlen f < 2 ^ 31 ->
    parseField X tyValidity noParams (zeroVal tyValidity) (f ++ r) = (VStruct [] [VTime a; VTime b], Some r).
  Proof.
    intros Ha Hb HS HL. pose proof (der_element_size _ _ _ _ _ HS) as HZ. cbn [concat] in HZ. rewrite !zlen_app in HZ. change (zlen ([] : bytes)) with 0 in HZ. pose proof (zlen_nonneg nb). pose proof (zlen_nonneg na).
    apply (struct_field X _ _ (concat [nb; na])); [exact HS|exact HL|]. cbn [concat]. rewrite parseFields_cons, (time_field a) by (try assumption; lia). rewrite parseFields_cons, (time_field b) by (try assumption; lia). reflexivity.
  Qed.

  Definition ext_val (d : ext_doc) : goval := VStruct [] [VOid (x_id d); VBool (x_critical d); VBytes (x_value d)].
  Lemma extension_field d f : extension_der d f -> zlen f < 2 ^ 31 -> forall r, parseField X tyExtension noParams (zeroVal tyExtension) (f ++ r) = (ext_val d, Some r).
  Proof.
    intros (i & c & v & HO & HV & HC & HD & HS) HL r. pose proof (der_element_size _ _ _ _ _ HS) as HZ. cbn [concat] in HZ. rewrite !zlen_app in HZ. change (zlen ([] : bytes)) with 0 in HZ. pose proof (zlen_nonneg i). pose proof (zlen_nonneg c). pose proof (zlen_nonneg v).
    apply (struct_field X _ _ (concat [i; c; v])); [exact HS|exact HL|]. cbn [concat]. rewrite parseFields_cons, (oid_field X _ (x_id d) i) by (try assumption; lia). cbn [zeroVal zeroFields fieldsOf tl tyExtension].
    rewrite parseFields_cons. unfold ext_val. destruct (x_critical d).
    - pose proof (der_small _ _ _ _ _ HC ltac:(lia)) as HE. rewrite (field_parse X TyBool pOptional _ 0 1 false [xff] c _ false TagBoolean false); try exact HE; try reflexivity; try discriminate; try (right; auto; fail).
      cbn [parseContent]. change (parseBool [xff]) with (Some true). cbn [leafValue tl]. rewrite parseFields_cons, (bytes_field X _ (x_value d) v []) by (try assumption; lia). reflexivity.
    - subst c. cbn [app]. pose proof (der_small _ _ _ _ _ HD ltac:(lia)) as HE. rewrite (field_absent X TyBool pOptional _ 0 4 false (x_value d) v [] false TagBoolean false); try exact HE; try reflexivity; try discriminate; [|cbn; split; [reflexivity|right; discriminate]].
      cbn [tl]. rewrite parseFields_cons, (bytes_field X _ (x_value d) v []) by (try assumption; lia). reflexivity.
  Qed.
End N.

Section K.
  Variable K : xenv.
  Notation X := (k_text K).

  Lemma parse_name n f : name_der X n f -> zlen f < 2 ^ 31 -> parseName K f = Some (goName (name_text n)).
  Proof.
    intros H HL. unfold parseName. assert (E : unmarshalAll K tyRdnSequence f = Some (name_val n)). { apply unmarshalAll_some. unfold unmarshal. rewrite <- (app_nil_r f). apply name_field; assumption. }
    rewrite E. cbn [option_map]. rewrite rdnSequence_val. reflexivity.
  Qed.

  (* public keys *)
  Lemma spki_value alg key f : spki_of alg key f -> valid_oid (fst alg) -> zlen f < 2 ^ 31 ->
    exists v, field 1 v = VBits key (8 * zlen key) /\ asOid (field 0 (field 0 v)) = fst alg /\ rawFull (field 1 (field 0 v)) = (match snd alg with Some e => e | None => [] end) /\ structRaw v = f /\
      forall r, parseField X tySpki noParams (zeroVal tySpki) (f ++ r) = (v, Some r).
  Proof.
    intros (a & bits & HA & HB & HS) HV HL. pose proof (der_element_size _ _ _ _ _ HS) as HZ. cbn [concat] in HZ. rewrite !zlen_app in HZ. change (zlen ([] : bytes)) with 0 in HZ. pose proof (zlen_nonneg a). pose proof (zlen_nonneg bits).
    destruct (algorithm_value X alg a HA HV ltac:(lia)) as (va & E1 & E2 & EP). exists (VStruct f [va; VBits key (8 * zlen key)]). split; [reflexivity|]. split; [exact E1|]. split; [exact E2|]. split; [reflexivity|].
    intros r. apply (struct_field_raw X _ _ (concat [a; bits])); [exact HS|exact HL|]. cbn [concat]. rewrite parseFields_cons. change (match fieldsOf (zeroVal tySpki) _ with [] => zeroVal tyAlgorithm | o :: _ => o end) with (zeroVal tyAlgorithm). rewrite EP. cbn [tl].
    rewrite parseFields_cons, (bits_field X noParams 0 3 _ key bits []); try reflexivity; [exact HB|lia].
  Qed.
  Lemma valid_id o : In o [id_rsa; id_dsa; id_ec; curve_id P224; curve_id P256; curve_id P384; curve_id P521] -> valid_oid o.
  Proof.
    intros H. assert (B : forall a b r, 0 <= a <= 2 -> 0 <= b < 40 -> forallb (fun n => (0 <=? n) && (n <=? max_int32)) r = true -> valid_oid (a :: b :: r)).
    { intros a b r Ha Hb Hr. exists a, b, r. unfold max_int32 in *. repeat split; try lia. apply Forall_forall. intros n Hn. rewrite forallb_forall in Hr. specialize (Hr n Hn). apply andb_true_iff in Hr as [H1 H2]. apply Z.leb_le in H1, H2. lia. }
    repeat (destruct H as [<-|H]; [apply B; [lia|lia|reflexivity]|]). contradiction.
  Qed.
  Lemma spki_key k f : spki_der K k f -> zlen f < 2 ^ 31 ->
    exists v, structRaw v = f /\ (forall r, parseField X tySpki noParams (zeroVal tySpki) (f ++ r) = (v, Some r)) /\
      parsePublicKey K (getPublicKeyAlgorithmFromOID (asOid (field 0 (field 0 v)))) v = Some (k, false).
  Proof.
    intros H HL. assert (HKL : forall alg key, spki_of alg key f -> zlen key < 2 ^ 31 /\ zlen (match snd alg with Some e => e | None => [] end) < 2 ^ 31).
    { intros alg key (a & bits & (o & ps & _ & HP & HA) & HB & HS). apply der_element_size in HS, HB, HA. cbn [concat] in *. rewrite !zlen_app in *. rewrite zlen_cons in HB. change (zlen ([] : bytes)) with 0 in *. pose proof (zlen_nonneg a). pose proof (zlen_nonneg bits). pose proof (zlen_nonneg o). pose proof (zlen_nonneg ps). split; [lia|].
      destruct (snd alg); cbn [optional] in HP; [destruct HP as (_ & ->); lia|change (zlen ([] : bytes)) with 0; lia]. }
    destruct H as [n e params ni ei key f Hn He Hni Hei HS HK|y p q g pi qi gi params key f Hy Hp Hq Hg Hpi Hqi Hgi HS Hk HK|c x y bx by_ params f Hpt Hx Hy Lx Ly HO HK|alg key f N1 N2 N3 HV HK].
    - destruct (spki_value _ _ _ HK ltac:(apply valid_id; cbn; tauto) HL) as (v & E1 & E2 & E3 & E4 & EP). exists v. split; [exact E4|]. split; [exact EP|]. destruct (HKL _ _ HK) as [L1 _]. cbn [fst snd] in *. rewrite E2. change (getPublicKeyAlgorithmFromOID id_rsa) with RSA.
      unfold parsePublicKey. rewrite E1. rewrite rightAlign_whole. pose proof (der_element_size _ _ _ _ _ HS) as HZ. cbn [concat] in HZ. rewrite !zlen_app in HZ. change (zlen ([] : bytes)) with 0 in HZ. pose proof (zlen_nonneg ni). pose proof (zlen_nonneg ei).
      assert (EU : unmarshalAll K tyPkcs1 key = Some (VStruct [] [VInt n; VInt e])).
      { apply unmarshalAll_some. unfold unmarshal. rewrite <- (app_nil_r key). apply (struct_field X _ _ (concat [ni; ei])); [exact HS|exact L1|]. cbn [concat]. rewrite parseFields_cons, (big_field X _ n ni) by (try assumption; lia).
        rewrite parseFields_cons, (int64_field X _ e ei []) by (try assumption; lia). reflexivity. }
      rewrite EU. cbn [field nth asInt]. destruct (Z.leb_spec n 0); [lia|]. destruct (Z.leb_spec e 0); [lia|]. reflexivity.
    - destruct (spki_value _ _ _ HK ltac:(apply valid_id; cbn; tauto) HL) as (v & E1 & E2 & E3 & E4 & EP). exists v. split; [exact E4|]. split; [exact EP|]. destruct (HKL _ _ HK) as [L1 L2]. cbn [fst snd] in *. rewrite E2. change (getPublicKeyAlgorithmFromOID id_dsa) with DSA.
      unfold parsePublicKey. rewrite E1, E3. rewrite rightAlign_whole. pose proof (der_element_size _ _ _ _ _ HS) as HZ. cbn [concat] in HZ. rewrite !zlen_app in HZ. change (zlen ([] : bytes)) with 0 in HZ. pose proof (zlen_nonneg pi). pose proof (zlen_nonneg qi). pose proof (zlen_nonneg gi).
      assert (EY : unmarshalAll K TyBig key = Some (VInt y)). { apply unmarshalAll_some. unfold unmarshal. rewrite <- (app_nil_r key). apply big_field; assumption. }
      assert (EU : unmarshalAll K tyDsaParams params = Some (VStruct [] [VInt p; VInt q; VInt g])).
      { apply unmarshalAll_some. unfold unmarshal. rewrite <- (app_nil_r params). apply (struct_field X _ _ (concat [pi; qi; gi])); [exact HS|exact L2|]. cbn [concat].
        rewrite parseFields_cons, (big_field X _ p pi) by (try assumption; lia). rewrite parseFields_cons, (big_field X _ q qi) by (try assumption; lia). rewrite parseFields_cons, (big_field X _ g gi) by (try assumption; lia). reflexivity. }
      rewrite EY, EU. cbn [field nth asInt]. destruct (Z.leb_spec y 0); [lia|]. destruct (Z.leb_spec p 0); [lia|]. destruct (Z.leb_spec q 0); [lia|]. destruct (Z.leb_spec g 0); [lia|]. reflexivity.
    - destruct (spki_value _ _ _ HK ltac:(apply valid_id; cbn; tauto) HL) as (v & E1 & E2 & E3 & E4 & EP). exists v. split; [exact E4|]. split; [exact EP|]. destruct (HKL _ _ HK) as [L1 L2]. cbn [fst snd] in *. rewrite E2. change (getPublicKeyAlgorithmFromOID id_ec) with ECDSA.
      unfold parsePublicKey. rewrite E1, E3. rewrite rightAlign_whole.
      assert (EO : unmarshalAll K TyOid params = Some (VOid (curve_id c))). { apply unmarshalAll_some. unfold unmarshal. rewrite <- (app_nil_r params). apply oid_field; [exact HO|apply valid_id; destruct c; cbn; tauto|exact L2]. }
      rewrite EO. cbn [asOid]. assert (namedCurveFromOID (curve_id c) = Some c) as -> by (destruct c; reflexivity).
      assert (BL : byteLen c = field_size c) by (destruct c; reflexivity).
      unfold ellipticUnmarshal. rewrite zlen_cons, zlen_app, BL, Lx, Ly. match goal with |- context [?a =? 1 + 2 * field_size c] => assert (EL : a =? 1 + 2 * field_size c = true) by (apply Z.eqb_eq; lia) end. rewrite EL. cbn [negb]. change (b2z x04 =? 4) with true. cbn [negb]. cbv iota.
      rewrite takeZ_app by (symmetry; exact Lx). rewrite dropZ_app by (symmetry; exact Lx). rewrite !be_acc0, Hx, Hy, Hpt. reflexivity.
    - destruct (spki_value _ _ _ HK HV HL) as (v & E1 & E2 & E3 & E4 & EP). exists v. split; [exact E4|]. split; [exact EP|]. rewrite E2. unfold getPublicKeyAlgorithmFromOID. rewrite !oidEqual_neq by assumption. reflexivity.
  Qed.
End K.
