(** Making SignedData objects *)
From Coq Require Import Lia Permutation Sorted.
From Verif.Model Require Import Bytes Env Ber Asn1 Pkcs7 X509 Pkcs7Verify Pkcs7Sign.
From Verif.Spec Require Import Ber Asn1 Asn1Value Pkcs7 Pkcs7Verify Pkcs7Sign.
From Verif.Proofs Require Import BytesFacts BerFacts Asn1Codec Asn1Header Asn1Value Asn1Decode DerFacts DerSize Pkcs7Facts Pkcs7Parse Pkcs7Honest Pkcs7VerifyFacts Pkcs7Doc.

(** *** Elements as they are written *)
Definition el (class tag : Z) (k : bool) (c : bytes) : bytes := appendTagAndLength (hd class tag (zlen c) k) ++ c.
Lemma header_nonempty t : 1 <= zlen (appendTagAndLength t).
Proof.
  unfold appendTagAndLength. cbv zeta. match goal with |- 1 <= zlen (?a ++ ?b) => rewrite zlen_app; pose proof (zlen_nonneg b) end.
  destruct (31 <=? tl_tag t); rewrite zlen_cons; match goal with |- context [zlen ?x] => pose proof (zlen_nonneg x) end; lia.
Qed.
Lemma el_size class tag k c : zlen c + 1 <= zlen (el class tag k c).
Proof. unfold el. rewrite zlen_app. pose proof (header_nonempty (hd class tag (zlen c) k)). lia. Qed.
Lemma el_der class tag k c : 0 <= class < 4 -> 0 <= tag <= max_int32 -> zlen c < 2 ^ 31 -> der_element class tag k c (el class tag k c).
Proof. apply append_der_element. Qed.

(** *** Object trees *)
Definition trees (b : bytes) : Prop := exists os, ders os b.
Lemma trees_nil : trees []. Proof. exists []. constructor. Qed.
Lemma trees_cons a b : tree a -> trees b -> trees (a ++ b).
Proof. intros (o & H) (os & H'). exists (o :: os). constructor; assumption. Qed.
Lemma trees_one a : tree a -> trees a.
Proof. intros H. rewrite <- (app_nil_r a). apply trees_cons; [exact H|apply trees_nil]. Qed.
Lemma trees_app a b : trees a -> trees b -> trees (a ++ b).
Proof. intros (os & H) Hb. induction H as [|o x os xs H1 H2 IH] using ders_ind; [exact Hb|]. rewrite <- app_assoc. apply trees_cons; [exists o; exact H1|exact IH]. Qed.
Lemma trees_concat l : Forall tree l -> trees (concat l).
Proof. induction 1 as [|x l H F IH]; [apply trees_nil|]. cbn [concat]. apply trees_cons; assumption. Qed.
Lemma low_identifier class tag k id : 0 <= tag < 31 -> identifier_shortest class tag k id -> identifier k id.
Proof.
  intros Ht ((Hc & H) & HS). assert (E : forall n, b2z (z2b (class * 64 + (if k then 32 else 0) + n)) = (class * 64 + (if k then 32 else 0) + n) mod 256) by (intros; apply b2z_z2b).
  destruct H as [(_ & ->)|(b & _ & _ & _ & ->)].
  - exists (z2b (class * 64 + (if k then 32 else 0) + tag)), []. split; [reflexivity|]. rewrite E. rewrite (Z.mod_small _ 256) by (destruct k; lia). split.
    + replace (class * 64 + (if k then 32 else 0) + tag) with ((class * 2 + (if k then 1 else 0)) * 32 + tag) by (destruct k; lia). rewrite Z.div_add_l, (Z.div_small tag 32), Z.add_0_r by lia.
      rewrite Z.add_comm, Z.mod_add by lia. destruct k; reflexivity.
    + left. split; [|reflexivity]. replace (class * 64 + (if k then 32 else 0) + tag) with (tag + (class * 2 + (if k then 1 else 0)) * 32) by (destruct k; lia). rewrite Z.mod_add, Z.mod_small by lia. lia.
  - exfalso. assert (HP : b2z (z2b (class * 64 + (if k then 32 else 0) + 31)) mod 32 = 31); [|destruct (HS _ _ eq_refl HP) as (C & _); lia]. rewrite E. rewrite (Z.mod_small _ 256) by (destruct k; lia).
    replace (class * 64 + (if k then 32 else 0) + 31) with (31 + (class * 2 + (if k then 1 else 0)) * 32) by (destruct k; lia). rewrite Z.mod_add by lia. reflexivity.
Qed.
Lemma tree_element class tag k c f : 0 <= tag < 31 -> der_element class tag k c f -> (k = true -> trees c) -> tree f.
Proof.
  intros Ht (id & len & -> & HI & HL) HT. apply low_identifier in HI; [|exact Ht]. destruct k.
  - destruct (HT eq_refl) as (os & H). exists (Struct id os). constructor; assumption.
  - exists (Prim id c). constructor; assumption.
Qed.
Lemma tree_el class tag k c : 0 <= class < 4 -> 0 <= tag < 31 -> zlen c < 2 ^ 31 -> (k = true -> trees c) -> tree (el class tag k c).
Proof. intros H1 H2 H3 H4. eapply (tree_element class tag k c); [exact H2|apply el_der; [exact H1|unfold max_int32; lia|exact H3]|exact H4]. Qed.

(** *** What Marshal writes *)
Section W.
  Variable X : textenv.
  Lemma write_bytes b : makeField X TyBytes noParams (VBytes b) = Some (el 0 4 false b).
  Proof. destruct b; reflexivity. Qed.
  Lemma write_oid o oc : encodeOid o = Some oc -> makeField X TyOid noParams (VOid o) = Some (el 0 6 false oc).
  Proof.
    intros E. destruct o as [|x l]; [discriminate|]. unfold makeField. cbn [andb negb orb fp_omitEmpty fp_optional fp_set fp_stringType fp_default noParams getUniversalType]. change (0 =? 0) with true. cbv iota. cbn [andb]. rewrite E. reflexivity.
  Qed.
  Lemma write_big z : makeField X TyBig noParams (VInt z) = Some (el 0 2 false (encodeBigInt z)).
  Proof. reflexivity. Qed.
  Lemma write_one : makeField X TyInt (pDefault 1) (VInt 1) = Some (el 0 2 false [x01]).
  Proof. reflexivity. Qed.
  Lemma write_raw p class tag k b : fp_optional p = false -> fp_omitEmpty p = false -> makeField X TyRaw p (VRaw class tag k b []) = Some (el class tag k b).
  Proof. intros H1 H2. unfold makeField. rewrite H1, H2. reflexivity. Qed.
  Lemma write_full p full : fp_optional p = false -> fp_omitEmpty p = false -> full <> [] -> makeField X TyRaw p (VRaw 0 0 false [] full) = Some full.
  Proof. intros H1 H2 HN. unfold makeField. rewrite H1, H2. cbn [andb]. destruct full as [|x l]; [congruence|]. assert (HZ : (zlen (x :: l) =? 0) = false) by (apply Z.eqb_neq; rewrite zlen_cons; pose proof (zlen_nonneg l); lia). rewrite HZ. reflexivity. Qed.
  Lemma write_struct fs l b : makeFields X fs l = Some b -> makeField X (TyStruct false fs) noParams (VStruct [] l) = Some (el 0 16 true b).
  Proof. intros H. rewrite makeField_struct, H. reflexivity. Qed.
  Lemma write_set elem l bs : mapM (makeField X elem noParams) l = Some bs -> makeField X (TySlice false elem) pSet (VSlice l) = Some (el 0 17 true (concat bs)).
  Proof. intros H. rewrite makeField_set, H. reflexivity. Qed.
  Lemma write_slice elem tag l bs : l <> [] -> mapM (makeField X elem noParams) l = Some bs -> makeField X (TySlice false elem) (pOptionalTag tag) (VSlice l) = Some (el 2 tag true (concat bs)).
  Proof.
    intros HN H. destruct l as [|x l]; [congruence|]. unfold makeField; fold (makeField X). cbn [andb negb orb fp_omitEmpty fp_optional fp_set fp_stringType fp_default pOptionalTag getUniversalType isZero]. change (0 =? 0) with true. cbv iota.
    rewrite H. reflexivity.
  Qed.
  Lemma write_algorithm o oc : encodeOid o = Some oc -> makeField X tyAlgorithm noParams (algVal o) = Some (el 0 16 true (el 0 6 false oc)).
  Proof.
    intros E. unfold tyAlgorithm, algVal. rewrite (write_struct _ _ (el 0 6 false oc)); [reflexivity|]. rewrite makeFields_cons, (write_oid o oc E), makeFields_cons. change (makeField X TyRaw pOptional (VRaw 0 0 false [] [])) with (Some ([] : bytes)). change (makeFields X FNil []) with (Some ([] : bytes)). cbv iota. cbn [app]. rewrite app_nil_r. reflexivity.
  Qed.

  (** An attribute as it is written, and as it is read *)
  Definition aval (a : oid * bytes) : goval := attrVal (fst a) (snd a).
  Definition anew (a : oid * bytes) : p7_attr := {| pa_type := fst a; pa_value := snd a; pa_full := el 0 17 true (snd a) |}.
  Lemma full_nonempty v : el 0 17 true v <> [].
  Proof. intros C. pose proof (el_size 0 17 true v) as H. rewrite C in H. pose proof (zlen_nonneg v). change (zlen ([] : bytes)) with 0 in H. lia. Qed.
  Lemma write_attribute (a : oid * bytes) oc : encodeOid (fst a) = Some oc -> makeField X tyAttribute noParams (aval a) = Some (el 0 16 true (el 0 6 false oc ++ el 0 17 true (snd a))).
  Proof.
    intros E. unfold tyAttribute, aval, attrVal. rewrite (write_struct _ _ (el 0 6 false oc ++ el 0 17 true (snd a))); [reflexivity|]. rewrite makeFields_cons. rewrite (write_oid _ oc E), makeFields_cons, write_raw by reflexivity.
    change (makeFields X FNil []) with (Some ([] : bytes)). cbv iota. rewrite app_nil_r. reflexivity.
  Qed.
  Lemma write_attribute' (a : oid * bytes) oc : encodeOid (fst a) = Some oc -> makeField X tyAttribute noParams (attributeVal (anew a)) = Some (el 0 16 true (el 0 6 false oc ++ el 0 17 true (snd a))).
  Proof.
    intros E. unfold tyAttribute, attributeVal, anew. cbn [pa_type pa_full]. rewrite (write_struct _ _ (el 0 6 false oc ++ el 0 17 true (snd a))); [reflexivity|]. rewrite makeFields_cons, (write_oid _ oc E), makeFields_cons, write_full by (reflexivity || apply full_nonempty).
    change (makeFields X FNil []) with (Some ([] : bytes)). cbv iota. rewrite app_nil_r. reflexivity.
  Qed.
  Definition akey (a : oid * bytes) : bytes := match encodeOid (fst a) with Some oc => el 0 16 true (el 0 6 false oc ++ el 0 17 true (snd a)) | None => [] end.
  Definition aless (a b : oid * bytes) : bool := bytesLess (akey a) (akey b).
  Definition good_attr (a : oid * bytes) : Prop := valid_oid (fst a).
  Lemma good_key a : good_attr a -> makeField X tyAttribute noParams (aval a) = Some (akey a) /\ makeField X tyAttribute noParams (attributeVal (anew a)) = Some (akey a).
  Proof.
    intros H. destruct (encodeOid_der _ H) as (oc & E & _). unfold akey. rewrite E. split; [apply write_attribute|apply write_attribute']; exact E.
  Qed.
  Lemma mapM_keys (f : oid * bytes -> goval) l : Forall (fun a => makeField X tyAttribute noParams (f a) = Some (akey a)) l -> mapM (makeField X tyAttribute noParams) (map f l) = Some (map akey l).
  Proof. induction 1 as [|a l H F IH]; [reflexivity|]. cbn [map mapM]. fold (mapM (makeField X tyAttribute noParams)). rewrite H, IH. reflexivity. Qed.
  Lemma forMarshaling_eq l : Forall good_attr l -> forMarshaling X (map (fun a => (fst a, Some (snd a))) l) = Some (map aval (isort aless l)).
  Proof.
    intros HF. unfold forMarshaling. assert (E : encodeAttributes X (map (fun a => (fst a, Some (snd a))) l) = Some (map (fun a => (akey a, aval a)) l)).
    { induction HF as [|a l H F IH]; [reflexivity|]. cbn [map encodeAttributes]. rewrite IH. unfold stdMarshal. change (sortSets X tyAttribute noParams (attrVal (fst a) (snd a))) with (aval a). unfold marshal. rewrite (proj1 (good_key a H)). reflexivity. }
    rewrite E. cbn [option_map]. f_equal. rewrite isort_map, map_map. reflexivity.
  Qed.
  (* both ways to write the SET of attributes *)
  Lemma sortSet_vals (f : oid * bytes -> goval) l : Forall (fun a => makeField X tyAttribute noParams (f a) = Some (akey a)) l -> (forall a, sortSets X tyAttribute noParams (f a) = f a) ->
    stdMarshal X tyAttributeSet (VStruct [] [VSlice (map f l)]) = Some (el 0 16 true (el 0 17 true (concat (map akey (isort aless l))))).
  Proof.
    intros HF HS. unfold stdMarshal.
    assert (E : sortSets X tyAttributeSet noParams (VStruct [] [VSlice (map f l)]) = VStruct [] [VSlice (map f (isort aless l))]).
    { transitivity (VStruct [] [VSlice (isort (encodingLess X tyAttribute) (map (sortSets X tyAttribute noParams) (map f l)))]); [reflexivity|]. f_equal. f_equal. f_equal.
      rewrite map_map, (map_ext _ f HS), isort_map. f_equal. apply isort_in. intros a b Ha Hb. rewrite Forall_forall in HF. unfold encodingLess, aless. rewrite (HF a Ha), (HF b Hb). reflexivity. }
    rewrite E. unfold marshal, tyAttributeSet. rewrite (write_struct _ _ (el 0 17 true (concat (map akey (isort aless l))))); [reflexivity|]. rewrite makeFields_cons. unfold tyAttributes.
    rewrite (write_set _ _ (map akey (isort aless l))); [change (makeFields X FNil []) with (Some ([] : bytes)); cbv iota; rewrite app_nil_r; reflexivity|]. apply mapM_keys. eapply Permutation_Forall; [apply isort_perm|exact HF].
  Qed.
End W.
Lemma marshalAttrVals_eq K l : Forall good_attr l -> marshalAttrVals (k_text K) (map aval l) = marshalAttributes K (map anew l).
Proof.
  intros HF. unfold marshalAttrVals, marshalAttributes. rewrite map_map.
  rewrite (sortSet_vals (k_text K) aval l), (sortSet_vals (k_text K) (fun a => attributeVal (anew a)) l); try reflexivity; eapply Forall_impl; try exact HF; intros a H; apply (good_key (k_text K) a H).
Qed.

(** *** Sizes *)
Definition small (b : bytes) : Prop := zlen b < 2 ^ 31.
Lemma small_el c t k b : small (el c t k b) -> small b.
Proof. unfold small. pose proof (el_size c t k b). lia. Qed.
Lemma small_app a b : small (a ++ b) -> small a /\ small b.
Proof. unfold small. rewrite zlen_app. pose proof (zlen_nonneg a). pose proof (zlen_nonneg b). lia. Qed.
Lemma small_concat l x : small (concat l) -> In x l -> small x.
Proof. unfold small. intros H HI. pose proof (element_concat l x HI). lia. Qed.
Ltac smalls := repeat match goal with
  | H : small (el ?c ?t ?k ?b) |- _ => lazymatch goal with _ : small b |- _ => fail | _ => pose proof (small_el c t k b H) end
  | H : small (?a ++ ?b) |- _ => lazymatch goal with _ : small a, _ : small b |- _ => fail | _ => destruct (small_app a b H) end end.
Ltac der_el := apply el_der; [lia|unfold max_int32; lia|assumption].
Ltac tree_by := match goal with |- tree (el _ _ _ _) => apply tree_el; [lia|lia|assumption|try (intros C; discriminate C); intros _] end.

(** *** A SignerInfo *)
Record mk : Set := { m_cert : scert; m_attrs : list (oid * bytes); m_sig : bytes }.
Definition mval (m : mk) : goval := signerVal (m_cert m) (map aval (m_attrs m)) (m_sig m).
Definition oid_sha1 : bytes := [x2b; x0e; x03; x02; x1a].
Definition oid_sha1rsa : bytes := [x2a; x86; x48; x86; xf7; x0d; x01; x01; x05].
Definition ienc (c : scert) : bytes := el 0 16 true (sc_issuer c ++ el 0 2 false (encodeBigInt (sc_serial c))).
Definition menc (m : mk) : bytes := el 0 16 true
  (el 0 2 false [x01] ++ ienc (m_cert m) ++ el 0 16 true (el 0 6 false oid_sha1) ++ el 2 0 true (concat (map akey (m_attrs m))) ++
   el 0 16 true (el 0 6 false oid_sha1rsa) ++ el 0 4 false (m_sig m)).
Definition asaid (a : oid * bytes) : oid * bytes := (fst a, el 0 17 true (snd a)).
Definition mdoc (m : mk) : signer_doc := {|
  sd_version := 1; sd_issuer := sc_issuer (m_cert m); sd_serial := sc_serial (m_cert m); sd_digest := ([1; 3; 14; 3; 2; 26], None);
  sd_attrs := Some (map asaid (m_attrs m)); sd_enc := ([1; 2; 840; 113549; 1; 1; 5], None); sd_signature := m_sig m; sd_unauth := None |}.
Definition mk_ok (m : mk) : Prop := is_element (sc_issuer (m_cert m)) /\ m_attrs m <> [] /\ Forall good_attr (m_attrs m).

Lemma element_not_nil b : is_element b -> b <> [].
Proof. intros (c & t & k & x & H) ->. apply element_size in H. pose proof (zlen_nonneg x). change (zlen ([] : bytes)) with 0 in H. lia. Qed.
Section S.
  Variable X : textenv.
  Lemma write_signer m : mk_ok m -> makeField X tySignerInfo noParams (mval m) = Some (menc m).
  Proof.
    intros (H1 & H2 & H3). unfold tySignerInfo, mval, signerVal, menc. apply write_struct.
    rewrite makeFields_cons, write_one, makeFields_cons. unfold tyIssuerAndSerial, iasVal at 1.
    rewrite (write_struct X _ _ (sc_issuer (m_cert m) ++ el 0 2 false (encodeBigInt (sc_serial (m_cert m))))).
    2:{ rewrite makeFields_cons, write_full by (reflexivity || apply element_not_nil, H1). rewrite makeFields_cons, write_big. change (makeFields X FNil []) with (Some ([] : bytes)). cbv iota. rewrite app_nil_r. reflexivity. }
    rewrite makeFields_cons, (write_algorithm X oidDigestSHA1 oid_sha1 eq_refl), makeFields_cons. unfold tyAttributes.
    rewrite (write_slice X _ 0 _ (map akey (m_attrs m))); [|destruct (m_attrs m); [congruence|discriminate]|apply mapM_keys; eapply Forall_impl; [|exact H3]; intros a Ha; apply (good_key X a Ha)].
    rewrite makeFields_cons, (write_algorithm X oidSHA1WithRSA oid_sha1rsa eq_refl), makeFields_cons, write_bytes, makeFields_cons.
    change (makeField X (TySlice false tyAttribute) (pOptionalTag 1) VNil) with (Some ([] : bytes)). change (makeFields X FNil []) with (Some ([] : bytes)). cbv iota. cbn [app]. rewrite app_nil_r. reflexivity.
  Qed.
End S.
Lemma valid_sha1 : valid_oid [1; 3; 14; 3; 2; 26].
Proof. exists 1, 3, [14; 3; 2; 26]. unfold max_int32. repeat split; try lia. repeat constructor; lia. Qed.
Lemma valid_sha1rsa : valid_oid [1; 2; 840; 113549; 1; 1; 5].
Proof. exists 1, 2, [840; 113549; 1; 1; 5]. unfold max_int32. repeat split; try lia. repeat constructor; lia. Qed.
Lemma oid_written o oc : valid_oid o -> encodeOid o = Some oc -> small (el 0 6 false oc) -> oid_element o (el 0 6 false oc).
Proof. intros V E H. smalls. destruct (encodeOid_der o V) as (b & E' & D). assert (b = oc) as -> by congruence. exists oc. split; [exact D|]. der_el. Qed.
Lemma algorithm_written o oc : valid_oid o -> encodeOid o = Some oc -> small (el 0 16 true (el 0 6 false oc)) -> algorithm_der (o, None) (el 0 16 true (el 0 6 false oc)).
Proof.
  intros V E H. smalls. exists (el 0 6 false oc), []. split; [apply oid_written; assumption|]. split; [reflexivity|]. unfold seq_der. cbn [concat app]. rewrite app_nil_r. der_el.
Qed.
Lemma akey_der a : good_attr a -> small (akey a) -> attribute_der (asaid a) (akey a).
Proof.
  intros V. destruct (encodeOid_der _ V) as (oc & E & D). unfold akey. rewrite E. intros H. smalls. exists oc, (el 0 6 false oc). cbn [asaid fst snd]. split; [exact D|]. split; der_el.
Qed.
Lemma akeys_der l : Forall good_attr l -> small (concat (map akey l)) -> attributes_der (map asaid l) (concat (map akey l)).
Proof.
  induction 1 as [|a l H F IH]; cbn [map concat]; [constructor|]. intros HS. smalls. constructor; [apply akey_der; assumption|apply IH; assumption].
Qed.
Lemma akey_value a : good_attr a -> small (akey a) -> small (snd a).
Proof. intros V. destruct (encodeOid_der _ V) as (oc & E & D). unfold akey. rewrite E. intros H. smalls. assumption. Qed.
Lemma signer_written m : mk_ok m -> small (menc m) -> signer_der (mdoc m) (menc m).
Proof.
  intros (H1 & H2 & H3) HS. unfold menc, ienc in *. smalls.
  exists (el 0 2 false [x01]), (el 0 2 false (encodeBigInt (sc_serial (m_cert m)))), (ienc (m_cert m)), (el 0 16 true (el 0 6 false oid_sha1)), (el 2 0 true (concat (map akey (m_attrs m)))), (el 0 16 true (el 0 6 false oid_sha1rsa)), (el 0 4 false (m_sig m)), [].
  cbn [mdoc sd_version sd_issuer sd_serial sd_digest sd_attrs sd_enc sd_signature sd_unauth optional].
  split; [lia|]. split; [exists [x01]; split; [apply parseBigInt_iff; reflexivity|der_el]|]. split; [exists (encodeBigInt (sc_serial (m_cert m))); split; [apply encodeBigInt_octets|der_el]|]. split; [exact H1|].
  split; [unfold seq_der; cbn [concat]; rewrite app_nil_r; unfold ienc; der_el|]. split; [apply algorithm_written; [exact valid_sha1|reflexivity|assumption]|].
  split. { exists (concat (map akey (m_attrs m))). split; [apply akeys_der; assumption|]. split; [|der_el].
    apply Forall_map, Forall_forall. intros a Ha. cbn [asaid snd]. assert (Hs : small (snd a)). { apply akey_value; [rewrite Forall_forall in H3; auto|]. eapply small_concat; [eassumption|apply in_map; exact Ha]. }
    exists 0, 17, true, (snd a). apply header_element; [lia|unfold max_int32; lia|exact Hs]. }
  split; [apply algorithm_written; [exact valid_sha1rsa|reflexivity|assumption]|]. split; [der_el|]. split; [reflexivity|].
  unfold seq_der, ienc. cbn [concat]. rewrite app_nil_r. der_el.
Qed.
Lemma akey_tree a : good_attr a -> small (akey a) -> tree (snd a) -> tree (akey a).
Proof.
  intros V. destruct (encodeOid_der _ V) as (oc & E & D). unfold akey. rewrite E. intros H HT. smalls. tree_by. apply trees_cons; [tree_by|]. apply trees_one. tree_by. apply trees_one. exact HT.
Qed.
Lemma signer_tree m : mk_ok m -> small (menc m) -> tree (sc_issuer (m_cert m)) -> Forall (fun a => tree (snd a)) (m_attrs m) -> tree (menc m).
Proof.
  intros (H1 & H2 & H3) HS HI HA. unfold menc, ienc in *. smalls. tree_by. apply trees_cons; [tree_by|]. apply trees_cons; [tree_by; apply trees_cons; [exact HI|apply trees_one; tree_by]|].
  apply trees_cons; [tree_by; apply trees_one; tree_by|]. apply trees_cons; [|apply trees_cons; [tree_by; apply trees_one; tree_by|apply trees_one; tree_by]].
  tree_by. apply trees_concat. apply Forall_map, Forall_forall. intros a Ha. rewrite Forall_forall in H3, HA. apply akey_tree; auto. eapply small_concat; [eassumption|apply in_map; exact Ha].
Qed.

(** *** The SignedData object *)
Definition mless (a b : mk) : bool := bytesLess (menc a) (menc b).
Definition oid_data : bytes := [x2a; x86; x48; x86; xf7; x0d; x01; x07; x01].
Definition oid_signed : bytes := [x2a; x86; x48; x86; xf7; x0d; x01; x07; x02].
Definition denc (digests : bool) : bytes := if digests then el 0 16 true (el 0 6 false oid_sha1) else [].
Definition cenc (content : option bytes) : bytes := match content with Some b => el 2 0 true (el 0 4 false b) | None => [] end.
Definition crlenc (crls : bool) : bytes := if crls then el 2 1 true [] else [].
Definition body_enc (digests : bool) (content : option bytes) (certs : bytes) (crls : bool) (ms : list mk) : bytes := el 0 16 true
  (el 0 2 false [x01] ++ el 0 17 true (denc digests) ++ el 0 16 true (el 0 6 false oid_data ++ cenc content) ++ el 2 0 true certs ++ crlenc crls ++
   el 0 17 true (concat (map menc (isort mless ms)))).
Definition file_enc (body : bytes) : bytes := el 0 16 true (el 0 6 false oid_signed ++ el 2 0 true body).
Definition body_val (digests : bool) (content : option bytes) (certs : bytes) (crls : bool) (ms : list mk) : goval := VStruct [] [VInt 1;
  (if digests then VSlice [algVal oidDigestSHA1] else VNil);
  infoVal oidData (match content with Some b => VRaw 2 0 true (el 0 4 false b) [] | None => VRaw 0 0 false [] [] end);
  VStruct (el 2 0 true certs) []; (if crls then VSlice [] else VNil); sliceVal (map mval ms)].
Section B.
  Variable X : textenv.
  Lemma sort_attr_vals l : map (sortSets X tyAttribute noParams) (map aval l) = map aval l.
  Proof. rewrite map_map. apply map_ext. reflexivity. Qed.
  Lemma sort_mval m : sortSets X tySignerInfo noParams (mval m) = mval m.
  Proof.
    transitivity (VStruct [] [VInt 1; iasVal (m_cert m); algVal oidDigestSHA1; VSlice (map (sortSets X tyAttribute noParams) (map aval (m_attrs m))); algVal oidSHA1WithRSA; VBytes (m_sig m); VNil]); [reflexivity|].
    rewrite sort_attr_vals. reflexivity.
  Qed.
  Lemma sort_signers ms : Forall mk_ok ms -> sortSets X (TySlice false tySignerInfo) pSet (sliceVal (map mval ms)) = sliceVal (map mval (isort mless ms)).
  Proof.
    intros HF. destruct ms as [|m ms]; [reflexivity|].
    transitivity (VSlice (map mval (isort mless (m :: ms)))).
    - unfold sliceVal. cbn [map]. change (mval m :: map mval ms) with (map mval (m :: ms)).
      transitivity (VSlice (isort (encodingLess X tySignerInfo) (map (sortSets X tySignerInfo noParams) (map mval (m :: ms))))); [reflexivity|]. f_equal.
      rewrite map_map, (map_ext _ mval sort_mval), isort_map. f_equal. apply isort_in. intros a b Ha Hb. rewrite Forall_forall in HF. unfold encodingLess, mless. rewrite (write_signer X a (HF a Ha)), (write_signer X b (HF b Hb)). reflexivity.
    - pose proof (isort_perm mless (m :: ms)) as HP. destruct (isort mless (m :: ms)) as [|x l]; [apply Permutation_sym, Permutation_nil in HP; discriminate|reflexivity].
  Qed.
  Lemma write_signers ms : Forall mk_ok ms -> makeField X (TySlice false tySignerInfo) pSet (sliceVal (map mval ms)) = Some (el 0 17 true (concat (map menc ms))).
  Proof.
    intros HF. destruct ms as [|m ms]; [reflexivity|]. unfold sliceVal. cbn [map]. rewrite (write_set X tySignerInfo _ (map menc (m :: ms))); [reflexivity|].
    change (mval m :: map mval ms) with (map mval (m :: ms)). induction HF as [|a l H F IH]; [reflexivity|]. cbn [map mapM]. fold (mapM (makeField X tySignerInfo noParams)). rewrite (write_signer X a H), IH. reflexivity.
  Qed.
  Lemma write_certs certs : small certs -> makeField X tyRawCertificates (pOptionalTag 0) (VStruct (el 2 0 true certs) []) = Some (el 2 0 true certs).
  Proof.
    intros HS. assert (HP : parseTagAndLength (el 2 0 true certs) = Some (hd 2 0 (zlen certs) true, certs)).
    { rewrite <- (app_nil_r (el 2 0 true certs)). rewrite (element_parse 2 0 true certs); [rewrite app_nil_r; reflexivity|]. apply header_element; [lia|unfold max_int32; lia|exact HS]. }
    destruct (el 2 0 true certs) as [|b raw] eqn:E; [exfalso; pose proof (el_size 2 0 true certs) as C; rewrite E in C; pose proof (zlen_nonneg certs); change (zlen ([] : bytes)) with 0 in C; lia|].
    unfold tyRawCertificates. unfold makeField. cbn [andb negb orb fp_omitEmpty fp_optional fp_set fp_stringType fp_default pOptionalTag getUniversalType isZero]. change (0 =? 0) with true. cbv iota.
    assert (HZ : (zlen (b :: raw) =? 0) = false) by (apply Z.eqb_neq; rewrite zlen_cons; pose proof (zlen_nonneg raw); lia). rewrite HZ. cbn [andb]. rewrite HP. rewrite <- E. reflexivity.
  Qed.
  Lemma write_content_info o oc content : encodeOid o = Some oc ->
    makeField X tyContentInfo noParams (infoVal o (match content with Some b => VRaw 2 0 true b [] | None => VRaw 0 0 false [] [] end)) =
    Some (el 0 16 true (el 0 6 false oc ++ match content with Some b => el 2 0 true b | None => [] end)).
  Proof.
    intros E. unfold tyContentInfo, infoVal. apply write_struct. rewrite makeFields_cons, (write_oid X o oc E), makeFields_cons.
    destruct content as [b|]; [change (makeField X TyRaw (pExplicitTag 0) (VRaw 2 0 true b [])) with (Some (el 2 0 true b))|change (makeField X TyRaw (pExplicitTag 0) (VRaw 0 0 false [] [])) with (Some ([] : bytes))];
      change (makeFields X FNil []) with (Some ([] : bytes)); cbv iota; rewrite ?app_nil_r; reflexivity.
  Qed.
  Lemma write_digests (d : bool) : makeField X (TySlice false tyAlgorithm) pSet (if d then VSlice [algVal oidDigestSHA1] else VNil) = Some (el 0 17 true (denc d)).
  Proof.
    destruct d; [|reflexivity]. rewrite (write_set X tyAlgorithm _ [denc true]); [cbn [concat]; rewrite app_nil_r; reflexivity|]. cbn [mapM]. rewrite (write_algorithm X oidDigestSHA1 oid_sha1 eq_refl). reflexivity.
  Qed.
  Lemma write_body digests content certs crls ms : Forall mk_ok ms -> small certs ->
    stdMarshal X tySignedData (body_val digests content certs crls ms) = Some (body_enc digests content certs crls ms).
  Proof.
    intros HF HC. unfold stdMarshal.
    assert (ES : sortSets X tySignedData noParams (body_val digests content certs crls ms) = body_val digests content certs crls (isort mless ms)).
    { transitivity (VStruct [] [VInt 1; sortSets X (TySlice false tyAlgorithm) pSet (if digests then VSlice [algVal oidDigestSHA1] else VNil);
        infoVal oidData (match content with Some b => VRaw 2 0 true (el 0 4 false b) [] | None => VRaw 0 0 false [] [] end);
        VStruct (el 2 0 true certs) []; sortSets X (TySlice false tyCrl) (pOptionalTag 1) (if crls then VSlice [] else VNil); sortSets X (TySlice false tySignerInfo) pSet (sliceVal (map mval ms))]).
      - destruct content; reflexivity.
      - unfold body_val. rewrite sort_signers by exact HF. destruct digests, crls; reflexivity. }
    rewrite ES. unfold marshal, tySignedData, body_val, body_enc. apply write_struct.
    rewrite makeFields_cons. change (makeField X TyInt (pDefault 1) (VInt 1)) with (Some (el 0 2 false [x01])). rewrite makeFields_cons, write_digests, makeFields_cons.
    pose proof (write_content_info oidData oid_data (option_map (fun b => el 0 4 false b) content) eq_refl) as HW.
    assert (EC : makeField X tyContentInfo noParams (infoVal oidData (match content with Some b => VRaw 2 0 true (el 0 4 false b) [] | None => VRaw 0 0 false [] [] end)) = Some (el 0 16 true (el 0 6 false oid_data ++ cenc content))) by (destruct content; exact HW).
    rewrite EC, makeFields_cons, (write_certs certs HC), makeFields_cons.
    assert (ER : makeField X (TySlice false tyCrl) (pOptionalTag 1) (if crls then VSlice [] else VNil) = Some (crlenc crls)) by (destruct crls; reflexivity).
    rewrite ER, makeFields_cons, write_signers by (eapply Permutation_Forall; [apply isort_perm|exact HF]). change (makeFields X FNil []) with (Some ([] : bytes)). cbv iota. rewrite app_nil_r. reflexivity.
  Qed.
  Lemma write_file digests content certs crls ms : Forall mk_ok ms -> small certs ->
    wrapSigned X (body_val digests content certs crls ms) = Some (file_enc (body_enc digests content certs crls ms)).
  Proof.
    intros HF HC. unfold wrapSigned. rewrite write_body by assumption. unfold stdMarshal, marshal.
    change (sortSets X tyContentInfo noParams ?v) with v.
    apply (write_content_info oidSignedData oid_signed (Some (body_enc digests content certs crls ms)) eq_refl).
  Qed.
End B.

Definition bdoc (digests : bool) (content : option bytes) (certs : bytes) (crls : bool) (ms : list mk) : content_doc := {|
  c_doc := {| s_version := 1; s_digests := if digests then [([1; 3; 14; 3; 2; 26], None)] else []; s_content_type := [1; 2; 840; 113549; 1; 7; 1];
              s_certs := Some certs; s_signers := map mdoc (isort mless ms) |};
  c_content := content; c_crls := if crls then Some [] else None |}.
Lemma valid_data : valid_oid [1; 2; 840; 113549; 1; 7; 1].
Proof. exists 1, 2, [840; 113549; 1; 7; 1]. unfold max_int32. repeat split; try lia. repeat constructor; lia. Qed.
Lemma valid_signed : valid_oid [1; 2; 840; 113549; 1; 7; 2].
Proof. exists 1, 2, [840; 113549; 1; 7; 2]. unfold max_int32. repeat split; try lia. repeat constructor; lia. Qed.
Lemma file_der T digests content certs crls ms : Forall mk_ok ms -> small (file_enc (body_enc digests content certs crls ms)) ->
  content_der T (bdoc digests content certs crls ms) (file_enc (body_enc digests content certs crls ms)).
Proof.
  intros HF HS. unfold file_enc, body_enc in HS. smalls. assert (HF' : Forall mk_ok (isort mless ms)) by (eapply Permutation_Forall; [apply isort_perm|exact HF]).
  exists (el 0 2 false [x01]), (if digests then [denc true] else []), (el 0 17 true (denc digests)), (el 0 6 false oid_data), (cenc content), (el 0 16 true (el 0 6 false oid_data ++ cenc content)),
    (el 2 0 true certs), (crlenc crls), (map menc (isort mless ms)), (el 0 17 true (concat (map menc (isort mless ms)))), (body_enc digests content certs crls ms), (el 0 6 false oid_signed), (el 2 0 true (body_enc digests content certs crls ms)).
  cbn [bdoc c_doc c_content c_crls s_version s_digests s_content_type s_certs s_signers optional].
  split; [lia|]. split; [exists [x01]; split; [apply parseBigInt_iff; reflexivity|der_el]|].
  split; [destruct digests; constructor; [|constructor]; apply algorithm_written; [exact valid_sha1|reflexivity|assumption]|].
  split; [unfold set_der; destruct digests; cbn [concat]; rewrite ?app_nil_r; der_el|]. split; [apply oid_written; [exact valid_data|reflexivity|assumption]|].
  split. { destruct content as [b|]; cbn [optional cenc] in *; [|reflexivity]. smalls. exists (el 0 4 false b). split; der_el. }
  split; [unfold seq_der; cbn [concat]; rewrite app_nil_r; der_el|]. split; [der_el|]. split; [destruct crls; cbn [optional crlenc] in *; [exists []; split; [constructor|cbn [concat]; smalls; der_el]|reflexivity]|].
  split. { assert (HC : small (concat (map menc (isort mless ms)))) by assumption. clear -HF' HC. induction HF' as [|m l H F IH]; [constructor|]. cbn [map concat] in *. smalls. constructor; [apply signer_written; assumption|apply IH; assumption]. }
  split; [unfold set_der; der_el|]. split; [unfold seq_der, body_enc; cbn [concat]; rewrite app_nil_r; der_el|].
  split; [apply oid_written; [exact valid_signed|reflexivity|assumption]|]. split; [unfold body_enc; der_el|]. unfold seq_der, file_enc, body_enc. cbn [concat]. rewrite app_nil_r. der_el.
Qed.
Lemma file_tree digests content certs crls ms : Forall mk_ok ms -> small (file_enc (body_enc digests content certs crls ms)) ->
  trees certs -> Forall (fun m => tree (sc_issuer (m_cert m)) /\ Forall (fun a => tree (snd a)) (m_attrs m)) ms -> tree (file_enc (body_enc digests content certs crls ms)).
Proof.
  intros HF HS HC HT. unfold file_enc, body_enc in *. smalls. assert (HP : forall m, In m (isort mless ms) -> In m ms) by (intros m; apply Permutation_in, Permutation_sym, isort_perm).
  tree_by. apply trees_cons; [tree_by|]. apply trees_one. tree_by. apply trees_one. tree_by.
  apply trees_cons; [tree_by|]. apply trees_cons; [tree_by; destruct digests; cbn [denc] in *; smalls; [apply trees_one; tree_by; apply trees_one; tree_by|apply trees_nil]|].
  apply trees_cons; [tree_by; apply trees_cons; [tree_by|]; destruct content as [b|]; cbn [cenc] in *; smalls; [apply trees_one; tree_by; apply trees_one; tree_by|apply trees_nil]|].
  apply trees_cons; [tree_by; exact HC|]. apply trees_app; [destruct crls; cbn [crlenc] in *; smalls; [apply trees_one; tree_by; apply trees_nil|apply trees_nil]|].
  apply trees_one. tree_by. apply trees_concat. apply Forall_map, Forall_forall. intros m Hm. rewrite Forall_forall in HF, HT. destruct (HT m (HP m Hm)) as (T1 & T2).
  apply signer_tree; auto. eapply small_concat; [eassumption|apply in_map; exact Hm].
Qed.
