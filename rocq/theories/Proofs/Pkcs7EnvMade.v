(** What Encrypt writes *)
From Coq Require Import Lia Permutation.
From Verif.Model Require Import Bytes Env Ber Asn1 Pkcs7 X509 Pkcs7Verify Pkcs7Sign Pkcs7Envelope.
From Verif.Spec Require Import Ber Asn1 Asn1Value Pkcs7 Pkcs7Sign Pkcs7Envelope.
From Verif.Proofs Require Import BytesFacts BerFacts Asn1Codec Asn1Header Asn1Value Asn1Decode DerFacts DerSize Pkcs7Facts Pkcs7Parse Pkcs7Honest Pkcs7VerifyFacts Pkcs7Doc X509Facts X509Honest Pkcs7SignFacts Pkcs7Made Pkcs7EnvFacts.

Definition oid_rsa : bytes := [x2a; x86; x48; x86; xf7; x0d; x01; x01; x01].
Definition oid_enveloped : bytes := [x2a; x86; x48; x86; xf7; x0d; x01; x07; x03].
Definition rk : Set := scert * bytes.
Definition rval (r : rk) : goval := recipientVal (fst r) (snd r).
Definition renc (r : rk) : bytes := el 0 16 true (el 0 2 false [x00] ++ ienc (fst r) ++ el 0 16 true (el 0 6 false oid_rsa) ++ el 0 4 false (snd r)).
Definition rless (a b : rk) : bool := bytesLess (renc a) (renc b).
Definition rdoc (r : rk) : recipient_doc := {| rd_version := 0; rd_issuer := sc_issuer (fst r); rd_serial := sc_serial (fst r); rd_alg := ([1; 2; 840; 113549; 1; 1; 1], None); rd_key := snd r |}.
Definition rk_ok (r : rk) : Prop := is_element (sc_issuer (fst r)).

Section W.
  Variable X : textenv.
  Lemma write_recipient r : rk_ok r -> makeField X tyRecipient noParams (rval r) = Some (renc r).
  Proof.
    intros H. unfold tyRecipient, rval, recipientVal, renc. apply write_struct.
    rewrite makeFields_cons. change (makeField X TyInt noParams (VInt 0)) with (Some (el 0 2 false [x00])). rewrite makeFields_cons. unfold tyIssuerAndSerial, iasVal at 1.
    rewrite (write_struct X _ _ (sc_issuer (fst r) ++ el 0 2 false (encodeBigInt (sc_serial (fst r))))).
    2:{ rewrite makeFields_cons, write_full by (reflexivity || (apply element_not_nil; exact H)). rewrite makeFields_cons, write_big. change (makeFields X FNil []) with (Some ([] : bytes)). cbv iota. rewrite app_nil_r. reflexivity. }
    rewrite makeFields_cons, (write_algorithm X oidEncryptionRSA oid_rsa eq_refl), makeFields_cons, write_bytes. change (makeFields X FNil []) with (Some ([] : bytes)). cbv iota. rewrite app_nil_r. reflexivity.
  Qed.
  Lemma sort_recipients l : Forall rk_ok l -> sortSets X (TySlice false tyRecipient) pSet (VSlice (map rval l)) = VSlice (map rval (isort rless l)).
  Proof.
    intros HF. transitivity (VSlice (isort (encodingLess X tyRecipient) (map (sortSets X tyRecipient noParams) (map rval l)))); [reflexivity|]. f_equal.
    rewrite map_map, (map_ext _ rval) by reflexivity. rewrite isort_map. f_equal. apply isort_in. intros a b Ha Hb. rewrite Forall_forall in HF. unfold encodingLess, rless. rewrite (write_recipient a (HF a Ha)), (write_recipient b (HF b Hb)). reflexivity.
  Qed.
  Lemma write_recipients l : Forall rk_ok l -> makeField X (TySlice false tyRecipient) pSet (VSlice (map rval l)) = Some (el 0 17 true (concat (map renc l))).
  Proof.
    intros HF. rewrite (write_set X tyRecipient _ (map renc l)); [reflexivity|]. induction HF as [|a l H F IH]; [reflexivity|]. cbn [map mapM]. fold (mapM (makeField X tyRecipient noParams)). rewrite (write_recipient a H), IH. reflexivity.
  Qed.

  (** *** The encrypted content *)
  Definition eci_enc (oc pel ct : bytes) : bytes := el 0 16 true (el 0 6 false oid_data ++ el 0 16 true (el 0 6 false oc ++ pel) ++ el 2 0 true (el 0 4 false ct)).
  Lemma write_eci o oc tag params ct : encodeOid o = Some oc -> tag <> 0 ->
    makeField X tyEncryptedContent noParams (contentVal X o (VRaw 0 tag false params []) ct) = Some (eci_enc oc (el 0 tag false params) ct).
  Proof.
    intros E HT. unfold tyEncryptedContent, contentVal, eci_enc. apply write_struct.
    rewrite makeFields_cons, (write_oid X oidData oid_data eq_refl), makeFields_cons. unfold tyAlgorithm at 1. rewrite (write_struct X _ _ (el 0 6 false oc ++ el 0 tag false params)).
    2:{ rewrite makeFields_cons, (write_oid X o oc E), makeFields_cons. assert (EW : makeField X TyRaw pOptional (VRaw 0 tag false params []) = Some (el 0 tag false params)).
        { unfold makeField. cbn [fp_optional fp_omitEmpty fp_default pOptional isZero andb]. rewrite (proj2 (Z.eqb_neq tag 0) HT). reflexivity. }
        rewrite EW. change (makeFields X FNil []) with (Some ([] : bytes)). cbv iota. rewrite app_nil_r. reflexivity. }
    rewrite makeFields_cons. unfold marshalEncryptedContent. assert (EB : stdMarshal X TyBytes (VBytes ct) = Some (el 0 4 false ct)) by (unfold stdMarshal, marshal; cbn [sortSets]; apply write_bytes). rewrite EB.
    change (makeField X TyRaw (pOptionalTag 0) (VRaw 2 0 true (el 0 4 false ct) [])) with (Some (el 2 0 true (el 0 4 false ct))). change (makeFields X FNil []) with (Some ([] : bytes)). cbv iota. rewrite app_nil_r. reflexivity.
  Qed.
  Definition env_enc (l : list rk) (eci : bytes) : bytes := el 0 16 true (el 0 2 false [x00] ++ el 0 17 true (concat (map renc (isort rless l))) ++ eci).
  Definition envfile_enc (l : list rk) (eci : bytes) : bytes := el 0 16 true (el 0 6 false oid_enveloped ++ el 2 0 true (env_enc l eci)).
  Lemma write_envelope l o oc tag params ct : Forall rk_ok l -> encodeOid o = Some oc -> tag <> 0 ->
    stdMarshal X tyEnvelopedData (VStruct [] [VInt 0; VSlice (map rval l); contentVal X o (VRaw 0 tag false params []) ct]) = Some (env_enc l (eci_enc oc (el 0 tag false params) ct)).
  Proof.
    intros HF E HT. unfold stdMarshal.
    assert (ES : sortSets X tyEnvelopedData noParams (VStruct [] [VInt 0; VSlice (map rval l); contentVal X o (VRaw 0 tag false params []) ct]) = VStruct [] [VInt 0; VSlice (map rval (isort rless l)); contentVal X o (VRaw 0 tag false params []) ct]).
    { rewrite <- sort_recipients by exact HF. reflexivity. }
    rewrite ES. unfold marshal, tyEnvelopedData, env_enc. apply write_struct.
    rewrite makeFields_cons. change (makeField X TyInt noParams (VInt 0)) with (Some (el 0 2 false [x00])).
    rewrite makeFields_cons, write_recipients by (eapply Permutation_Forall; [apply isort_perm|exact HF]). rewrite makeFields_cons, (write_eci o oc tag params ct E HT).
    change (makeFields X FNil []) with (Some ([] : bytes)). cbv iota. rewrite app_nil_r. reflexivity.
  Qed.
  Lemma write_envfile l o oc tag params ct : Forall rk_ok l -> encodeOid o = Some oc -> tag <> 0 ->
    match stdMarshal X tyEnvelopedData (VStruct [] [VInt 0; VSlice (map rval l); contentVal X o (VRaw 0 tag false params []) ct]) with
    | None => None
    | Some inner => stdMarshal X tyContentInfo (infoVal oidEnvelopedData (VRaw 2 0 true inner []))
    end = Some (envfile_enc l (eci_enc oc (el 0 tag false params) ct)).
  Proof.
    intros HF E HT. rewrite (write_envelope l o oc tag params ct HF E HT). unfold stdMarshal, marshal. change (sortSets X tyContentInfo noParams ?v) with v.
    apply (write_content_info X oidEnvelopedData oid_enveloped (Some (env_enc l (eci_enc oc (el 0 tag false params) ct))) eq_refl).
  Qed.
  Definition gcm_enc (nonce : bytes) : bytes := el 0 16 true (el 2 4 false nonce ++ el 0 2 false [x10]).
  Lemma write_gcm nonce : stdMarshal X tyGcmParams (VStruct [] [VBytes nonce; VInt 16]) = Some (gcm_enc nonce).
  Proof.
    unfold stdMarshal, marshal. change (sortSets X tyGcmParams noParams (VStruct [] [VBytes nonce; VInt 16])) with (VStruct [] [VBytes nonce; VInt 16]). unfold tyGcmParams, gcm_enc. apply write_struct.
    rewrite makeFields_cons. assert (EW : makeField X TyBytes (pTag 4) (VBytes nonce) = Some (el 2 4 false nonce)) by (destruct nonce; reflexivity). rewrite EW, makeFields_cons.
    change (makeField X TyInt noParams (VInt 16)) with (Some (el 0 2 false [x10])). change (makeFields X FNil []) with (Some ([] : bytes)). cbv iota. rewrite app_nil_r. reflexivity.
  Qed.
End W.

(** *** It is a document *)
Lemma valid_rsa : valid_oid [1; 2; 840; 113549; 1; 1; 1].
Proof. exists 1, 2, [840; 113549; 1; 1; 1]. unfold max_int32. repeat split; try lia. repeat constructor; lia. Qed.
Lemma valid_enveloped : valid_oid [1; 2; 840; 113549; 1; 7; 3].
Proof. exists 1, 2, [840; 113549; 1; 7; 3]. unfold max_int32. repeat split; try lia. repeat constructor; lia. Qed.
Lemma recipient_written r : rk_ok r -> small (renc r) -> recipient_der (rdoc r) (renc r).
Proof.
  intros H HS. unfold renc, ienc in *. smalls.
  exists (el 0 2 false [x00]), (el 0 2 false (encodeBigInt (sc_serial (fst r)))), (ienc (fst r)), (el 0 16 true (el 0 6 false oid_rsa)), (el 0 4 false (snd r)).
  cbn [rdoc rd_version rd_issuer rd_serial rd_alg rd_key]. split; [lia|]. split; [exists [x00]; split; [apply parseBigInt_iff; reflexivity|der_el]|].
  split; [exists (encodeBigInt (sc_serial (fst r))); split; [apply encodeBigInt_octets|der_el]|]. split; [exact H|].
  split; [unfold seq_der, ienc; cbn [concat]; rewrite app_nil_r; der_el|]. split; [apply algorithm_written; [exact valid_rsa|reflexivity|assumption]|]. split; [der_el|].
  unfold seq_der, ienc. cbn [concat]. rewrite app_nil_r. der_el.
Qed.
Lemma recipient_tree r : small (renc r) -> tree (sc_issuer (fst r)) -> tree (renc r).
Proof.
  intros HS HT. unfold renc, ienc in *. smalls. tree_by. apply trees_cons; [tree_by|]. apply trees_cons; [tree_by; apply trees_cons; [exact HT|apply trees_one; tree_by]|].
  apply trees_cons; [tree_by; apply trees_one; tree_by|apply trees_one; tree_by].
Qed.
Definition edoc (l : list rk) (o : oid) (pel ct : bytes) : envelope_doc := {|
  ed_version := 0; ed_recipients := map rdoc (isort rless l); ed_type := [1; 2; 840; 113549; 1; 7; 1]; ed_alg := (o, Some pel); ed_sealed := Parts [ct] |}.
Lemma envfile_der l o oc tag params ct : Forall rk_ok l -> valid_oid o -> encodeOid o = Some oc -> 0 <= tag < 31 -> small (envfile_enc l (eci_enc oc (el 0 tag false params) ct)) ->
  envelope_der (edoc l o (el 0 tag false params) ct) (envfile_enc l (eci_enc oc (el 0 tag false params) ct)).
Proof.
  intros HF V E HT HS. unfold envfile_enc, env_enc, eci_enc in HS. smalls. assert (HF' : Forall rk_ok (isort rless l)) by (eapply Permutation_Forall; [apply isort_perm|exact HF]).
  exists (el 0 2 false [x00]), (map renc (isort rless l)), (el 0 17 true (concat (map renc (isort rless l)))), (el 0 6 false oid_data), (el 0 16 true (el 0 6 false oc ++ el 0 tag false params)), (el 2 0 true (el 0 4 false ct)),
    (eci_enc oc (el 0 tag false params) ct), (env_enc l (eci_enc oc (el 0 tag false params) ct)), (el 0 6 false oid_enveloped), (el 2 0 true (env_enc l (eci_enc oc (el 0 tag false params) ct))).
  cbn [edoc ed_version ed_recipients ed_type ed_alg ed_sealed]. split; [lia|]. split; [exists [x00]; split; [apply parseBigInt_iff; reflexivity|der_el]|].
  split. { assert (HC : small (concat (map renc (isort rless l)))) by assumption. clear -HF' HC. induction HF' as [|m k H F IH]; [constructor|]. cbn [map concat] in *. smalls. constructor; [apply recipient_written; assumption|apply IH; assumption]. }
  split; [unfold set_der; der_el|]. split; [apply oid_written; [exact valid_data|reflexivity|assumption]|].
  split. { exists (el 0 6 false oc), (el 0 tag false params). cbn [fst snd optional]. split; [apply oid_written; assumption|]. split; [|unfold seq_der; cbn [concat]; rewrite app_nil_r; der_el].
    split; [|reflexivity]. exists 0, tag, false, params. apply header_element; [lia|unfold max_int32; lia|assumption]. }
  split. { cbn [sealed_der]. exists [el 0 4 false ct]. split; [constructor; [der_el|constructor]|]. cbn [concat]. rewrite app_nil_r. der_el. }
  split; [unfold seq_der, eci_enc; cbn [concat]; rewrite app_nil_r; der_el|]. split; [unfold seq_der, env_enc, eci_enc; cbn [concat]; rewrite app_nil_r; der_el|].
  split; [apply oid_written; [exact valid_enveloped|reflexivity|assumption]|]. split; [unfold env_enc, eci_enc; der_el|]. unfold seq_der, envfile_enc, env_enc, eci_enc. cbn [concat]. rewrite app_nil_r. der_el.
Qed.
Lemma envfile_tree l oc tag params ct : 0 <= tag < 31 -> small (envfile_enc l (eci_enc oc (el 0 tag false params) ct)) -> Forall (fun r => tree (sc_issuer (fst r))) l ->
  tree (envfile_enc l (eci_enc oc (el 0 tag false params) ct)).
Proof.
  intros HT HS HI. unfold envfile_enc, env_enc, eci_enc in *. smalls. tree_by. apply trees_cons; [tree_by|]. apply trees_one. tree_by. apply trees_one. tree_by.
  apply trees_cons; [tree_by|]. apply trees_cons.
  - tree_by. apply trees_concat. apply Forall_map, Forall_forall. intros r Hr. apply recipient_tree; [eapply small_concat; [eassumption|apply in_map; exact Hr]|].
    rewrite Forall_forall in HI. apply HI. revert Hr. apply Permutation_in, Permutation_sym, isort_perm.
  - apply trees_one. tree_by. apply trees_cons; [tree_by|]. apply trees_cons; [tree_by; apply trees_cons; [tree_by|apply trees_one; apply tree_el; [lia|exact HT|assumption|discriminate]]|].
    apply trees_one. tree_by. apply trees_one. tree_by.
Qed.

(** *** The loop over the recipients *)
Lemma recipientVals_all rsaEncrypt key l : forall n, (forall t, In t l -> t_rsa t = true) -> (forall m t, In t l -> exists ek, rsaEncrypt m (t_cert t) key = Some ek) ->
  exists rs, recipientVals rsaEncrypt n key l = Ret (Some (map rval rs)) /\ Forall2 (fun t r => fst r = t_cert t /\ exists m, rsaEncrypt m (t_cert t) key = Some (snd r)) l rs.
Proof.
  induction l as [|t l IH]; intros n HR HE; [exists []; split; [reflexivity|constructor]|]. cbn [recipientVals]. rewrite (HR t (or_introl eq_refl)). cbn [negb].
  destruct (HE n t (or_introl eq_refl)) as (ek & E). rewrite E. destruct (IH (Datatypes.S n)) as (rs & EQ & F); [intros; apply HR; right; assumption|intros; apply HE; right; assumption|]. rewrite EQ.
  exists ((t_cert t, ek) :: rs). split; [reflexivity|]. constructor; [|exact F]. split; [reflexivity|]. exists n. exact E.
Qed.
Lemma recipientVals_panic rsaEncrypt key l : forall n, (forall m t, In t l -> exists ek, rsaEncrypt m (t_cert t) key = Some ek) -> (exists t, In t l /\ t_rsa t = false) ->
  recipientVals rsaEncrypt n key l = Panic PTypeAssertion.
Proof.
  induction l as [|t l IH]; intros n HE (x & Hx & Ex); [destruct Hx|]. cbn [recipientVals]. destruct (t_rsa t) eqn:ET; [|reflexivity]. cbn [negb]. destruct (HE n t (or_introl eq_refl)) as (ek & E). rewrite E.
  rewrite (IH (Datatypes.S n)); [reflexivity|intros; apply HE; right; assumption|]. destruct Hx as [<-|Hx]; [congruence|]. eauto.
Qed.
