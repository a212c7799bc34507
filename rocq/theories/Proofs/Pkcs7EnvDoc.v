(** Parse of an EnvelopedData document *)
From Coq Require Import Lia.
From Verif.Model Require Import Bytes Env Ber Asn1 Pkcs7 X509 Pkcs7Verify Pkcs7Sign Pkcs7Envelope.
From Verif.Spec Require Import Ber Asn1 Asn1Value Pkcs7 Pkcs7Envelope.
From Verif.Proofs Require Import BytesFacts BerFacts Asn1Codec Asn1Header Asn1Value Asn1Decode DerFacts DerSize Pkcs7Facts Pkcs7Parse Pkcs7Honest X509Facts X509Honest Pkcs7VerifyFacts Pkcs7Doc Pkcs7EnvFacts.

Section D.
  Variable K : xenv.
  Notation X := (k_text K).

  Lemma algorithm_read a f : algorithm_der a f -> valid_oid (fst a) -> zlen f < 2 ^ 31 ->
    exists v, asOid (field 0 v) = fst a /\ params_content (snd a) (rawBytes (field 1 v)) /\ forall r, parseField X tyAlgorithm noParams (zeroVal tyAlgorithm) (f ++ r) = (v, Some r).
  Proof.
    intros (o & params & HO & HP & HS) HV HL. pose proof (der_element_size _ _ _ _ _ HS) as HZ. cbn [concat] in HZ. rewrite !zlen_app in HZ. pose proof (zlen_nonneg o). pose proof (zlen_nonneg params). change (zlen ([] : bytes)) with 0 in HZ.
    destruct (snd a) as [e|]; cbn [optional] in HP.
    - destruct HP as ((c & t & k & b & HE) & ->). exists (VStruct [] [VOid (fst a); VRaw c t k b e]). split; [reflexivity|]. split; [exists c, t, k; exact HE|]. intros r. apply (struct_field X _ _ (concat [o; e])); [exact HS|exact HL|].
      cbn [concat fieldsOf zeroFields]. rewrite parseFields_cons, (oid_field X _ (fst a) o) by (try assumption; lia). rewrite parseFields_cons. rewrite (raw_parse X pOptional _ c t k b e []) by (try reflexivity; exact HE). reflexivity.
    - subst params. exists (VStruct [] [VOid (fst a); zeroVal TyRaw]). split; [reflexivity|]. split; [reflexivity|]. intros r. apply (struct_field X _ _ (concat [o; []])); [exact HS|exact HL|].
      cbn [concat fieldsOf zeroFields app]. rewrite parseFields_cons, (oid_field X _ (fst a) o) by (try assumption; lia). reflexivity.
  Qed.

  Definition read_recipient (d : recipient_doc) : recipient := {| rc_issuer := rd_issuer d; rc_serial := rd_serial d; rc_key := rd_key d |}.
  Lemma recipient_field d f : recipient_der d f -> valid_oid (fst (rd_alg d)) -> zlen f < 2 ^ 31 ->
    exists v, recipientOf v = read_recipient d /\ forall r, parseField X tyRecipient noParams (zeroVal tyRecipient) (f ++ r) = (v, Some r).
  Proof.
    intros (ver & serial & ias & alg & key & HR & Hver & Hser & (ic & it & ik & ib & Hiss) & HS1 & Halg & Hkey & HS) HV HL.
    pose proof (der_element_size _ _ _ _ _ HS) as HZ. cbn [concat] in HZ. rewrite !zlen_app in HZ. change (zlen ([] : bytes)) with 0 in HZ.
    pose proof (der_element_size _ _ _ _ _ HS1) as HZ1. cbn [concat] in HZ1. rewrite !zlen_app in HZ1. change (zlen ([] : bytes)) with 0 in HZ1.
    pose proof (zlen_nonneg ver). pose proof (zlen_nonneg ias). pose proof (zlen_nonneg alg). pose proof (zlen_nonneg key). pose proof (zlen_nonneg serial). pose proof (zlen_nonneg (rd_issuer d)).
    destruct (algorithm_read (rd_alg d) alg Halg HV ltac:(lia)) as (va & _ & _ & Pa).
    assert (Piss : forall r, parseField X tyIssuerAndSerial noParams (zeroVal tyIssuerAndSerial) (ias ++ r) = (VStruct [] [VRaw ic it ik ib (rd_issuer d); VInt (rd_serial d)], Some r)).
    { intros r. apply (struct_field X _ _ (concat [rd_issuer d; serial])); [exact HS1|lia|]. cbn [concat]. rewrite parseFields_cons, (raw_parse X noParams _ ic it ik ib _ _ eq_refl eq_refl Hiss).
      rewrite parseFields_cons, (big_field X _ (rd_serial d) serial [] Hser) by lia. reflexivity. }
    exists (VStruct [] [VInt (rd_version d); VStruct [] [VRaw ic it ik ib (rd_issuer d); VInt (rd_serial d)]; va; VBytes (rd_key d)]). split; [reflexivity|].
    intros r. apply (struct_field X _ _ (concat [ver; ias; alg; key])); [exact HS|exact HL|]. cbn [concat].
    rewrite parseFields_cons, (int_plain X _ (rd_version d) ver _ Hver HR) by lia. cbn [zeroVal zeroFields fieldsOf tl tyRecipient].
    rewrite parseFields_cons. change (VStruct [] [VRaw 0 0 false [] []; VNil]) with (zeroVal tyIssuerAndSerial). rewrite Piss. cbn [tl].
    rewrite parseFields_cons. match goal with |- context [parseField X tyAlgorithm noParams ?o (alg ++ _)] => change o with (zeroVal tyAlgorithm) end. rewrite Pa. cbn [tl].
    rewrite parseFields_cons, (bytes_field X _ (rd_key d) key _ Hkey) by lia. reflexivity.
  Qed.

  Lemma sealed_field s f : sealed_der s f -> zlen f < 2 ^ 31 ->
    exists v, (if rawCompound v then octetParts X (List.length (rawBytes v)) (rawBytes v) else rawBytes v) = sealed_bytes s /\ parseField X TyRaw (pOptionalTag 0) (zeroVal TyRaw) f = (v, Some []).
  Proof.
    intros HS HL. destruct s as [b|l|]; cbn [sealed_der sealed_bytes] in *.
    - pose proof (der_element_size _ _ _ _ _ HS) as HZ. apply der_element_element in HS; [|lia]. exists (VRaw 2 0 false b f). split; [reflexivity|]. rewrite <- (app_nil_r f) at 1.
      rewrite (field_parse X TyRaw (pOptionalTag 0) _ 2 0 false b f [] true (-1) false); try assumption; try reflexivity; try discriminate; [right; auto|left; reflexivity].
    - destruct HS as (fs & HF & HS). pose proof (der_element_size _ _ _ _ _ HS) as HZ. apply der_element_element in HS; [|lia]. exists (VRaw 2 0 true (concat fs) f). split.
      + cbn [rawCompound rawBytes]. apply octetParts_all; [exact HF| |lia]. apply Forall_forall. intros g Hg. assert (zlen g <= zlen (concat fs)) by (apply element_concat; exact Hg). lia.
      + rewrite <- (app_nil_r f) at 1. rewrite (field_parse X TyRaw (pOptionalTag 0) _ 2 0 true (concat fs) f [] true (-1) false); try assumption; try reflexivity; try discriminate; [right; auto|left; reflexivity].
    - subst f. exists (zeroVal TyRaw). split; reflexivity.
  Qed.

  Lemma envelope_parse d f : envelope_der d f -> Forall valid_oid (envelope_oids d) -> zlen f < 2 ^ 31 -> ber2der f = BRet f ->
    exists p e, p7Parse K f = Ret (Some p) /\ po_envelope p = Some e /\ en_recipients e = map read_recipient (ed_recipients d) /\ en_alg e = fst (ed_alg d) /\
      params_content (snd (ed_alg d)) (en_params e) /\ cyphertext X e = sealed_bytes (ed_sealed d).
  Proof.
    intros (ver & recs & rset & ctype & alg & cont & eci & inner & edoid & expl & HR & Hver & Hrecs & HSr & Hct & Halg & Hcont & HSe & HS & Hoid & Hexp & HF) HV HL HB.
    unfold envelope_oids in HV. inversion HV as [|? ? V1 HV']; subst. inversion HV' as [|? ? V2 V3]; subst.
    pose proof (der_element_size _ _ _ _ _ HF) as ZF. cbn [concat] in ZF. rewrite !zlen_app in ZF. change (zlen ([] : bytes)) with 0 in ZF.
    pose proof (der_element_size _ _ _ _ _ Hexp) as ZE. pose proof (der_element_size _ _ _ _ _ HS) as ZS. cbn [concat] in ZS. rewrite !zlen_app in ZS. change (zlen ([] : bytes)) with 0 in ZS.
    pose proof (der_element_size _ _ _ _ _ HSe) as ZC. cbn [concat] in ZC. rewrite !zlen_app in ZC. change (zlen ([] : bytes)) with 0 in ZC.
    pose proof (der_element_size _ _ _ _ _ HSr) as ZR.
    pose proof (zlen_nonneg edoid). pose proof (zlen_nonneg expl). pose proof (zlen_nonneg ver). pose proof (zlen_nonneg rset). pose proof (zlen_nonneg eci). pose proof (zlen_nonneg ctype). pose proof (zlen_nonneg alg). pose proof (zlen_nonneg cont).
    destruct (algorithm_read (ed_alg d) alg Halg V2 ltac:(lia)) as (va & Ea & Ep & Pa). destruct (sealed_field (ed_sealed d) cont Hcont ltac:(lia)) as (vk & Ek & Pk).
    destruct (Forall2_map_exists recipient_der (fun v f => forall r, parseField X tyRecipient noParams (zeroVal tyRecipient) (f ++ r) = (v, Some r)) (fun s v => recipientOf v = read_recipient s) (ed_recipients d) recs) as (vs & Hsay & Ps).
    { intros s g Hs Hg HG. assert (zlen g <= zlen (concat recs)) by (apply element_concat; exact Hg). apply (recipient_field s g HG); [|lia].
      rewrite Forall_map, Forall_forall in V3. exact (V3 s Hs). }
    { exact Hrecs. }
    assert (Es : Forall (fun f => exists c, element 0 16 true c f) recs).
    { apply Forall_forall. intros g Hg. assert (zlen g <= zlen (concat recs)) by (apply element_concat; exact Hg).
      destruct (Forall2_In_r _ _ _ _ Hrecs Hg) as (a & _ & HA). destruct HA as (? & ? & ? & ? & ? & _ & _ & _ & _ & _ & _ & _ & HA). eexists. apply seq_element; [exact HA|]. lia. }
    assert (HEs : element 0 17 true (concat recs) rset) by (apply der_element_element; [exact HSr|lia]).
    assert (PS : unmarshal X tyEnvelopedData inner = (VStruct [] [VInt (ed_version d); VSlice vs; VStruct [] [VOid (ed_type d); va; vk]], Some [])).
    { unfold unmarshal. rewrite <- (app_nil_r inner) at 1. apply (struct_field X _ _ (concat [ver; rset; eci])); [exact HS|lia|]. cbn [concat].
      rewrite parseFields_cons, (int_plain X _ (ed_version d) ver _ Hver HR) by lia. cbn [zeroVal zeroFields fieldsOf tl tyEnvelopedData].
      rewrite parseFields_cons. unfold tyRecipient at 1. rewrite (slice_field X _ pSet _ 0 17 (concat recs) rset _ vs recs); try reflexivity; [|exact HEs|right; split; reflexivity|exact Es|exact Ps]. cbn [tl].
      rewrite parseFields_cons. unfold tyEncryptedContent at 1.
      rewrite (struct_field X _ _ (concat [ctype; alg; cont]) eci _ [VOid (ed_type d); va; vk] HSe); [reflexivity|lia|].
      cbn [concat]. rewrite app_nil_r. rewrite parseFields_cons, (oid_field X _ (ed_type d) ctype _ Hct V1) by lia. rewrite parseFields_cons.
      match goal with |- context [parseField X tyAlgorithm noParams ?o (alg ++ _)] => change o with (zeroVal tyAlgorithm) end. rewrite Pa.
      rewrite parseFields_cons. match goal with |- context [parseField X TyRaw _ ?o _] => change o with (zeroVal TyRaw) end. rewrite Pk. reflexivity. }
    assert (HEx : element 2 0 true inner expl) by (apply der_element_element; [exact Hexp|lia]).
    assert (PF : unmarshal X tyContentInfo f = (VStruct [] [VOid oidEnvelopedData; VRaw 2 0 true inner expl], Some [])).
    { unfold unmarshal. rewrite <- (app_nil_r f) at 1. apply (struct_field X _ _ (concat [edoid; expl])); [exact HF|exact HL|]. cbn [concat].
      rewrite parseFields_cons, (oid_field X _ oidEnvelopedData edoid _ Hoid); [| |lia].
      2:{ exists 1, 2, [840; 113549; 1; 7; 3]. unfold max_int32. repeat split; try lia. repeat constructor; lia. }
      rewrite parseFields_cons. rewrite (explicit_raw K 0 _ inner expl [] HEx); [reflexivity|]. intros ->. change (zlen ([] : bytes)) with 0 in ZS. lia. }
    unfold p7Parse. rewrite HB. rewrite PF. destruct f as [|y ys]; [change (zlen ([] : bytes)) with 0 in ZF; lia|]. cbn [field nth asOid rawBytes].
    change (oidEqual oidEnvelopedData oidSignedData) with false. cbv iota. rewrite oidEqual_refl. unfold parseEnveloped. rewrite PS.
    eexists. eexists. split; [reflexivity|]. split; [reflexivity|]. unfold envelopeOf. cbn [field nth en_recipients en_alg en_params asSlice]. split; [|split; [exact Ea|split; [exact Ep|exact Ek]]].
    clear -Hsay. induction Hsay as [|a v l vs H _ IH]; [reflexivity|]. cbn [map]. rewrite IH, H. reflexivity.
  Qed.

  (** The recipient that is chosen *)
  Lemma select_iff c l r : selectRecipient (map read_recipient l) c = Some r <-> exists d, first_recipient c l d /\ r = read_recipient d.
  Proof.
    unfold selectRecipient. induction l as [|x l IH]; cbn [map find].
    - split; [discriminate|]. intros (d & (l1 & l2 & E & _) & _). destruct l1; discriminate.
    - cbn [rc_serial rc_issuer read_recipient]. destruct ((sc_serial c =? rd_serial x) && bytes_eqb (sc_issuer c) (rd_issuer x)) eqn:E.
      + apply andb_true_iff in E as (E1 & E2). apply Z.eqb_eq in E1. apply bytes_eqb_eq in E2. split.
        * intros H. exists x. split; [|congruence]. exists [], l. split; [reflexivity|]. repeat split; [congruence|congruence|]. intros y [].
        * intros (d & (l1 & l2 & E & _ & _ & HN) & ->). destruct l1 as [|y l1]; [cbn [app] in E; congruence|]. exfalso. cbn [app] in E. injection E as <- E. apply (HN x (or_introl eq_refl)). auto.
      + rewrite IH. assert (N : ~ (rd_issuer x = sc_issuer c /\ rd_serial x = sc_serial c)).
        { intros (N1 & N2). rewrite <- N1, <- N2, Z.eqb_refl in E. rewrite (proj2 (bytes_eqb_eq _ _) eq_refl) in E. discriminate. }
        split; intros (d & (l1 & l2 & EL & H1 & H2 & HN) & ->); exists d; (split; [|reflexivity]).
        * exists (x :: l1), l2. split; [rewrite EL; reflexivity|]. repeat split; [exact H1|exact H2|]. intros y [<-|Hy]; [exact N|exact (HN y Hy)].
        * destruct l1 as [|y l1]; [cbn [app] in EL; injection EL as -> EL; exfalso; apply N; auto|]. cbn [app] in EL. injection EL as <- EL. exists l1, l2. split; [exact EL|]. repeat split; [exact H1|exact H2|]. intros z Hz. apply HN. right. exact Hz.
  Qed.
  Lemma params_unique x b b' : params_content x b -> params_content x b' -> b = b'.
  Proof.
    destruct x as [f|]; cbn [params_content]; [|congruence]. intros (c & t & k & H) (c' & t' & k' & H'). pose proof (raw_parse X noParams (zeroVal TyRaw) c t k b f [] eq_refl eq_refl H) as E.
    pose proof (raw_parse X noParams (zeroVal TyRaw) c' t' k' b' f [] eq_refl eq_refl H') as E'. congruence.
  Qed.
End D.
