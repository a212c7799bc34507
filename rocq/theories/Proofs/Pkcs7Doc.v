(** Parse of a SignedData document with content *)
From Coq Require Import Lia.
From Verif.Model Require Import Bytes Env Ber Asn1 Pkcs7 X509 Pkcs7Verify.
From Verif.Spec Require Import Ber Asn1 Asn1Value Pkcs7 Revocation Pkcs7Verify.
From Verif.Proofs Require Import BytesFacts BerFacts Asn1Codec Asn1Header Asn1Value Asn1Decode DerFacts DerSize Pkcs7Facts Pkcs7Parse Pkcs7Honest RevocationFacts.

Section D.
  Variable K : xenv.
  Notation X := (k_text K).

  Lemma algorithm_value a f : algorithm_der a f -> valid_oid (fst a) -> zlen f < 2 ^ 31 ->
    exists v, asOid (field 0 v) = fst a /\ rawFull (field 1 v) = or_empty (snd a) /\ forall r, parseField X tyAlgorithm noParams (zeroVal tyAlgorithm) (f ++ r) = (v, Some r).
  Proof.
    intros (o & params & HO & HP & HS) HV HL. pose proof (der_element_size _ _ _ _ _ HS) as HZ. cbn [concat] in HZ. rewrite !zlen_app in HZ. pose proof (zlen_nonneg o). pose proof (zlen_nonneg params). change (zlen ([] : bytes)) with 0 in HZ.
    destruct (snd a) as [e|]; cbn [optional] in HP.
    - destruct HP as ((c & t & k & b & HE) & ->). exists (VStruct [] [VOid (fst a); VRaw c t k b e]). split; [reflexivity|]. split; [reflexivity|]. intros r. apply (struct_field X _ _ (concat [o; e])); [exact HS|exact HL|].
      cbn [concat fieldsOf zeroFields]. rewrite parseFields_cons, (oid_field X _ (fst a) o) by (try assumption; lia). rewrite parseFields_cons. rewrite (raw_parse X pOptional _ c t k b e []) by (try reflexivity; exact HE). reflexivity.
    - subst params. exists (VStruct [] [VOid (fst a); zeroVal TyRaw]). split; [reflexivity|]. split; [reflexivity|]. intros r. apply (struct_field X _ _ (concat [o; []])); [exact HS|exact HL|].
      cbn [concat fieldsOf zeroFields app]. rewrite parseFields_cons, (oid_field X _ (fst a) o) by (try assumption; lia). reflexivity.
  Qed.

  (* an explicitly tagged element read as it stands *)
  Lemma explicit_raw t old inner f r : element 2 t true inner f -> inner <> [] -> parseField X TyRaw (pExplicitTag t) old (f ++ r) = (VRaw 2 t true inner f, Some r).
  Proof.
    intros HE HN. pose proof (element_size _ _ _ _ _ HE) as ZE. pose proof (zlen_nonneg inner). pose proof (element_parse _ _ _ _ _ r HE) as HP.
    assert (HH : parseHeader TyRaw (pExplicitTag t) (f ++ r) = HMatch (hd 2 t (zlen inner) true) (-1) inner r).
    { unfold parseHeader. rewrite HP. cbn [fp_explicit pExplicitTag]. assert (HN' : inner ++ r <> []) by (destruct inner; [congruence|discriminate]).
      destruct (inner ++ r) as [|y ys] eqn:EY; [congruence|]. cbn [hd tl_class tl_tag tl_compound tl_length fp_application fp_tag isRaw]. rewrite orb_true_r. rewrite Z.eqb_refl. change ((2 =? ClassContextSpecific) && true && true) with true. cbv iota.
      rewrite <- EY. unfold matchBody. cbn [getUniversalType expected fp_tag fp_explicit pExplicitTag hd tl_length negb andb orb]. rewrite zlen_app. pose proof (zlen_nonneg r). destruct (Z.ltb_spec (zlen inner + zlen r) (zlen inner)); [lia|].
      rewrite takeZ_app, dropZ_app by reflexivity. cbn [tl_tag tl_class hd]. rewrite ?Z.eqb_refl. reflexivity. }
    assert (HN' : f ++ r <> []) by (eapply element_nonempty; exact HE).
    rewrite (parseField_match X TyRaw (pExplicitTag t) _ (f ++ r) _ _ _ _ HN' ltac:(discriminate) HH).
    cbn [parseContent hd tl_class tl_tag tl_compound]. rewrite zlen_app. replace (zlen f + zlen r - zlen r) with (zlen f) by lia. rewrite takeZ_app by reflexivity. reflexivity.
  Qed.

  Lemma info_field d f : signer_der d f -> Forall valid_oid (signer_oids d) -> zlen f < 2 ^ 31 ->
    exists v, info_says d (sigInfoOf v) /\ forall r, parseField X tySignerInfo noParams (zeroVal tySignerInfo) (f ++ r) = (v, Some r).
  Proof.
    intros (ver & serial & iss & digest & attrs & enc & sig & unauth & HR & Hver & Hser & (ic & it & ik & ib & Hiss) & HS1 & Hdig & Hat & Henc & Hsig & Hun & HS) HV HL.
    unfold signer_oids in HV. inversion HV as [|? ? V1 HV']; subst. inversion HV' as [|? ? V2 HV'']; subst. apply Forall_app in HV'' as [V3 V4].
    pose proof (der_element_size _ _ _ _ _ HS) as HZ. cbn [concat] in HZ. rewrite !zlen_app in HZ. change (zlen ([] : bytes)) with 0 in HZ.
    pose proof (der_element_size _ _ _ _ _ HS1) as HZ1. cbn [concat] in HZ1. rewrite !zlen_app in HZ1. change (zlen ([] : bytes)) with 0 in HZ1.
    pose proof (zlen_nonneg ver). pose proof (zlen_nonneg iss). pose proof (zlen_nonneg digest). pose proof (zlen_nonneg attrs). pose proof (zlen_nonneg enc). pose proof (zlen_nonneg sig). pose proof (zlen_nonneg unauth). pose proof (zlen_nonneg serial). pose proof (zlen_nonneg (sd_issuer d)).
    destruct (algorithm_value (sd_digest d) digest Hdig V1 ltac:(lia)) as (vdig & Ed & _ & Pd). destruct (algorithm_value (sd_enc d) enc Henc V2 ltac:(lia)) as (venc & Ee & Ep & Pe).
    destruct (optional_attributes (x509P7 K) 0 (sd_attrs d) attrs Hat ltac:(lia) V3 ltac:(lia)) as (vat & Ea & Oa & Pa).
    destruct (optional_attributes (x509P7 K) 1 (sd_unauth d) unauth Hun ltac:(lia) V4 ltac:(lia)) as (vun & Eu & Ou & Pu). change (q_text (x509P7 K)) with X in Pa, Pu.
    assert (Piss : forall r, parseField X tyIssuerAndSerial noParams (zeroVal tyIssuerAndSerial) (iss ++ r) = (VStruct [] [VRaw ic it ik ib (sd_issuer d); VInt (sd_serial d)], Some r)).
    { intros r. apply (struct_field X _ _ (concat [sd_issuer d; serial])); [exact HS1|lia|]. cbn [concat]. rewrite parseFields_cons, (raw_parse X noParams _ ic it ik ib _ _ eq_refl eq_refl Hiss).
      rewrite parseFields_cons, (big_field X _ (sd_serial d) serial [] Hser) by lia. reflexivity. }
    exists (VStruct [] [VInt (sd_version d); VStruct [] [VRaw ic it ik ib (sd_issuer d); VInt (sd_serial d)]; vdig; vat; venc; VBytes (sd_signature d); vun]). split.
    { unfold info_says, sigInfoOf. cbn [field nth gi_issuer gi_serial gi_digest gi_attrs gi_enc gi_enc_params gi_sig rawFull asInt asBytes]. rewrite Ed, Ee, Ep. repeat split; assumption. }
    intros r. apply (struct_field X _ _ (concat [ver; iss; digest; attrs; enc; sig; unauth])); [exact HS|exact HL|]. cbn [concat].
    rewrite parseFields_cons, (int_field X 1 _ (sd_version d) ver _ Hver HR) by lia. cbn [zeroVal zeroFields fieldsOf tl tySignerInfo].
    rewrite parseFields_cons. change (VStruct [] [VRaw 0 0 false [] []; VNil]) with (zeroVal tyIssuerAndSerial). rewrite Piss. cbn [tl].
    rewrite parseFields_cons. cbn [tl]. match goal with |- context [parseField X tyAlgorithm noParams ?o (digest ++ _)] => change o with (zeroVal tyAlgorithm) end. rewrite Pd. cbn [tl].
    assert (HEenc : exists c, element 0 16 true c enc). { destruct Henc as (? & ? & _ & _ & Henc). eexists. apply seq_element; [exact Henc|lia]. }
    destruct HEenc as (ce & HEe).
    rewrite parseFields_cons. rewrite Pa by (right; do 4 eexists; split; [reflexivity|exact HEe]). cbn [tl].
    rewrite parseFields_cons. match goal with |- context [parseField X tyAlgorithm noParams ?o (enc ++ _)] => change o with (zeroVal tyAlgorithm) end. rewrite Pe. cbn [tl].
    rewrite parseFields_cons, (bytes_field X _ (sd_signature d) sig _ Hsig) by lia. cbn [tl].
    rewrite parseFields_cons, Pu by (left; reflexivity). reflexivity.
  Qed.

  Lemma Forall2_In_r {A B} (R : A -> B -> Prop) l fs g : Forall2 R l fs -> In g fs -> exists a, In a l /\ R a g.
  Proof. induction 1 as [|a f l fs H F IH]; [contradiction|]. intros [<-|Hg]; [exists a; split; [left; reflexivity|exact H]|]. destruct (IH Hg) as (b & H1 & H2). exists b. split; [right; exact H1|exact H2]. Qed.

  Lemma content_parse d f certs : content_der X d f -> Forall valid_oid (doc_oids (c_doc d)) -> zlen f < 2 ^ 31 ->
    (match s_certs (c_doc d) with Some c => parseCertsWithIssuer K c = Some certs | None => certs = [] end) -> ber2der f = BRet f ->
    exists p, p7Parse K f = Ret (Some p) /\ po_certs p = certs /\ content_says d p.
  Proof.
    intros (ver & digs & dset & ctype & cont & cinfo & cs & crls & sigs & sset & sdata & sdoid & expl & HR & Hver & Hdigs & HSd & Hct & Hcont & HSc & Hcs & Hcrl & Hsigs & HSs & HS & Hoid & Hexp & HF) HV HL HC HB.
    unfold doc_oids in HV. inversion HV as [|? ? V1 HV']; subst. apply Forall_app in HV' as [V2 V3].
    pose proof (der_element_size _ _ _ _ _ HF) as ZF. cbn [concat] in ZF. rewrite !zlen_app in ZF. change (zlen ([] : bytes)) with 0 in ZF.
    pose proof (der_element_size _ _ _ _ _ Hexp) as ZE. pose proof (der_element_size _ _ _ _ _ HS) as ZS. cbn [concat] in ZS. rewrite !zlen_app in ZS. change (zlen ([] : bytes)) with 0 in ZS.
    pose proof (zlen_nonneg sdoid). pose proof (zlen_nonneg expl). pose proof (zlen_nonneg ver). pose proof (zlen_nonneg dset). pose proof (zlen_nonneg cinfo). pose proof (zlen_nonneg cs). pose proof (zlen_nonneg sset). pose proof (zlen_nonneg crls). pose proof (zlen_nonneg cont).
    pose proof (der_element_size _ _ _ _ _ HSc) as ZC. cbn [concat] in ZC. rewrite !zlen_app in ZC. change (zlen ([] : bytes)) with 0 in ZC. pose proof (zlen_nonneg ctype).
    pose proof (der_element_size _ _ _ _ _ HSd) as ZD. pose proof (der_element_size _ _ _ _ _ HSs) as ZSS.
    assert (Lf : zlen sdata < 2 ^ 31) by lia.
    (* digest algorithms *)
    destruct (Forall2_map_exists algorithm_der (fun v f => forall r, parseField X tyAlgorithm noParams (zeroVal tyAlgorithm) (f ++ r) = (v, Some r)) (fun _ _ => True) (s_digests (c_doc d)) digs) as (vd & _ & Pd).
    { intros a g Ha Hg HA. assert (zlen g <= zlen (concat digs)) by (apply element_concat; exact Hg). rewrite Forall_map, Forall_forall in V2.
      destruct (algorithm_value a g HA (V2 a Ha) ltac:(lia)) as (v & _ & _ & Pv). exists v. split; [exact I|exact Pv]. }
    { exact Hdigs. }
    assert (Ed : Forall (fun f => exists c, element 0 16 true c f) digs).
    { apply Forall_forall. intros g Hg. assert (zlen g <= zlen (concat digs)) by (apply element_concat; exact Hg).
      destruct (Forall2_In_r _ _ _ _ Hdigs Hg) as (a & _ & ? & ? & _ & _ & HA). eexists. apply seq_element; [exact HA|]. lia. }
    (* signers *)
    destruct (Forall2_map_exists signer_der (fun v f => forall r, parseField X tySignerInfo noParams (zeroVal tySignerInfo) (f ++ r) = (v, Some r)) (fun s v => info_says s (sigInfoOf v)) (s_signers (c_doc d)) sigs) as (vs & Hsay & Ps).
    { intros s g Hs Hg HG. assert (zlen g <= zlen (concat sigs)) by (apply element_concat; exact Hg).
      apply (info_field s g HG); [|lia]. rewrite Forall_forall in V3 |- *. intros o Ho. apply V3. apply in_flat_map. eauto. }
    { exact Hsigs. }
    assert (Es : Forall (fun f => exists c, element 0 16 true c f) sigs).
    { apply Forall_forall. intros g Hg. assert (zlen g <= zlen (concat sigs)) by (apply element_concat; exact Hg).
      destruct (Forall2_In_r _ _ _ _ Hsigs Hg) as (a & _ & HA). destruct HA as (? & ? & ? & ? & ? & ? & ? & ? & _ & _ & _ & _ & _ & _ & _ & _ & _ & _ & HA). eexists. apply seq_element; [exact HA|]. lia. }
    assert (HEs : element 0 17 true (concat sigs) sset) by (apply der_element_element; [exact HSs|lia]).
    assert (HEd : element 0 17 true (concat digs) dset) by (apply der_element_element; [exact HSd|lia]).
    (* revocation lists *)
    assert (Er : (c_crls d = None /\ crls = []) \/ exists b, element 2 1 true b crls).
    { destruct (c_crls d) as [cl|]; cbn [optional] in Hcrl; [right|left; auto]. destruct Hcrl as (fs & _ & HD). pose proof (der_element_size _ _ _ _ _ HD) as ZR. eexists. apply (der_element_element _ _ _ _ _ HD). lia. }
    assert (Pr : exists vr, map (certListOf K) (asSlice vr) = map kept_list (listed (c_crls d)) /\ forall r, (exists r', r = sset ++ r') -> parseField X (TySlice false tyCrl) (pOptionalTag 1) VNil (crls ++ r) = (vr, Some r)).
    { destruct (c_crls d) as [cl|]; cbn [optional] in Hcrl.
      - destruct Hcrl as (fs & Hfs & HD). pose proof (der_element_size _ _ _ _ _ HD) as ZR.
        destruct (values_of (crl_der X) (fun v f => forall r, parseField X tyCrl noParams (zeroVal tyCrl) (f ++ r) = (v, Some r)) (says_list K) cl fs) as (vl & Sv & Pv).
        { intros a g Hg Ra. apply (crl_read K a g Ra). assert (zlen g <= zlen (concat fs)) by (apply element_concat; exact Hg). lia. }
        { exact Hfs. }
        exists (VSlice vl). split; [exact (map_says (certListOf K) kept_list cl vl Sv)|]. intros r _. apply der_element_element in HD; [|lia].
        unfold tyCrl. rewrite (slice_field X _ (pOptionalTag 1) _ 2 1 (concat fs) crls r vl fs); try reflexivity; [exact HD|right; split; reflexivity| |exact Pv].
        apply (elements_of (crl_der X) cl fs (crl_is_seq K)); [|exact Hfs]. intros g Hg. assert (zlen g <= zlen (concat fs)) by (apply element_concat; exact Hg). lia.
      - subst crls. exists VNil. split; [reflexivity|]. intros r (r' & ->). cbn [app].
        apply (field_absent X _ _ _ 0 17 true (concat sigs) sset r' false TagSequence true); try reflexivity; try discriminate; [exact HEs|cbn; split; [reflexivity|left; discriminate]]. }
    destruct Pr as (vr & Ecrl & Pr).
    (* certificates *)
    assert (Pc : exists vc, parseRawCerts K (structRaw vc) = Some certs /\ forall r, (exists r', r = crls ++ sset ++ r') -> parseField X tyRawCertificates (pOptionalTag 0) (zeroVal tyRawCertificates) (cs ++ r) = (vc, Some r)).
    { destruct (s_certs (c_doc d)) as [c|]; cbn [optional] in Hcs.
      - pose proof (der_element_size _ _ _ _ _ Hcs) as ZCs. apply der_element_element in Hcs; [|lia]. exists (VStruct cs []). split.
        + cbn [structRaw]. pose proof (raw_parse X noParams (zeroVal TyRaw) 2 0 true c cs [] eq_refl eq_refl Hcs) as HRp. rewrite app_nil_r in HRp.
          destruct cs as [|y ys]; [change (zlen ([] : bytes)) with 0 in ZCs; pose proof (zlen_nonneg c); lia|]. unfold parseRawCerts, unmarshal. rewrite HRp. exact HC.
        + intros r _. rewrite (field_parse X tyRawCertificates (pOptionalTag 0) _ 2 0 true c cs r false TagSequence true); try reflexivity; try discriminate; [exact Hcs|right; auto|right; reflexivity].
      - subst cs. exists (zeroVal tyRawCertificates). split; [subst certs; reflexivity|]. intros r (r' & ->). cbn [app].
        destruct Er as [(_ & ->)|(b & Er)].
        2:{ apply (field_absent X _ _ _ 2 1 true b crls (sset ++ r') false TagSequence true); try reflexivity; try discriminate; [exact Er|cbn; split; [reflexivity|right; discriminate]]. }
        cbn [app]. apply (field_absent X _ _ _ 0 17 true (concat sigs) sset r' false TagSequence true); try reflexivity; try discriminate; [exact HEs|]. cbn. split; [reflexivity|left; discriminate]. }
    destruct Pc as (vc & Ecerts & Pc).
    (* content *)
    assert (Pk : exists vk, signedContent K (rawBytes vk) = Some (or_empty (c_content d)) /\ parseField X TyRaw (pExplicitTag 0) (zeroVal TyRaw) cont = (vk, Some [])).
    { destruct (c_content d) as [b|]; cbn [optional] in Hcont.
      - destruct Hcont as (oct & G1 & G2). pose proof (der_element_size _ _ _ _ _ G1) as Z1. pose proof (der_element_size _ _ _ _ _ G2) as Z2. apply der_element_element in G1; [|lia]. apply der_element_element in G2; [|lia].
        exists (VRaw 2 0 true oct cont). split.
        + cbn [rawBytes or_empty]. unfold signedContent, unmarshal. pose proof (raw_parse X noParams (zeroVal TyRaw) 0 4 false b oct [] eq_refl eq_refl G1) as HRp. rewrite app_nil_r in HRp.
          destruct oct as [|y ys]; [change (zlen ([] : bytes)) with 0 in Z1; pose proof (zlen_nonneg b); lia|]. rewrite HRp. reflexivity.
        + rewrite <- (app_nil_r cont) at 1. apply explicit_raw; [exact G2|]. intros ->. change (zlen ([] : bytes)) with 0 in Z1. pose proof (zlen_nonneg b). lia.
      - subst cont. exists (zeroVal TyRaw). split; reflexivity. }
    destruct Pk as (vk & Econt & Pk).
    set (cinfov := VStruct [] [VOid (s_content_type (c_doc d)); vk]).
    assert (PS : forall old r, old = zeroVal tySignedData -> parseField X tySignedData noParams old (sdata ++ r) = (VStruct [] [VInt (s_version (c_doc d)); VSlice vd; cinfov; vc; vr; VSlice vs], Some r)).
    { intros old r ->. apply (struct_field X _ _ (concat [ver; dset; cinfo; cs; crls; sset])); [exact HS|lia|]. cbn [concat].
      rewrite parseFields_cons, (int_field X 1 _ (s_version (c_doc d)) ver _ Hver HR) by lia. cbn [zeroVal zeroFields fieldsOf tl tySignedData].
      rewrite parseFields_cons. unfold tyAlgorithm at 1. rewrite (slice_field X _ pSet _ 0 17 (concat digs) dset _ vd digs); try reflexivity; [|exact HEd|right; split; reflexivity|exact Ed|exact Pd]. cbn [tl].
      rewrite parseFields_cons. unfold tyContentInfo at 1.
      rewrite (struct_field X _ _ (concat [ctype; cont]) cinfo _ [VOid (s_content_type (c_doc d)); vk] HSc); [|lia|]. 2:{ cbn [concat]. rewrite app_nil_r. rewrite parseFields_cons, (oid_field X _ (s_content_type (c_doc d)) ctype cont Hct V1) by lia. rewrite parseFields_cons. match goal with |- context [parseField X TyRaw _ ?o _] => change o with (zeroVal TyRaw) end. rewrite Pk. reflexivity. }
      cbn [tl]. rewrite parseFields_cons. match goal with |- context [parseField X tyRawCertificates _ ?o _] => change o with (zeroVal tyRawCertificates) end. rewrite Pc by (exists []; reflexivity). cbn [tl].
      rewrite parseFields_cons. rewrite Pr by (exists []; reflexivity). cbn [tl].
      rewrite parseFields_cons. unfold tySignerInfo at 1. rewrite (slice_field X _ pSet _ 0 17 (concat sigs) sset _ vs sigs); try reflexivity; [exact HEs|right; split; reflexivity|exact Es|exact Ps]. }
    assert (HEx : element 2 0 true sdata expl) by (apply der_element_element; [exact Hexp|lia]).
    assert (PF : unmarshal X tyContentInfo f = (VStruct [] [VOid oidSignedData; VRaw 2 0 true sdata expl], Some [])).
    { unfold unmarshal. rewrite <- (app_nil_r f) at 1. apply (struct_field X _ _ (concat [sdoid; expl])); [exact HF|exact HL|]. cbn [concat].
      rewrite parseFields_cons, (oid_field X _ oidSignedData sdoid _ Hoid); [| |lia].
      2:{ exists 1, 2, [840; 113549; 1; 7; 2]. unfold max_int32. repeat split; try lia. repeat constructor; lia. }
      rewrite parseFields_cons. rewrite (explicit_raw 0 _ sdata expl [] HEx); [reflexivity|]. intros ->. change (zlen ([] : bytes)) with 0 in ZS. lia. }
    unfold p7Parse. rewrite HB. rewrite PF. destruct f as [|y ys]; [change (zlen ([] : bytes)) with 0 in ZF; lia|]. cbn [field nth asOid rawBytes]. rewrite oidEqual_refl.
    unfold parseSigned, unmarshal. pose proof (PS _ [] eq_refl) as PS0. rewrite app_nil_r in PS0. rewrite PS0. cbn [fst field nth]. rewrite Ecerts. unfold cinfov. cbn [field nth]. rewrite Econt.
    eexists. split; [reflexivity|]. split; [reflexivity|]. split; [reflexivity|]. split; [reflexivity|]. split; [reflexivity|]. split; [exact Ecrl|]. cbn [po_signers asSlice]. clear -Hsay. induction Hsay; constructor; assumption.
  Qed.
End D.
