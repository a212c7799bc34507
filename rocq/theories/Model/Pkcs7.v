(** /repo/fullsailor/pkcs7/pkcs7.go: what the APK verifier uses of it.
    PKCS7.Verify is in Pkcs7Verify.v, signing in Pkcs7Sign.v. *)
From Verif.Model Require Import Bytes Env Ber Asn1.

(** Code outside this file: text and time functions, x509andr.ParseCertificatesForGo, crypto/x509/pkix
    (Name.FillFromRDNSequence followed by ToRDNSequence) and fmt's %v of an attribute value. *)
Record p7env : Set := {
  q_text : textenv;
  q_certs : bytes -> option (list cert);
  q_name : rdn_seq -> rdn_seq;
  q_print : goval -> bytes
}.

(** Field parameters (struct tags) *)
Definition pOptional : fparams := {| fp_optional := true; fp_explicit := false; fp_application := false; fp_private := false;
  fp_default := None; fp_tag := None; fp_stringType := 0; fp_set := false; fp_omitEmpty := false |}.
Definition pSet : fparams := {| fp_optional := false; fp_explicit := false; fp_application := false; fp_private := false;
  fp_default := None; fp_tag := None; fp_stringType := 0; fp_set := true; fp_omitEmpty := false |}.
Definition pDefault (d : Z) : fparams := {| fp_optional := false; fp_explicit := false; fp_application := false; fp_private := false;
  fp_default := Some d; fp_tag := None; fp_stringType := 0; fp_set := false; fp_omitEmpty := false |}.
Definition pOptionalDefault (d : Z) : fparams := {| fp_optional := true; fp_explicit := false; fp_application := false; fp_private := false;
  fp_default := Some d; fp_tag := None; fp_stringType := 0; fp_set := false; fp_omitEmpty := false |}.
Definition pOptionalTag (t : Z) : fparams := {| fp_optional := true; fp_explicit := false; fp_application := false; fp_private := false;
  fp_default := None; fp_tag := Some t; fp_stringType := 0; fp_set := false; fp_omitEmpty := false |}.
Definition pExplicitTag (t : Z) : fparams := {| fp_optional := true; fp_explicit := true; fp_application := false; fp_private := false;
  fp_default := None; fp_tag := Some t; fp_stringType := 0; fp_set := false; fp_omitEmpty := false |}.

(** crypto/x509/pkix: AlgorithmIdentifier, RDNSequence, Extension, RevokedCertificate, TBSCertificateList, CertificateList *)
Definition tyAlgorithm : gotype := TyStruct false (FCons noParams TyOid (FCons pOptional TyRaw FNil)).
Definition tyAttributeValue : gotype := TyStruct false (FCons noParams TyOid (FCons noParams TyAny FNil)).
Definition tyRdnSequence : gotype := TySlice false (TySlice true tyAttributeValue).
Definition tyExtension : gotype := TyStruct false (FCons noParams TyOid (FCons pOptional TyBool (FCons noParams TyBytes FNil))).
Definition tyRevoked : gotype := TyStruct false (FCons noParams TyBig (FCons noParams TyTime (FCons pOptional (TySlice false tyExtension) FNil))).
Definition tyTbsList : gotype := TyStruct true
  (FCons (pOptionalDefault 0) TyInt (FCons noParams tyAlgorithm (FCons noParams tyRdnSequence (FCons noParams TyTime (FCons pOptional TyTime
  (FCons pOptional (TySlice false tyRevoked) (FCons (pExplicitTag 0) (TySlice false tyExtension) FNil))))))).
Definition tyCrl : gotype := TyStruct false (FCons noParams tyTbsList (FCons noParams tyAlgorithm (FCons noParams TyBits FNil))).

(** pkcs7.go:39-42 contentInfo, 94-102 attribute and SignerAttribute, 104-107 issuerAndSerial, 125-133 signerInfo,
    63-74 signedData and rawCertificates, 76-92 envelopedData *)
Definition tyContentInfo : gotype := TyStruct false (FCons noParams TyOid (FCons (pExplicitTag 0) TyRaw FNil)).
Definition tyAttribute : gotype := TyStruct false (FCons noParams TyOid (FCons pSet TyRaw FNil)).
Definition tyIssuerAndSerial : gotype := TyStruct false (FCons noParams TyRaw (FCons noParams TyBig FNil)).
Definition tyAttributes : gotype := TySlice false tyAttribute.
Definition tySignerInfo : gotype := TyStruct false
  (FCons (pDefault 1) TyInt (FCons noParams tyIssuerAndSerial (FCons noParams tyAlgorithm (FCons (pOptionalTag 0) tyAttributes
  (FCons noParams tyAlgorithm (FCons noParams TyBytes (FCons (pOptionalTag 1) tyAttributes FNil))))))).
Definition tyRawCertificates : gotype := TyStruct true FNil.
Definition tySignedData : gotype := TyStruct false
  (FCons (pDefault 1) TyInt (FCons pSet (TySlice false tyAlgorithm) (FCons noParams tyContentInfo (FCons (pOptionalTag 0) tyRawCertificates
  (FCons (pOptionalTag 1) (TySlice false tyCrl) (FCons pSet (TySlice false tySignerInfo) FNil)))))).
Definition tyRecipient : gotype := TyStruct false
  (FCons noParams TyInt (FCons noParams tyIssuerAndSerial (FCons noParams tyAlgorithm (FCons noParams TyBytes FNil)))).
Definition tyEncryptedContent : gotype := TyStruct false (FCons noParams TyOid (FCons noParams tyAlgorithm (FCons (pOptionalTag 0) TyRaw FNil))).
Definition tyEnvelopedData : gotype := TyStruct false
  (FCons noParams TyInt (FCons pSet (TySlice false tyRecipient) (FCons noParams tyEncryptedContent FNil))).

(** pkcs7.go:54-55 *)
Definition oidSignedData : oid := [1; 2; 840; 113549; 1; 7; 2].
Definition oidEnvelopedData : oid := [1; 2; 840; 113549; 1; 7; 3].

(** asn1.ObjectIdentifier.Equal *)
Fixpoint oidEqual (a b : oid) : bool :=
  match a, b with
  | [], [] => true
  | x :: a', y :: b' => (x =? y) && oidEqual a' b'
  | _, _ => false
  end.

(** Reading Go struct values *)
Definition asOid (v : goval) : oid := match v with VOid l => l | _ => [] end.
Definition asBytes (v : goval) : bytes := match v with VBytes b => b | _ => [] end.
Definition asSlice (v : goval) : list goval := match v with VSlice l => l | _ => [] end.
Definition asInt (v : goval) : Z := match v with VInt z => z | _ => 0 end.
Definition rawBytes (v : goval) : bytes := match v with VRaw _ _ _ b _ => b | _ => [] end.
Definition rawFull (v : goval) : bytes := match v with VRaw _ _ _ _ f => f | _ => [] end.
Definition rawCompound (v : goval) : bool := match v with VRaw _ _ k _ _ => k | _ => false end.
Definition structRaw (v : goval) : bytes := match v with VStruct r _ => r | _ => [] end.
Definition field (i : nat) (v : goval) : goval := match v with VStruct _ l => nth i l VNil | _ => VNil end.

Section WithEnv.
  Variable Q : p7env.
  Definition X : textenv := q_text Q.

  (** pkix.AttributeTypeAndValue and pkix.RDNSequence *)
  Definition attributeValue (v : goval) : atav :=
    {| at_type := asOid (field 0 v);
       at_value := match field 1 v with VAny (VString s) => AvString s | w => AvOther (q_print Q w) end |}.
  Definition rdnSequence (v : goval) : rdn_seq := map (fun r => map attributeValue (asSlice r)) (asSlice v).
  (** schemev1.go:664-671: unmarshalling the issuer name of a SignerInfo *)
  Definition issuerName (full : bytes) : option rdn_seq :=
    match unmarshal X tyRdnSequence full with
    | (v, Some _) => Some (q_name Q (rdnSequence v))
    | (_, None) => None
    end.

  (** pkcs7.go:994-1019 GetSignerInfos; UnauthenticatedAttributes and Version are not used *)
  Definition signerAttribute (v : goval) : p7_attr :=
    {| pa_type := asOid (field 0 v); pa_value := rawBytes (field 1 v); pa_full := rawFull (field 1 v) |}.
  Definition signerInfoOf (v : goval) : p7_signer :=
    {| ps_issuer := issuerName (rawFull (field 0 (field 1 v)));
       ps_serial := asInt (field 1 (field 1 v));
       ps_digest_alg := asOid (field 0 (field 2 v));
       ps_auth_attrs := map signerAttribute (asSlice (field 3 v));
       ps_enc_alg := asOid (field 0 (field 4 v));
       ps_enc_digest := asBytes (field 5 v) |}.

  (** pkcs7.go:211-222 rawCertificates.Parse *)
  Definition parseRawCertificates (raw : bytes) : option (list cert) :=
    match raw with
    | [] => Some []
    | _ => match unmarshal X TyRaw raw with
           | (v, Some _) => q_certs Q (rawBytes v)
           | (_, None) => None
           end
    end.

  (** pkcs7.go:175-209 parseSignedData; the error of the first Unmarshal is dropped (line 177).  The content is not used. *)
  Definition parseSignedData (data : bytes) : option p7 :=
    let sd := fst (unmarshal X tySignedData data) in
    match parseRawCertificates (structRaw (field 3 sd)) with
    | None => None
    | Some certs =>
        let content := rawBytes (field 1 (field 2 sd)) in
        match (match content with
               | [] => Some (zeroVal TyRaw)
               | _ => match unmarshal X TyRaw content with (v, Some _) => Some v | (_, None) => None end
               end) with
        | None => None
        | Some compound =>
            if rawCompound compound && (match unmarshal X TyBytes (rawBytes compound) with (_, None) => true | _ => false end) then None
            else Some {| p7_certs := certs;
                         p7_signers := map signerInfoOf (asSlice (field 5 sd));
                         p7_content_type := asOid (field 0 (field 2 sd)) |}
        end
    end.

  (** pkcs7.go:224-232 parseEnvelopedData *)
  Definition parseEnvelopedData (data : bytes) : option p7 :=
    match unmarshal X tyEnvelopedData data with
    | (_, Some _) => Some {| p7_certs := []; p7_signers := []; p7_content_type := [] |}
    | (_, None) => None
    end.

  (** pkcs7.go:147-173 Parse *)
  Definition pkcs7Parse (data : bytes) : outcome (option p7) :=
    match data with
    | [] => Ret None
    | _ =>
        match ber2der data with
        | BPanic => Panic PIndex
        | BErr | BFuel => Ret None
        | BRet der =>
            match unmarshal X tyContentInfo der with
            | (info, Some []) =>
                if oidEqual (asOid (field 0 info)) oidSignedData then Ret (parseSignedData (rawBytes (field 1 info)))
                else if oidEqual (asOid (field 0 info)) oidEnvelopedData then Ret (parseEnvelopedData (rawBytes (field 1 info)))
                else Ret None
            | _ => Ret None
            end
        end
    end.

  (** pkcs7.go:1042-1054 MarshalAuthenticatedAttributes.  The encoder uses only FullBytes of a RawValue if it is not empty
      (marshal.go), so the other fields are left out. *)
  Definition attributeVal (a : p7_attr) : goval := VStruct [] [VOid (pa_type a); VRaw 0 0 false [] (pa_full a)].
  Definition tyAttributeSet : gotype := TyStruct false (FCons pSet tyAttributes FNil).
  Definition marshalAuthenticatedAttributes (l : list p7_attr) : option bytes :=
    match marshal X tyAttributeSet (VStruct [] [VSlice (map attributeVal l)]) with
    | None => None
    | Some b => Some (rawBytes (fst (unmarshal X TyRaw b)))
    end.

  (** schemev1.go:700, 724: Unmarshal of a signed attribute into an ObjectIdentifier and a []byte *)
  Definition unmarshalOid (b : bytes) : option oid :=
    match unmarshal X TyOid b with (VOid l, Some _) => Some l | _ => None end.
  Definition unmarshalOctets (b : bytes) : option bytes :=
    match unmarshal X TyBytes b with (VBytes l, Some _) => Some l | _ => None end.
  (** schemev1.go:821-824 dsaSignature, 873-878 Unmarshal of an (r, s) signature; true = trailing data *)
  Definition tyRS : gotype := TyStruct false (FCons noParams TyBig (FCons noParams TyBig FNil)).
  Definition unmarshalRS (b : bytes) : option (Z * Z * bool) :=
    match unmarshal X tyRS b with
    | (VStruct _ [VInt r; VInt s], Some rest) => Some (r, s, match rest with [] => false | _ => true end)
    | _ => None
    end.

  (** The environment of the v1 verifier with these functions in it *)
  Definition withPkcs7 (E : env) : env := {|
    e_hash := e_hash E; e_rsa_pss := e_rsa_pss E; e_rsa_pkcs1 := e_rsa_pkcs1 E; e_ecdsa := e_ecdsa E; e_dsa := e_dsa E;
    e_asn1_ints := e_asn1_ints E; e_asn1_rs_std := e_asn1_rs_std E; e_asn1_rs_andr := unmarshalRS;
    e_pkix_andr := e_pkix_andr E; e_pkix_std := e_pkix_std E; e_cert_andr := e_cert_andr E; e_cert_std := e_cert_std E;
    e_pkcs7 := pkcs7Parse; e_asn1_oid := unmarshalOid; e_asn1_octets := unmarshalOctets;
    e_marshal_attrs := marshalAuthenticatedAttributes;
    e_cert_check := e_cert_check E; e_base64 := e_base64 E; e_parse_xml := e_parse_xml E; e_to_lower := e_to_lower E |}.
End WithEnv.
