(** /repo/fullsailor/pkcs7/pkcs7.go:551-791: making SignedData objects - NewSignedData, AddSigner, AddCertificate, Detach,
    Finish, DegenerateCertificate. *)
From Verif.Model Require Import Bytes Env Asn1 Pkcs7 X509 Pkcs7Verify.

(** crypto/x509.Certificate: Raw, RawIssuer, SerialNumber *)
Record scert : Set := { sc_raw : bytes; sc_issuer : bytes; sc_serial : Z }.
(** A private key: of type *rsa.PrivateKey, or another one *)
Inductive pkey : Set := PRsa (k : bytes) | POther.

(** pkcs7.go:49-53, x509.go:31 *)
Definition oidData : oid := [1; 2; 840; 113549; 1; 7; 1].
Definition oidAttrContentType : oid := [1; 2; 840; 113549; 1; 9; 3].
Definition oidAttrSigningTime : oid := [1; 2; 840; 113549; 1; 9; 5].
Definition oidSHA1WithRSA : oid := [1; 2; 840; 113549; 1; 1; 5].

(** Go values: pkix.AlgorithmIdentifier without parameters, a slice that may be nil, contentInfo, attribute *)
Definition algVal (o : oid) : goval := VStruct [] [VOid o; VRaw 0 0 false [] []].
Definition sliceVal (l : list goval) : goval := match l with [] => VNil | _ :: _ => VSlice l end.
Definition infoVal (o : oid) (content : goval) : goval := VStruct [] [VOid o; content].
Definition attrVal (o : oid) (value : bytes) : goval := VStruct [] [VOid o; VRaw 0 17 true value []].

(** pkcs7.go:551-557 SignedData: ContentInfo, SignerInfos, certs, messageDigest; the other fields are set by Finish. *)
Record signing : Set := { sg_info : goval; sg_signers : list goval; sg_certs : list scert; sg_digest : bytes }.

Section WithEnv.
  Variable X : textenv.
  Variable sha1 : bytes -> bytes.
  (** rsa.SignPKCS1v15(rand, key, SHA1, digest) *)
  Variable rsaSign : bytes -> bytes -> option bytes.

  (** pkcs7.go:571-592 NewSignedData *)
  Definition newSignedData (data : bytes) : option signing :=
    match stdMarshal X TyBytes (VBytes data) with
    | None => None
    | Some content => Some {| sg_info := infoVal oidData (VRaw 2 0 true content []); sg_signers := []; sg_certs := []; sg_digest := sha1 data |}
    end.

  (** pkcs7.go:632-656 ForMarshaling.  The values are given as the results of asn1.Marshal.  Attributes with equal keys have
      equal encodings, so how sort.Sort orders them does not matter. *)
  Fixpoint encodeAttributes (l : list (oid * option bytes)) : option (list (bytes * goval)) :=
    match l with
    | [] => Some []
    | (o, Some value) :: t =>
        match stdMarshal X tyAttribute (attrVal o value), encodeAttributes t with
        | Some key, Some r => Some ((key, attrVal o value) :: r)
        | _, _ => None
        end
    | (_, None) :: _ => None
    end.
  Definition forMarshaling (l : list (oid * option bytes)) : option (list goval) :=
    option_map (fun r => map snd (isort (fun a b => bytesLess (fst a) (fst b)) r)) (encodeAttributes l).

  (** pkcs7.go:298-312 marshalAttributes *)
  Definition marshalAttrVals (l : list goval) : option bytes :=
    match stdMarshal X tyAttributeSet (VStruct [] [VSlice l]) with
    | None => None
    | Some b => Some (rawBytes (fst (unmarshal X TyRaw b)))
    end.
  (** pkcs7.go:731-744 signAttributes *)
  Definition signAttributes (l : list goval) (key : pkey) : option bytes :=
    match marshalAttrVals l with
    | None => None
    | Some b => match key with PRsa k => rsaSign k (sha1 b) | POther => None end
    end.

  (** pkcs7.go:720-728 cert2issuerAndSerial *)
  Definition iasVal (c : scert) : goval := VStruct [] [VRaw 0 0 false [] (sc_issuer c); VInt (sc_serial c)].
  Definition signerVal (c : scert) (attrs : list goval) (sig : bytes) : goval :=
    VStruct [] [VInt 1; iasVal c; algVal oidDigestSHA1; VSlice attrs; algVal oidSHA1WithRSA; VBytes sig; VNil].
  (** pkcs7.go:659-693 AddSigner; [now] is asn1.Marshal(time.Now()).  If it returns an error, [st] is unchanged. *)
  Definition addSigner (st : signing) (c : scert) (key : pkey) (now : option bytes) (extra : list (oid * option bytes)) : option signing :=
    match forMarshaling ((oidAttrContentType, stdMarshal X TyOid (field 0 (sg_info st))) ::
                         (oidMessageDigest, stdMarshal X TyBytes (VBytes (sg_digest st))) ::
                         (oidAttrSigningTime, now) :: extra) with
    | None => None
    | Some attrs =>
        match signAttributes attrs key with
        | None => None
        | Some sig => Some {| sg_info := sg_info st; sg_signers := sg_signers st ++ [signerVal c attrs sig];
                              sg_certs := sg_certs st ++ [c]; sg_digest := sg_digest st |}
        end
    end.
  (** pkcs7.go:696-698 AddCertificate, 702-704 Detach *)
  Definition addCertificate (st : signing) (c : scert) : signing :=
    {| sg_info := sg_info st; sg_signers := sg_signers st; sg_certs := sg_certs st ++ [c]; sg_digest := sg_digest st |}.
  Definition detach (st : signing) : signing :=
    {| sg_info := infoVal oidData (VRaw 0 0 false [] []); sg_signers := sg_signers st; sg_certs := sg_certs st; sg_digest := sg_digest st |}.

  (** pkcs7.go:759-766 marshalCertificateBytes: the Raw field *)
  Definition marshalCertificateBytes (certs : bytes) : option bytes := stdMarshal X TyRaw (VRaw 2 0 true certs []).
  (** pkcs7.go:747-754 marshalCertificates; the error is dropped *)
  Definition marshalCertificates (l : list scert) : bytes :=
    match marshalCertificateBytes (concat (map sc_raw l)) with Some b => b | None => [] end.
  Definition wrapSigned (v : goval) : option bytes :=
    match stdMarshal X tySignedData v with
    | None => None
    | Some inner => stdMarshal X tyContentInfo (infoVal oidSignedData (VRaw 2 0 true inner []))
    end.
  (** pkcs7.go:707-718 Finish *)
  Definition finish (st : signing) : option bytes :=
    wrapSigned (VStruct [] [VInt 1; VSlice [algVal oidDigestSHA1]; sg_info st; VStruct (marshalCertificates (sg_certs st)) []; VNil; sliceVal (sg_signers st)]).
  (** pkcs7.go:770-791 DegenerateCertificate *)
  Definition degenerateCertificate (cert : bytes) : option bytes :=
    match marshalCertificateBytes cert with
    | None => None
    | Some raw => wrapSigned (VStruct [] [VInt 1; VNil; infoVal oidData (VRaw 0 0 false [] []); VStruct raw []; VSlice []; VNil])
    end.
End WithEnv.
