(** /repo/fullsailor/pkcs7/pkcs7.go: the rest of reading - the whole result of Parse, PKCS7.Verify, GetOnlySigner,
    UnmarshalSignedAttribute - and x509.go. *)
From Verif.Model Require Import Bytes Env Ber Asn1 Pkcs7 X509.

(** bytes.Compare(a, b) < 0 *)
Fixpoint bytesLess (a b : bytes) : bool :=
  match a, b with
  | [], [] => false
  | [], _ :: _ => true
  | _ :: _, [] => false
  | x :: a', y :: b' => if b2z x =? b2z y then bytesLess a' b' else b2z x <? b2z y
  end.

(** encoding/asn1.Marshal (standard library, from which asn1andr is copied).  It differs from asn1andr in that a SET is
    written with the encodings of its elements in ascending order (the lines commented out at marshal.go:565-569).
    Elements with equal encodings are interchangeable, so how sort.Slice orders them does not matter. *)
Section Sets.
  Variable X : textenv.
  Definition encodingLess (elem : gotype) (a b : goval) : bool :=
    match makeField X elem noParams a, makeField X elem noParams b with
    | Some x, Some y => bytesLess x y
    | _, _ => false
    end.
  Fixpoint sortSets (ty : gotype) (p : fparams) (v : goval) : goval :=
    match ty, v with
    | TySlice isSet elem, VSlice l =>
        let l' := map (sortSets elem noParams) l in
        VSlice (if isSet || fp_set p then isort (encodingLess elem) l' else l')
    | TyStruct _ fs, VStruct raw vs => VStruct raw (sortFields fs vs)
    | _, _ => v
    end
  with sortFields (fs : tfields) (vs : list goval) : list goval :=
    match fs, vs with
    | FCons p t r, v :: l => sortSets t p v :: sortFields r l
    | _, _ => vs
    end.
  Definition stdMarshal (ty : gotype) (v : goval) : option bytes := marshal X ty (sortSets ty noParams v).
End Sets.

(** crypto/x509.Certificate with its RawIssuer *)
Record p7cert : Set := { pc_cert : cert; pc_issuer : bytes }.
(** pkcs7.go:125-133 signerInfo: the fields that are read *)
Record sigInfo : Set := {
  gi_issuer : bytes;                     (* IssuerAndSerialNumber.IssuerName.FullBytes *)
  gi_serial : Z;
  gi_digest : oid;                       (* DigestAlgorithm.Algorithm *)
  gi_attrs : list p7_attr;               (* AuthenticatedAttributes *)
  gi_enc : oid;                          (* DigestEncryptionAlgorithm.Algorithm *)
  gi_enc_params : bytes;                 (* DigestEncryptionAlgorithm.Parameters.FullBytes *)
  gi_sig : bytes                         (* EncryptedDigest *)
}.
(** pkcs7.go:82-92 recipientInfo, encryptedContentInfo *)
Record recipient : Set := { rc_issuer : bytes; rc_serial : Z; rc_key : bytes (* EncryptedKey *) }.
Record envelope : Set := {
  en_recipients : list recipient;
  en_alg : oid;                          (* ContentEncryptionAlgorithm.Algorithm *)
  en_params : bytes;                     (* ContentEncryptionAlgorithm.Parameters.Bytes *)
  en_compound : bool;                    (* EncryptedContent.IsCompound *)
  en_content : bytes                     (* EncryptedContent.Bytes *)
}.
(** crypto/x509/pkix: Extension, RevokedCertificate, CertificateList with TBSCertificateList; bytes of algorithm parameters as
    in RawValue.FullBytes *)
Record revokedCert : Set := { rv_serial : Z; rv_date : Z; rv_exts : list (oid * bool * bytes) }.
Record certList : Set := {
  cl_raw : bytes; cl_version : Z; cl_alg : oid * bytes; cl_issuer : rdn_seq; cl_this : Z; cl_next : Z; cl_revoked : list revokedCert;
  cl_exts : list (oid * bool * bytes); cl_outer : oid * bytes; cl_sig : bytes; cl_sig_bits : Z
}.
(** pkcs7.go:29-37 PKCS7.  [raw] is a signedData with the same signers, or an envelopedData. *)
Record pkcs7obj : Set := {
  po_content : bytes; po_certs : list p7cert; po_signers : list sigInfo; po_type : oid;
  po_crls : list certList; po_envelope : option envelope
}.

(** pkcs7.go:47-61, x509.go:21-48 object identifiers *)
Definition oidMessageDigest : oid := [1; 2; 840; 113549; 1; 9; 4].
Definition oidDigestSHA1 : oid := [1; 3; 14; 3; 2; 26].
Definition oidEncryptionRSA : oid := [1; 2; 840; 113549; 1; 1; 1].
Definition oidRSAPSS : oid := [1; 2; 840; 113549; 1; 1; 10].

(** x509.go:50-75 signatureAlgorithmDetails: algorithm (numbers of crypto/x509), identifier, RSA?, hash.
    The hash of the MD2 entry is crypto.Hash(0). *)
Definition algorithmDetails : list (Z * oid * bool * option hash_id) := [
  (1, [1; 2; 840; 113549; 1; 1; 2], true, None);
  (2, [1; 2; 840; 113549; 1; 1; 4], true, Some HMd5);
  (3, [1; 2; 840; 113549; 1; 1; 5], true, Some HSha1);
  (3, [1; 3; 14; 3; 2; 29], true, Some HSha1);
  (4, [1; 2; 840; 113549; 1; 1; 11], true, Some HSha256);
  (5, [1; 2; 840; 113549; 1; 1; 12], true, Some HSha384);
  (6, [1; 2; 840; 113549; 1; 1; 13], true, Some HSha512);
  (13, oidRSAPSS, true, Some HSha256);
  (14, oidRSAPSS, true, Some HSha384);
  (15, oidRSAPSS, true, Some HSha512);
  (7, [1; 2; 840; 10040; 4; 3], false, Some HSha1);
  (8, [2; 16; 840; 1; 101; 3; 4; 3; 2], false, Some HSha256);
  (9, [1; 2; 840; 10045; 4; 1], false, Some HSha1);
  (10, [1; 2; 840; 10045; 4; 3; 2], false, Some HSha256);
  (11, [1; 2; 840; 10045; 4; 3; 3], false, Some HSha384);
  (12, [1; 2; 840; 10045; 4; 3; 4], false, Some HSha512)].
Fixpoint algorithmByOid (l : list (Z * oid * bool * option hash_id)) (o : oid) : Z :=
  match l with
  | [] => 0
  | (a, o', _, _) :: t => if oidEqual o o' then a else algorithmByOid t o
  end.
(** pkcs7.go:336-343 getRSASignatureAlgorithmForDigestAlgorithm; only SHA-1 and SHA-256 are asked for *)
Definition sameHash (a b : hash_id) : bool :=
  match a, b with HMd5, HMd5 | HSha1, HSha1 | HSha224, HSha224 | HSha256, HSha256 | HSha384, HSha384 | HSha512, HSha512 => true | _, _ => false end.
Fixpoint rsaByHash (l : list (Z * oid * bool * option hash_id)) (h : hash_id) : Z :=
  match l with
  | [] => 0
  | (a, _, rsa, Some h') :: t => if rsa && sameHash h' h then a else rsaByHash t h
  | _ :: t => rsaByHash t h
  end.
(** pkcs7.go:326-334 getHashForOID *)
Definition getHashForOID (o : oid) : option hash_id :=
  if oidEqual o oidDigestSHA1 then Some HSha1
  else if oidEqual o oidSHA256 then Some HSha256
  else None.

(** pkcs7.go:490-492 isCertMatchForIssuerAndSerial *)
Definition isCertMatch (c : p7cert) (issuer : bytes) (serial : Z) : bool :=
  (c_serial (pc_cert c) =? serial) && bytes_eqb (pc_issuer c) issuer.
(** pkcs7.go:317-324 getCertFromCertsByIssuerAndSerial *)
Definition getCert (l : list p7cert) (issuer : bytes) (serial : Z) : option p7cert := find (fun c => isCertMatch c issuer serial) l.

(** x509.go:77-87 pssParameters; the parameters of an AlgorithmIdentifier are its FullBytes *)
Record pssParams : Set := {
  ps_hash : oid; ps_hash_params : bytes; ps_mgf : oid; ps_mgf_params : bytes; ps_salt : Z; ps_trailer : Z
}.
(** encoding/asn1.Unmarshal (standard library) into pssParameters and into pkix.AlgorithmIdentifier *)
Record stdDecoder : Set := {
  d_pss : bytes -> option pssParams;
  d_algorithm : bytes -> option (oid * bytes)
}.

(** Why Verify failed *)
Inductive p7err : Set :=
| ENoSigners | EAlgorithm | ENoAttribute | EAttribute | EDigest | EMarshal | ENoCertificate | ESignature.

Section WithEnv.
  Variables (K : xenv) (E : env).
  Variable D : stdDecoder.
  Notation X := (k_text K).

  (** x509.go:92-133 getSignatureAlgorithmFromAI *)
  Definition p7Pss (parameters : bytes) : Z :=
    match d_pss D parameters with
    | None => 0
    | Some p =>
        match d_algorithm D (ps_mgf_params p) with
        | None => 0
        | Some (mgfHash, mgfHashParams) =>
            if negb (bytes_eqb (ps_hash_params p) nullBytes) ||
               negb (oidEqual (ps_mgf p) oidMGF1) ||
               negb (oidEqual mgfHash (ps_hash p)) ||
               negb (bytes_eqb mgfHashParams nullBytes) ||
               negb (ps_trailer p =? 1) then 0
            else if oidEqual (ps_hash p) oidSHA256 && (ps_salt p =? 32) then 13
            else if oidEqual (ps_hash p) oidSHA384 && (ps_salt p =? 48) then 14
            else if oidEqual (ps_hash p) oidSHA512 && (ps_salt p =? 64) then 15
            else 0
        end
    end.
  Definition p7Algorithm (o : oid) (parameters : bytes) : Z :=
    if oidEqual o oidRSAPSS then p7Pss parameters else algorithmByOid algorithmDetails o.

  (** pkcs7.go:528-536 unmarshalAttribute with out = new([]byte): None = no such attribute, Some None = error *)
  Fixpoint digestAttribute (l : list p7_attr) : option (option bytes) :=
    match l with
    | [] => None
    | a :: t => if oidEqual (pa_type a) oidMessageDigest
                then Some (match unmarshal X TyBytes (pa_value a) with (VBytes b, Some _) => Some b | _ => None end)
                else digestAttribute t
    end.

  (** pkcs7.go:298-312 marshalAttributes *)
  Definition marshalAttributes (l : list p7_attr) : option bytes :=
    match stdMarshal X tyAttributeSet (VStruct [] [VSlice (map attributeVal l)]) with
    | None => None
    | Some b => Some (rawBytes (fst (unmarshal X TyRaw b)))
    end.

  (** pkcs7.go:249-296 verifySignature; None = no error *)
  Definition checkWith (p : pkcs7obj) (i : sigInfo) (h : hash_id) (signed : bytes) : option p7err :=
    match getCert (po_certs p) (gi_issuer i) (gi_serial i) with
    | None => Some ENoCertificate
    | Some c =>
        let algo := p7Algorithm (gi_enc i) (gi_enc_params i) in
        let algo' := if (algo =? 0) && oidEqual (gi_enc i) oidEncryptionRSA then rsaByHash algorithmDetails h else algo in
        if e_cert_check E (pc_cert c) algo' signed (gi_sig i) then None else Some ESignature
    end.
  Definition verifySignature (p : pkcs7obj) (i : sigInfo) : option p7err :=
    match getHashForOID (gi_digest i) with
    | None => Some EAlgorithm
    | Some h =>
        match gi_attrs i with
        | [] => checkWith p i h (po_content p)
        | _ :: _ =>
            match digestAttribute (gi_attrs i) with
            | None => Some ENoAttribute
            | Some None => Some EAttribute
            | Some (Some digest) =>
                if negb (bytes_eqb digest (e_hash E h (po_content p))) then Some EDigest
                else match marshalAttributes (gi_attrs i) with
                     | None => Some EMarshal
                     | Some signed => checkWith p i h signed
                     end
            end
        end
    end.

  (** pkcs7.go:237-247 Verify *)
  Fixpoint verifyAll (p : pkcs7obj) (l : list sigInfo) : option p7err :=
    match l with
    | [] => None
    | i :: t => match verifySignature p i with Some e => Some e | None => verifyAll p t end
    end.
  Definition p7Verify (p : pkcs7obj) : option p7err :=
    match po_signers p with [] => Some ENoSigners | _ :: _ => verifyAll p (po_signers p) end.

  (** pkcs7.go:347-354 GetOnlySigner *)
  Definition getOnlySigner (p : pkcs7obj) : option p7cert :=
    match po_signers p with [i] => getCert (po_certs p) (gi_issuer i) (gi_serial i) | _ => None end.

  (** pkcs7.go:539-550 UnmarshalSignedAttribute into a value of type [ty]; None = error *)
  Fixpoint attributeNamed (l : list p7_attr) (o : oid) : option p7_attr :=
    match l with
    | [] => None
    | a :: t => if oidEqual (pa_type a) o then Some a else attributeNamed t o
    end.
  Definition unmarshalSignedAttribute (p : pkcs7obj) (o : oid) (ty : gotype) : option goval :=
    match po_envelope p with
    | Some _ => None
    | None =>
        match po_signers p with
        | [] => None
        | i :: _ =>
            match attributeNamed (gi_attrs i) o with
            | None => None
            | Some a => match unmarshal X ty (pa_value a) with (v, Some _) => Some v | (_, None) => None end
            end
        end
    end.

  (** *** The whole result of Parse *)
  (** x509.go:1467-1490 ParseCertificates with RawIssuer (line 1125) *)
  Definition certWithIssuer (v : goval) : option p7cert :=
    option_map (fun c => {| pc_cert := c; pc_issuer := rawFull (field 3 (field 0 v)) |}) (parseCertificate K v).
  Definition parseCertsWithIssuer (data : bytes) : option (list p7cert) :=
    match certificatesLoop K (List.length data) data with Some l => mapM certWithIssuer l | None => None end.
  (** pkcs7.go:211-222 rawCertificates.Parse *)
  Definition parseRawCerts (raw : bytes) : option (list p7cert) :=
    match raw with
    | [] => Some []
    | _ => match unmarshal X TyRaw raw with
           | (v, Some _) => parseCertsWithIssuer (rawBytes v)
           | (_, None) => None
           end
    end.
  Definition sigInfoOf (v : goval) : sigInfo := {|
    gi_issuer := rawFull (field 0 (field 1 v)); gi_serial := asInt (field 1 (field 1 v));
    gi_digest := asOid (field 0 (field 2 v)); gi_attrs := map signerAttribute (asSlice (field 3 v));
    gi_enc := asOid (field 0 (field 4 v)); gi_enc_params := rawFull (field 1 (field 4 v)); gi_sig := asBytes (field 5 v) |}.
  (** the Go values of type pkix.CertificateList *)
  Definition algorithmOf (v : goval) : oid * bytes := (asOid (field 0 v), rawFull (field 1 v)).
  Definition extensionOf (v : goval) : oid * bool * bytes :=
    (asOid (field 0 v), match field 1 v with VBool b => b | _ => false end, asBytes (field 2 v)).
  Definition revokedOf (v : goval) : revokedCert := {|
    rv_serial := asInt (field 0 v); rv_date := asTime (field 1 v); rv_exts := map extensionOf (asSlice (field 2 v)) |}.
  Definition certListOf (v : goval) : certList :=
    let tbs := field 0 v in {|
    cl_raw := structRaw tbs; cl_version := asInt (field 0 tbs); cl_alg := algorithmOf (field 1 tbs);
    cl_issuer := rdnSequence (namesEnv K) (field 2 tbs); cl_this := asTime (field 3 tbs); cl_next := asTime (field 4 tbs);
    cl_revoked := map revokedOf (asSlice (field 5 tbs)); cl_exts := map extensionOf (asSlice (field 6 tbs));
    cl_outer := algorithmOf (field 1 v);
    cl_sig := match field 2 v with VBits b _ => b | _ => [] end; cl_sig_bits := match field 2 v with VBits _ n => n | _ => 0 end |}.
  (** pkcs7.go:175-209 parseSignedData; the error of the first Unmarshal is dropped (line 177) *)
  Definition signedContent (content : bytes) : option bytes :=
    match (match content with
           | [] => Some (zeroVal TyRaw)
           | _ => match unmarshal X TyRaw content with (v, Some _) => Some v | (_, None) => None end
           end) with
    | None => None
    | Some compound =>
        if rawCompound compound then
          match unmarshal X TyBytes (rawBytes compound) with (v, Some _) => Some (asBytes v) | (_, None) => None end
        else Some (rawBytes compound)
    end.
  Definition parseSigned (data : bytes) : option pkcs7obj :=
    let sd := fst (unmarshal X tySignedData data) in
    match parseRawCerts (structRaw (field 3 sd)) with
    | None => None
    | Some certs =>
        match signedContent (rawBytes (field 1 (field 2 sd))) with
        | None => None
        | Some content =>
            Some {| po_content := content; po_certs := certs; po_signers := map sigInfoOf (asSlice (field 5 sd));
                    po_type := asOid (field 0 (field 2 sd)); po_crls := map certListOf (asSlice (field 4 sd)); po_envelope := None |}
        end
    end.
  (** pkcs7.go:224-232 parseEnvelopedData *)
  Definition recipientOf (v : goval) : recipient := {|
    rc_issuer := rawFull (field 0 (field 1 v)); rc_serial := asInt (field 1 (field 1 v)); rc_key := asBytes (field 3 v) |}.
  Definition envelopeOf (v : goval) : envelope :=
    let eci := field 2 v in
    {| en_recipients := map recipientOf (asSlice (field 1 v)); en_alg := asOid (field 0 (field 1 eci));
       en_params := rawBytes (field 1 (field 1 eci)); en_compound := rawCompound (field 2 eci); en_content := rawBytes (field 2 eci) |}.
  Definition parseEnveloped (data : bytes) : option pkcs7obj :=
    match unmarshal X tyEnvelopedData data with
    | (v, Some _) => Some {| po_content := []; po_certs := []; po_signers := []; po_type := []; po_crls := []; po_envelope := Some (envelopeOf v) |}
    | (_, None) => None
    end.
  (** pkcs7.go:147-173 Parse *)
  Definition p7Parse (data : bytes) : outcome (option pkcs7obj) :=
    match data with
    | [] => Ret None
    | _ =>
        match ber2der data with
        | BPanic => Panic PIndex
        | BErr | BFuel => Ret None
        | BRet der =>
            match unmarshal X tyContentInfo der with
            | (info, Some []) =>
                if oidEqual (asOid (field 0 info)) oidSignedData then Ret (parseSigned (rawBytes (field 1 info)))
                else if oidEqual (asOid (field 0 info)) oidEnvelopedData then Ret (parseEnveloped (rawBytes (field 1 info)))
                else Ret None
            | _ => Ret None
            end
        end
    end.
End WithEnv.
