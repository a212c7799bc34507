(** /repo/internal/x509andr/x509.go: parsing of public keys and certificates.
    Not modelled: the fields of Certificate nothing in the APK verifier reads (key usage, constraints, DNS names, ... - whether
    these extensions can be decoded is modelled, because otherwise the certificate is rejected; their values are in
    Model/CertExt.v), and signing certificates. *)
From Verif.Model Require Import Bytes Env Asn1 Pkcs7.

(** x509.go:502-507 *)
Inductive curve : Set := P224 | P256 | P384 | P521.

(** Code outside the repository: text functions, the test that a point is on a curve (both coordinates less than the
    field's prime, and the equation holds), and fmt's %v of an attribute value. *)
Record xenv : Set := {
  k_text : textenv;
  k_point : curve -> Z -> Z -> bool;
  k_print : goval -> bytes
}.

(** Struct tags used here and not in Pkcs7.v *)
Definition pVersion : fparams := {| fp_optional := true; fp_explicit := true; fp_application := false; fp_private := false;
  fp_default := Some 0; fp_tag := Some 0; fp_stringType := 0; fp_set := false; fp_omitEmpty := false |}.
Definition pIa5Tag (t : Z) : fparams := {| fp_optional := true; fp_explicit := false; fp_application := false; fp_private := false;
  fp_default := None; fp_tag := Some t; fp_stringType := TagIA5String; fp_set := false; fp_omitEmpty := false |}.
Definition pRequired (t : Z) : fparams := {| fp_optional := false; fp_explicit := true; fp_application := false; fp_private := false;
  fp_default := None; fp_tag := Some t; fp_stringType := 0; fp_set := false; fp_omitEmpty := false |}.
Definition pExplicitDefault (d t : Z) : fparams := {| fp_optional := true; fp_explicit := true; fp_application := false; fp_private := false;
  fp_default := Some d; fp_tag := Some t; fp_stringType := 0; fp_set := false; fp_omitEmpty := false |}.

(** x509.go:169-177 validity, publicKeyInfo; 134-155 tbsCertificate, certificate; pkcs1.go:39-42 pkcs1PublicKey; 157-159 dsaAlgorithmParameters;
    47-50 pkixPublicKey; 346-355 pssParameters *)
Definition tyValidity : gotype := TyStruct false (FCons noParams TyTime (FCons noParams TyTime FNil)).
Definition tySpki : gotype := TyStruct true (FCons noParams tyAlgorithm (FCons noParams TyBits FNil)).
Definition tyTbs : gotype := TyStruct true
  (FCons pVersion TyInt (FCons noParams TyBig (FCons noParams tyAlgorithm (FCons noParams TyRaw (FCons noParams tyValidity
  (FCons noParams TyRaw (FCons noParams tySpki (FCons (pOptionalTag 1) TyBits (FCons (pOptionalTag 2) TyBits
  (FCons (pExplicitTag 3) (TySlice false tyExtension) FNil)))))))))).
Definition tyCertificate : gotype := TyStruct true (FCons noParams tyTbs (FCons noParams tyAlgorithm (FCons noParams TyBits FNil))).
Definition tyPkcs1 : gotype := TyStruct false (FCons noParams TyBig (FCons noParams TyInt FNil)).
Definition tyDsaParams : gotype := TyStruct false (FCons noParams TyBig (FCons noParams TyBig (FCons noParams TyBig FNil))).
Definition tyPkixPublicKey : gotype := TyStruct false (FCons noParams tyAlgorithm (FCons noParams TyBits FNil)).
Definition tyPss : gotype := TyStruct false
  (FCons (pRequired 0) tyAlgorithm (FCons (pRequired 1) tyAlgorithm (FCons (pRequired 2) TyInt (FCons (pExplicitDefault 1 3) TyInt FNil)))).

(** x509.go:921-957 and 180-182: the structures of extensions *)
Definition tyBasicConstraints : gotype := TyStruct false (FCons pOptional TyBool (FCons (pOptionalDefault (-1)) TyInt FNil)).
Definition tyPolicies : gotype := TySlice false (TyStruct false (FCons noParams TyOid FNil)).
Definition tySubtrees : gotype := TySlice false (TyStruct false (FCons (pIa5Tag 2) TyString FNil)).
Definition tyNameConstraints : gotype := TyStruct false (FCons (pOptionalTag 0) tySubtrees (FCons (pOptionalTag 1) tySubtrees FNil)).
Definition tyAia : gotype := TySlice false (TyStruct false (FCons noParams TyOid (FCons noParams TyRaw FNil))).
Definition tyDistributionPoints : gotype := TySlice false (TyStruct false
  (FCons (pOptionalTag 0) (TyStruct false (FCons (pOptionalTag 0) TyRaw (FCons (pOptionalTag 1) tyRdnSequence FNil)))
  (FCons (pOptionalTag 1) TyBits (FCons (pOptionalTag 2) TyRaw FNil)))).
Definition tyAuthKeyId : gotype := TyStruct false (FCons (pOptionalTag 0) TyBytes FNil).

(** encoding/asn1 BitString.RightAlign (standard library) *)
Fixpoint shiftRight (shift : Z) (prev : Z) (b : bytes) : bytes :=
  match b with
  | [] => []
  | x :: t => z2b ((prev * 2 ^ (8 - shift)) mod 256 + b2z x / 2 ^ shift) :: shiftRight shift (b2z x) t
  end.
Definition rightAlign (b : bytes) (bitlen : Z) : bytes :=
  let shift := 8 - bitlen mod 8 in
  if shift =? 8 then b else shiftRight shift 0 b.

(** math/big Int.BitLen (standard library) *)
Definition bitLen (n : Z) : Z := if n =? 0 then 0 else Z.log2 (Z.abs n) + 1.

(** The Go public keys parsePublicKey returns: rsa.PublicKey, dsa.PublicKey, ecdsa.PublicKey, nil *)
Inductive gokey : Set := GRsa (n e : Z) | GDsa (y p q g : Z) | GEcdsa (c : curve) (x y : Z) | GNone.
(** As the key of a certificate.  The key material is represented by the numbers in it, as DER integers. *)
Definition curveId (c : curve) : Z := match c with P224 => 224 | P256 => 256 | P384 => 384 | P521 => 521 end.
Definition keyMaterial (l : list Z) : bytes :=
  flat_map (fun z => let b := encodeBigInt z in
                     appendTagAndLength {| tl_class := 0; tl_tag := TagInteger; tl_length := zlen b; tl_compound := false |} ++ b) l.
Definition pubkeyOf (k : gokey) : pubkey :=
  match k with
  | GRsa n e => KRsa (keyMaterial [n; e]) (bitLen n)
  | GDsa y p q g => KDsa (keyMaterial [y; p; q; g]) (bitLen q)
  | GEcdsa c x y => KEcdsa (keyMaterial [curveId c; x; y])
  | GNone => KOther []
  end.

(** x509.go:467-486 getPublicKeyAlgorithmFromOID *)
Inductive keyAlgorithm : Set := UnknownKey | RSA | DSA | ECDSA.
Definition oidPublicKeyRSA : oid := [1; 2; 840; 113549; 1; 1; 1].
Definition oidPublicKeyDSA : oid := [1; 2; 840; 10040; 4; 1].
Definition oidPublicKeyECDSA : oid := [1; 2; 840; 10045; 2; 1].
Definition getPublicKeyAlgorithmFromOID (o : oid) : keyAlgorithm :=
  if oidEqual o oidPublicKeyRSA then RSA
  else if oidEqual o oidPublicKeyDSA then DSA
  else if oidEqual o oidPublicKeyECDSA then ECDSA
  else UnknownKey.

(** x509.go:502-521 namedCurveFromOID *)
Definition namedCurveFromOID (o : oid) : option curve :=
  if oidEqual o [1; 3; 132; 0; 33] then Some P224
  else if oidEqual o [1; 2; 840; 10045; 3; 1; 7] then Some P256
  else if oidEqual o [1; 3; 132; 0; 34] then Some P384
  else if oidEqual o [1; 3; 132; 0; 35] then Some P521
  else None.

(** x509.go:988-995: making a modulus that is not positive "positive" *)
Definition fixModulus (n : Z) : Z := be_acc 0 (map notByte (bigBytes (Z.abs (- n - 1)))).

(** crypto/x509/pkix Name.FillFromRDNSequence followed by ToRDNSequence (standard library): values of the known attribute
    types that are strings, grouped by type; of common name and serial number only the last one *)
Definition nameValues (t : Z) (n : rdn_seq) : list bytes :=
  flat_map (flat_map (fun a => match at_value a with
                               | AvString s => if oidEqual (at_type a) [2; 5; 4; t] then [s] else []
                               | AvOther _ => [] end)) n.
Definition appendRDNs (t : Z) (values : list bytes) : rdn_seq :=
  match values with [] => [] | _ => [map (fun v => {| at_type := [2; 5; 4; t]; at_value := AvString v |}) values] end.
Definition lastNonEmpty (l : list bytes) : list bytes :=
  match last l [] with [] => [] | v => [v] end.
Definition goName (n : rdn_seq) : rdn_seq :=
  appendRDNs 6 (nameValues 6 n) ++ appendRDNs 10 (nameValues 10 n) ++ appendRDNs 11 (nameValues 11 n) ++
  appendRDNs 7 (nameValues 7 n) ++ appendRDNs 8 (nameValues 8 n) ++ appendRDNs 9 (nameValues 9 n) ++
  appendRDNs 17 (nameValues 17 n) ++ appendRDNs 3 (lastNonEmpty (nameValues 3 n)) ++
  appendRDNs 5 (lastNonEmpty (nameValues 5 n)).

(** x509.go:182-199 SignatureAlgorithm and 308-333 the table of signature algorithms other than RSA-PSS *)
Definition signatureAlgorithms : list (oid * Z) :=
  [ ([1; 2; 840; 113549; 1; 1; 2], 1); ([1; 2; 840; 113549; 1; 1; 4], 2); ([1; 2; 840; 113549; 1; 1; 5], 3);
    ([1; 3; 14; 3; 2; 29], 3); ([1; 2; 840; 113549; 1; 1; 11], 4); ([1; 2; 840; 113549; 1; 1; 12], 5);
    ([1; 2; 840; 113549; 1; 1; 13], 6); ([1; 2; 840; 10040; 4; 3], 7); ([2; 16; 840; 1; 101; 3; 4; 3; 2], 8);
    ([1; 2; 840; 10045; 4; 1], 9); ([1; 2; 840; 10045; 4; 3; 2], 10); ([1; 2; 840; 10045; 4; 3; 3], 11);
    ([1; 2; 840; 10045; 4; 3; 4], 12) ].
Definition oidRSAPSS : oid := [1; 2; 840; 113549; 1; 1; 10].
Definition oidMGF1 : oid := [1; 2; 840; 113549; 1; 1; 8].
Definition oidSHA256 : oid := [2; 16; 840; 1; 101; 3; 4; 2; 1].
Definition oidSHA384 : oid := [2; 16; 840; 1; 101; 3; 4; 2; 2].
Definition oidSHA512 : oid := [2; 16; 840; 1; 101; 3; 4; 2; 3].
Definition nullBytes : bytes := [x05; x00].

(** x509.go:921-957: [len(e.Id) == 4] and 2.5.29 *)
Definition oidAia : oid := [1; 3; 6; 1; 5; 5; 7; 1; 1].

Section WithEnv.
  Variable K : xenv.
  Let X : textenv := k_text K.

  (* Unmarshal followed by the check that nothing remains *)
  Definition unmarshalAll (ty : gotype) (b : bytes) : option goval :=
    match unmarshal X ty b with (v, Some []) => Some v | _ => None end.

  (** crypto/elliptic Unmarshal (standard library): uncompressed points only *)
  Definition byteLen (c : curve) : Z := (curveId c + 7) / 8.
  Definition ellipticUnmarshal (c : curve) (data : bytes) : option (Z * Z) :=
    match data with
    | x :: d =>
        if negb (zlen data =? 1 + 2 * byteLen c) then None
        else if negb (b2z x =? 4) then None
        else let px := be_acc 0 (takeZ (byteLen c) d) in
             let py := be_acc 0 (dropZ (byteLen c) d) in
             if k_point K c px py then Some (px, py) else None
    | [] => None
    end.

  (** x509.go:959-1061 parsePublicKey; the flag is needsReencode *)
  Definition parsePublicKey (algo : keyAlgorithm) (spki : goval) : option (gokey * bool) :=
    let asn1Data := match field 1 spki with VBits b n => rightAlign b n | _ => [] end in
    let paramsData := rawFull (field 1 (field 0 spki)) in
    match algo with
    | RSA =>
        match unmarshalAll tyPkcs1 asn1Data with
        | None => None
        | Some p =>
            let n := asInt (field 0 p) in
            let e := asInt (field 1 p) in
            let '(n', re) := if n <=? 0 then (fixModulus n, true) else (n, false) in
            if e <=? 0 then None else Some (GRsa n' e, re)
        end
    | DSA =>
        match unmarshalAll TyBig asn1Data with
        | None => None
        | Some y =>
            match unmarshalAll tyDsaParams paramsData with
            | None => None
            | Some v =>
                let p := asInt (field 0 v) in let q := asInt (field 1 v) in let g := asInt (field 2 v) in
                if (asInt y <=? 0) || (p <=? 0) || (q <=? 0) || (g <=? 0) then None
                else Some (GDsa (asInt y) p q g, false)
            end
        end
    | ECDSA =>
        match unmarshalAll TyOid paramsData with
        | None => None
        | Some o =>
            match namedCurveFromOID (asOid o) with
            | None => None
            | Some c => match ellipticUnmarshal c asn1Data with
                        | Some (x, y) => Some (GEcdsa c x y, false)
                        | None => None
                        end
            end
        end
    | UnknownKey => Some (GNone, false)
    end.

  (** x509.go:62-74 ParsePKIXPublicKey *)
  Definition parsePKIXPublicKey (der : bytes) : option gokey :=
    match unmarshalAll tySpki der with
    | None => None
    | Some pki =>
        match getPublicKeyAlgorithmFromOID (asOid (field 0 (field 0 pki))) with
        | UnknownKey => None
        | algo => option_map fst (parsePublicKey algo pki)
        end
    end.

  (** x509.go:76-130 MarshalPKIXPublicKey for the only keys it is called with here, RSA keys (line 1139).
      It uses encoding/asn1, of which asn1andr is a copy. *)
  Definition marshalPKIXPublicKey (n e : Z) : option bytes :=
    match marshal X tyPkcs1 (VStruct [] [VInt n; VInt e]) with
    | None => None
    | Some pk => marshal X tyPkixPublicKey
        (VStruct [] [VStruct [] [VOid oidPublicKeyRSA; VRaw 0 5 false [] []]; VBits pk (8 * zlen pk)])
    end.

  (** x509.go:402-455 getSignatureAlgorithmFromAI *)
  Definition pssAlgorithm (parameters : bytes) : Z :=
    match unmarshal X tyPss parameters with
    | (_, None) => 0
    | (p, Some _) =>
        match unmarshal X tyAlgorithm (rawFull (field 1 (field 1 p))) with
        | (_, None) => 0
        | (mgf, Some _) =>
            let h := asOid (field 0 (field 0 p)) in
            let salt := asInt (field 2 p) in
            if negb (bytes_eqb (rawFull (field 1 (field 0 p))) nullBytes) ||
               negb (oidEqual (asOid (field 0 (field 1 p))) oidMGF1) ||
               negb (oidEqual (asOid (field 0 mgf)) h) ||
               negb (bytes_eqb (rawFull (field 1 mgf)) nullBytes) ||
               negb (asInt (field 3 p) =? 1) then 0
            else if oidEqual h oidSHA256 && (salt =? 32) then 13
            else if oidEqual h oidSHA384 && (salt =? 48) then 14
            else if oidEqual h oidSHA512 && (salt =? 64) then 15
            else 0
        end
    end.
  Definition getSignatureAlgorithmFromAI (ai : goval) : Z :=
    let o := asOid (field 0 ai) in
    if oidEqual o oidRSAPSS then pssAlgorithm (rawFull (field 1 ai))
    else match find (fun e => oidEqual o (fst e)) signatureAlgorithms with
         | Some e => snd e
         | None => 0
         end.

  (** x509.go:1063-1117 parseSANExtension: whether there is an e-mail address, DNS name or IP address; None = error *)
  Fixpoint sanLoop (fuel : nat) (found : bool) (rest : bytes) : option bool :=
    match rest with
    | [] => Some found
    | _ =>
        match fuel with
        | O => None
        | Datatypes.S f =>
            match unmarshal X TyRaw rest with
            | (VRaw _ tag _ b _, Some r) =>
                if (tag =? 1) || (tag =? 2) then sanLoop f true r
                else if tag =? 7 then (if (zlen b =? 4) || (zlen b =? 16) then sanLoop f true r else None)
                else sanLoop f found r
            | _ => None
            end
        end
    end.
  Definition parseSANExtension (value : bytes) : option bool :=
    match unmarshalAll TyRaw value with
    | Some (VRaw class tag compound b _) =>
        if negb compound || negb (tag =? 16) || negb (class =? 0) then None
        else sanLoop (List.length b) false b
    | _ => None
    end.

  (** x509.go:1195-1216 getDNSNames (true = no error) *)
  Definition subtreesOk (critical : bool) (v : goval) : bool :=
    negb critical || forallb (fun s => match field 0 s with VString [] => false | _ => true end) (asSlice v).
  (** x509.go:1246-1265: the full names of distribution points can be decoded *)
  Definition distributionPointsOk (v : goval) : bool :=
    forallb (fun dp => match rawBytes (field 0 (field 0 dp)) with
                       | [] => true
                       | b => match unmarshal X TyRaw b with (_, Some _) => true | _ => false end
                       end) (asSlice v).

  Definition decodable (ty : gotype) (b : bytes) : option bool :=
    match unmarshalAll ty b with Some _ => Some false | None => None end.
  (** x509.go:1165-1387 one extension: None = the certificate is rejected, otherwise whether it is unhandled *)
  Definition parseKnown (x : Z) (critical : bool) (value : bytes) : option bool :=
    if x =? 15 then decodable TyBits value
    else if x =? 19 then decodable tyBasicConstraints value
    else if x =? 17 then option_map negb (parseSANExtension value)
    else if x =? 30 then
      match unmarshalAll tyNameConstraints value with
      | Some v => if subtreesOk critical (field 0 v) && subtreesOk critical (field 1 v) then Some false else None
      | None => None
      end
    else if x =? 31 then
      match unmarshalAll tyDistributionPoints value with
      | Some v => if distributionPointsOk v then Some false else None
      | None => None
      end
    else if x =? 35 then decodable tyAuthKeyId value
    else if x =? 37 then decodable (TySlice false TyOid) value
    else if x =? 14 then decodable TyBytes value
    else if x =? 32 then decodable tyPolicies value
    else Some true.
  Definition parseExtension (id : oid) (critical : bool) (value : bytes) : option bool :=
    match id with
    | [a; b; c; x] => if (a =? 2) && (b =? 5) && (c =? 29) then parseKnown x critical value else Some true
    | _ => if oidEqual id oidAia then decodable tyAia value else Some true
    end.
  (** x509.go:1162-1392 the loop: whether UnhandledCriticalExtensions is non-empty *)
  Fixpoint parseExtensions (l : list goval) : option bool :=
    match l with
    | [] => Some false
    | e :: t =>
        let critical := match field 1 e with VBool b => b | _ => false end in
        match parseExtension (asOid (field 0 e)) critical (asBytes (field 2 e)) with
        | None => None
        | Some unhandled => option_map (orb (critical && unhandled)) (parseExtensions t)
        end
    end.

  (** pkix.RDNSequence values as in Pkcs7.v; [q_certs] is not used *)
  Definition namesEnv : p7env := {| q_text := X; q_certs := fun _ => None; q_name := goName; q_print := k_print K |}.
  (** x509.go:1147-1160 *)
  Definition parseName (full : bytes) : option rdn_seq :=
    option_map (fun v => goName (rdnSequence namesEnv v)) (unmarshalAll tyRdnSequence full).

  Definition asTime (v : goval) : Z := match v with VTime t => t | _ => 0 end.
  (** x509.go:1119-1394 parseCertificate and 1423-1441 andrCertToGoCert *)
  Definition parseCertificate (v : goval) : option cert :=
    let tbs := field 0 v in
    let spki := field 6 tbs in
    match parsePublicKey (getPublicKeyAlgorithmFromOID (asOid (field 0 (field 0 spki)))) spki with
    | None => None
    | Some (key, needsReencode) =>
        match (match key with
               | GRsa n e => if needsReencode then marshalPKIXPublicKey n e else Some (structRaw spki)
               | _ => Some (structRaw spki)
               end) with
        | None => None
        | Some rawSpki =>
            match parseName (rawFull (field 5 tbs)) with
            | None => None
            | Some subject =>
                match parseName (rawFull (field 3 tbs)) with
                | None => None
                | Some issuer =>
                    match parseExtensions (asSlice (field 9 tbs)) with
                    | None => None
                    | Some unhandled =>
                        Some {| c_raw := structRaw v; c_spki := rawSpki; c_key := pubkeyOf key;
                                c_issuer := issuer; c_subject := subject; c_serial := asInt (field 1 tbs);
                                c_sigalg := getSignatureAlgorithmFromAI (field 2 tbs);
                                c_not_before := asTime (field 0 (field 4 tbs)); c_not_after := asTime (field 1 (field 4 tbs));
                                c_unhandled_critical := unhandled |}
                    end
                end
            end
        end
    end.

  (** x509.go:1396-1407 ParseCertificate, 1443-1450 ParseCertificateForGo *)
  Definition parseCertificateForGo (data : bytes) : option cert :=
    match unmarshalAll tyCertificate data with Some v => parseCertificate v | None => None end.

  (** x509.go:1467-1490 ParseCertificates, 1452-1463 ParseCertificatesForGo *)
  Fixpoint certificatesLoop (fuel : nat) (data : bytes) : option (list goval) :=
    match data with
    | [] => Some []
    | _ =>
        match fuel with
        | O => None
        | Datatypes.S f =>
            match unmarshal X tyCertificate data with
            | (v, Some rest) => option_map (cons v) (certificatesLoop f rest)
            | (_, None) => None
            end
        end
    end.
  Definition parseCertificatesForGo (data : bytes) : option (list cert) :=
    match certificatesLoop (List.length data) data with Some l => mapM parseCertificate l | None => None end.

  (** The environment with these functions in it, and the one with the PKCS#7 parser on top of it. *)
  Definition x509P7 : p7env := {| q_text := X; q_certs := parseCertificatesForGo; q_name := goName; q_print := k_print K |}.
  Definition withX509 (E : env) : env := {|
    e_hash := e_hash E; e_rsa_pss := e_rsa_pss E; e_rsa_pkcs1 := e_rsa_pkcs1 E; e_ecdsa := e_ecdsa E; e_dsa := e_dsa E;
    e_asn1_ints := e_asn1_ints E; e_asn1_rs_std := e_asn1_rs_std E; e_asn1_rs_andr := e_asn1_rs_andr E;
    e_pkix_andr := fun b => option_map pubkeyOf (parsePKIXPublicKey b); e_pkix_std := e_pkix_std E;
    e_cert_andr := parseCertificateForGo; e_cert_std := e_cert_std E;
    e_pkcs7 := e_pkcs7 E; e_asn1_oid := e_asn1_oid E; e_asn1_octets := e_asn1_octets E;
    e_marshal_attrs := e_marshal_attrs E;
    e_cert_check := e_cert_check E; e_base64 := e_base64 E; e_parse_xml := e_parse_xml E; e_to_lower := e_to_lower E |}.
  Definition concrete (E : env) : env := withPkcs7 x509P7 (withX509 E).
End WithEnv.
