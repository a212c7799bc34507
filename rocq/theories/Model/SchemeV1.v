(** /repo/schemev1.go: the JAR signature (v1) verifier *)
From Coq Require Import String.
From Verif.Model Require Import Bytes Env ApiLevel GoStrings Manifest PkixName.

(** schemev1.go:38-51 digestAlgorithms / digestHashers *)
Definition digestAlgorithms : list bytes := [s2b "sha-512"; s2b "sha-384"; s2b "sha-256"; s2b "sha1"].
Definition digestHasher (algo : bytes) : option hash_id :=
  if bytes_eqb algo (s2b "sha-512") then Some HSha512
  else if bytes_eqb algo (s2b "sha-384") then Some HSha384
  else if bytes_eqb algo (s2b "sha-256") then Some HSha256
  else if bytes_eqb algo (s2b "sha1") then Some HSha1
  else None.

(* schemev1.go:53-57 and crypto/x509 SignatureAlgorithm *)
Definition aMD2WithRSA : Z := 1.
Definition aMD5WithRSA : Z := 2.
Definition aSHA1WithRSA : Z := 3.
Definition aSHA256WithRSA : Z := 4.
Definition aSHA384WithRSA : Z := 5.
Definition aSHA512WithRSA : Z := 6.
Definition aDSAWithSHA1 : Z := 7.
Definition aDSAWithSHA256 : Z := 8.
Definition aECDSAWithSHA1 : Z := 9.
Definition aECDSAWithSHA256 : Z := 10.
Definition aECDSAWithSHA384 : Z := 11.
Definition aECDSAWithSHA512 : Z := 12.
Definition aSHA224WithRSA : Z := 65535.
Definition aDSAWithSHA224 : Z := 65536.
Definition aECDSAWithSHA224 : Z := 65537.

(* schemev1.go:59-64 *)
Definition oidAttributeContentType : oid := [1; 2; 840; 113549; 1; 9; 3].
Definition oidAttributeMessageDigest : oid := [1; 2; 840; 113549; 1; 9; 4].
Definition oidDigestAlgorithmSHA1 : oid := [1; 3; 14; 3; 2; 26].
Definition oidDigestAlgorithmSHA256 : oid := [2; 16; 840; 1; 101; 3; 4; 2; 1].

Fixpoint oid_eqb (a b : oid) : bool :=
  match a, b with
  | [], [] => true
  | x :: a', y :: b' => (x =? y) && oid_eqb a' b'
  | _, _ => false
  end.

(** schemev1.go:66-118 oidToAlgo.  The Go map is keyed by "digestOID encryptionOID" in dotted notation;
    here by the pair (the empty digest OID prints as the empty string). *)
Definition rsaOid (k : Z) : oid := [1; 2; 840; 113549; 1; 1; k].
Definition sha2Oid (k : Z) : oid := [2; 16; 840; 1; 101; 3; 4; 2; k].
Definition dsaOid (k : Z) : oid := [1; 2; 840; 10040; 4; k].
Definition dsa2Oid (k : Z) : oid := [2; 16; 840; 1; 101; 3; 4; 3; k].
Definition oiwOid (k : Z) : oid := [1; 3; 14; 3; 2; k].
Definition ecPublicKeyOid : oid := [1; 2; 840; 10045; 2; 1].
Definition ecdsa1Oid : oid := [1; 2; 840; 10045; 4; 1].
Definition ecdsa2Oid (k : Z) : oid := [1; 2; 840; 10045; 4; 3; k].
Definition oidToAlgo : list ((oid * oid) * Z) :=
  [ (([], rsaOid 2), aMD2WithRSA);
    ((oiwOid 24, rsaOid 2), aMD2WithRSA);
    (([1; 2; 840; 113549; 2; 2], rsaOid 1), aMD2WithRSA);
    (([], rsaOid 4), aMD5WithRSA);
    ((oiwOid 25, rsaOid 4), aMD5WithRSA);
    ((oiwOid 3, rsaOid 4), aMD5WithRSA);
    (([1; 2; 840; 113549; 2; 5], rsaOid 1), aMD5WithRSA);
    (([1; 2; 840; 113549; 2; 5], rsaOid 4), aMD5WithRSA);
    (([], rsaOid 5), aSHA1WithRSA);
    ((oiwOid 26, rsaOid 1), aSHA1WithRSA);
    ((oiwOid 29, rsaOid 1), aSHA1WithRSA);
    ((oiwOid 26, rsaOid 5), aSHA1WithRSA);
    ((sha2Oid 4, rsaOid 1), aSHA224WithRSA);
    ((sha2Oid 4, rsaOid 14), aSHA224WithRSA);
    ((sha2Oid 1, rsaOid 1), aSHA256WithRSA);
    ((sha2Oid 1, rsaOid 11), aSHA256WithRSA);
    ((sha2Oid 2, rsaOid 1), aSHA384WithRSA);
    ((sha2Oid 2, rsaOid 12), aSHA384WithRSA);
    ((sha2Oid 3, rsaOid 1), aSHA512WithRSA);
    ((sha2Oid 3, rsaOid 13), aSHA512WithRSA);
    ((oiwOid 26, dsaOid 1), aDSAWithSHA1);
    (([], dsaOid 3), aDSAWithSHA1);
    ((oiwOid 26, dsaOid 3), aDSAWithSHA1);
    ((sha2Oid 4, dsaOid 1), aDSAWithSHA224);
    ((sha2Oid 4, dsa2Oid 1), aDSAWithSHA224);
    ((sha2Oid 1, dsaOid 1), aDSAWithSHA256);
    ((sha2Oid 1, dsa2Oid 2), aDSAWithSHA256);
    ((oiwOid 26, ecPublicKeyOid), aECDSAWithSHA1);
    ((oiwOid 26, ecdsa1Oid), aECDSAWithSHA1);
    ((sha2Oid 4, ecPublicKeyOid), aECDSAWithSHA224);
    ((sha2Oid 4, ecdsa2Oid 1), aECDSAWithSHA224);
    ((sha2Oid 1, ecPublicKeyOid), aECDSAWithSHA256);
    ((sha2Oid 1, ecdsa2Oid 2), aECDSAWithSHA256);
    ((sha2Oid 2, ecPublicKeyOid), aECDSAWithSHA384);
    ((sha2Oid 2, ecdsa2Oid 3), aECDSAWithSHA384);
    ((sha2Oid 3, ecPublicKeyOid), aECDSAWithSHA512);
    ((sha2Oid 3, ecdsa2Oid 4), aECDSAWithSHA512) ].
Definition oidpair_eqb (a b : oid * oid) : bool := oid_eqb (fst a) (fst b) && oid_eqb (snd a) (snd b).

(** Errors; texts are the formats without arguments.  errNoKnownHashes (schemev1.go:120) is compared
    by identity in the code, so it is a constructor of its own. *)
Inductive v1err : Set := ErrNoKnownHashes | V1Err (msg : string).

(** schemev1.go:122-128 schemeV1Signature while the files are being read *)
Record v1sig0 : Set := mkSig0 {
  s0_blockName : bytes;
  s0_cert : option p7;
  s0_manifest : option manifest
}.
Definition emptySig0 : v1sig0 := mkSig0 [] None None.
(** ... and after prepForVerification, when cert and signatureManifest are not nil *)
Record v1sig : Set := mkSig {
  sg_blockName : bytes;
  sg_p7 : p7;
  sg_sm : manifest
}.
Notation chain := (list cert).

(** schemev1.go:130-135 schemeV1 after newSchemeV1 (hashers is only a cache) *)
Record v1scheme : Set := mkV1 {
  v1_sigs : list (bytes * v1sig);
  v1_manifest : manifest
}.

(** ** getDigestsToVerify and verifyManifestEntry *)
Section WithEnv.
  Variable E : env.
  Variable S : sched.

  Definition mhas (k : bytes) (m : attrs) : bool := match sget k m with Some _ => true | None => false end.
  (** m[k] of a map[string]string *)
  Definition mstr (k : bytes) (m : attrs) : bytes := match sget k m with Some v => v | None => [] end.

  (** schemev1.go:552-586 getDigestsToVerify *)
  Definition getDigestsToVerify (entry : attrs) (suffix : bytes) (minSdk maxSdk : Z) : list bytes :=
    (if minSdk <? 18 then
       let algs0 := e_to_lower E (mstr (s2b "digest-algorithms") entry) in
       let algs := match algs0 with [] => s2b "sha sha1" | _ => algs0 end in
       filter (fun algo => ((9 <=? minSdk) || (negb (bytes_eqb algo (s2b "sha-384")) && negb (bytes_eqb algo (s2b "sha-512"))))
                           && mhas (algo ++ suffix) entry)
              (splitByte algs x20)
     else [])
    ++
    (if 18 <=? maxSdk then
       match find (fun algo => mhas (algo ++ suffix) entry) digestAlgorithms with Some a => [a] | None => [] end
     else []).

  (** schemev1.go:588-616 verifyManifestEntry: the loop over the selected digests; None = no error *)
  Fixpoint checkDigests (entry : attrs) (suffix : bytes) (algos : list bytes)
           (verify : bytes -> hash_id -> outcome (option v1err)) : outcome (option v1err) :=
    match algos with
    | [] => Ret None
    | algo :: t =>
        match e_base64 E (mstr (algo ++ suffix) entry) with
        | None => Ret (Some (V1Err "Can't decode hash"))
        | Some hash =>
            match digestHasher algo with
            | None => Ret (Some ErrNoKnownHashes)
            | Some h => r <- verify hash h ;;
                        match r with
                        | Some e => Ret (Some e)
                        | None => checkDigests entry suffix t verify
                        end
            end
        end
    end.
  Definition verifyManifestEntry (entry : attrs) (suffix : bytes) (minSdk maxSdk : Z)
             (verify : bytes -> hash_id -> outcome (option v1err)) : outcome (option v1err) :=
    match getDigestsToVerify entry suffix minSdk maxSdk with
    | [] => Ret (Some ErrNoKnownHashes)
    | algos => checkDigests entry suffix algos verify
    end.

  (** schemev1.go:618-634 verifyFileHash *)
  Definition verifyFileHash (f : zfile) (hash : bytes) (h : hash_id) : option v1err :=
    if negb (zf_open_ok f) then Some (V1Err "Can't generate hashes")
    else if existsb (fun s => match s with Some d => bytes_eqb (e_hash E h d) hash | None => false end) (zf_streams f)
    then None
    else Some (V1Err "No matching hash").

  (** ** verifySignature *)

  (** schemev1.go:636-644 getHashForOID *)
  Definition getHashForOID (o : oid) : option hash_id :=
    if oid_eqb o oidDigestAlgorithmSHA1 then Some HSha1
    else if oid_eqb o oidDigestAlgorithmSHA256 then Some HSha256
    else None.

  (** fullsailor/pkcs7/pkcs7.go:1021-1040 UnmarshalSignedAttribute into an output of type A *)
  Fixpoint unmarshalAttr {A} (dec : bytes -> option A) (ty : oid) (l : list p7_attr) (found : option A) : option A :=
    match l with
    | [] => found
    | a :: t =>
        if oid_eqb (pa_type a) ty then
          match found with
          | Some _ => None
          | None => match dec (pa_value a) with
                    | None => None
                    | Some v => unmarshalAttr dec ty t (Some v)
                    end
          end
        else unmarshalAttr dec ty t found
    end.
  Definition unmarshalSignedAttribute {A} (dec : bytes -> option A) (ty : oid) (l : list p7_attr) : option A :=
    unmarshalAttr dec ty l None.

  Definition errIf (b : bool) (msg : string) : option v1err := if b then None else Some (V1Err msg).

  (** schemev1.go:826-904 checkSignature; panics on a DSA algorithm with a key of another type (line 868) *)
  Definition checkSignature (c : cert) (algo : Z) (signed signature : bytes) : outcome (option v1err) :=
    let signature :=
        match c_key c with
        | KRsa _ bitlen => let pubSize := (bitlen + 7) / 8 in
                           if zlen signature <? pubSize then zeros (pubSize - zlen signature) ++ signature else signature
        | _ => signature
        end in
    if algo =? aMD5WithRSA then
      Ret (match c_key c with
           | KRsa k _ => errIf (e_rsa_pkcs1 E k HMd5 (e_hash E HMd5 signed) signature) "rsa"
           | _ => Some (V1Err "Unexpected public key type")
           end)
    else if algo =? aSHA224WithRSA then
      Ret (match c_key c with
           | KRsa k _ => errIf (e_rsa_pkcs1 E k HSha224 (e_hash E HSha224 signed) signature) "rsa"
           | _ => Some (V1Err "Unexpected public key type")
           end)
    else if (algo =? aDSAWithSHA1) || (algo =? aDSAWithSHA224) || (algo =? aDSAWithSHA256) then
      let h := if algo =? aDSAWithSHA1 then HSha1 else if algo =? aDSAWithSHA256 then HSha256 else HSha224 in
      let hash := e_hash E h signed in
      match c_key c with
      | KDsa k qbits =>
          let digest := takeZ (Z.min (qbits / 8) (zlen hash)) hash in
          Ret (match e_asn1_rs_andr E signature with
               | None => Some (V1Err "asn1")
               | Some (_, _, true) => Some (V1Err "x509: trailing data after DSA signature")
               | Some (r, s, false) =>
                   if (r <=? 0) || (s <=? 0) then Some (V1Err "x509: DSA signature contained zero or negative values")
                   else errIf (e_dsa E k digest r s) "x509: DSA verification failure"
               end)
      | _ => Panic PTypeAssertion
      end
    else if algo =? aECDSAWithSHA224 then
      Ret (match c_key c with
           | KEcdsa k =>
               match e_asn1_rs_andr E signature with
               | None => Some (V1Err "asn1")
               | Some (_, _, true) => Some (V1Err "x509: trailing data after ECDSA signature")
               | Some (r, s, false) =>
                   if (r <=? 0) || (s <=? 0) then Some (V1Err "x509: ECDSA signature contained zero or negative values")
                   else errIf (e_ecdsa E k (e_hash E HSha224 signed) r s) "x509: ECDSA verification failure"
               end
           | _ => Some (V1Err "Unexpected public key type")
           end)
    else Ret (errIf (e_cert_check E c algo signed signature) "x509").

  (** The result of processing one SignerInfo in the loop of verifySignature *)
  Inductive signer_step : Type :=
  | SReturn (ch : chain) (e : v1err)       (* return chain, err *)
  | SContinue (e : v1err)                  (* lastError = err; continue *)
  | SVerified (c : cert).

  (** schemev1.go:661-780 the body of the loop over SignerInfos *)
  Definition verifySigner (sig : v1sig) (info : p7_signer) (maxSdk : Z) : outcome signer_step :=
    match ps_issuer info with
    | None => Ret (SReturn [] (V1Err "issuer"))
    | Some issuerSeq =>
        let issuerCanonical := pkixCanonical E S issuerSeq in
        match find (fun crt => (ps_serial info =? c_serial crt)
                               && bytes_eqb issuerCanonical (pkixCanonical E S (c_issuer crt)))
                   (p7_certs (sg_p7 sig)) with
        | None => Ret (SReturn [] (V1Err "No issuer certificate found"))
        | Some signerCert =>
            let chain := [signerCert] in
            if c_unhandled_critical signerCert then Ret (SReturn chain (V1Err "Certificate has unhandled critical extensions.")) else
            match mget oidpair_eqb (ps_digest_alg info, ps_enc_alg info) oidToAlgo with
            | None => Panic PExplicit
            | Some algo =>
                let finish (signedData : bytes) : outcome signer_step :=
                    r <- checkSignature signerCert algo signedData (ps_enc_digest info) ;;
                    Ret (match r with Some e => SContinue e | None => SVerified signerCert end) in
                match ps_auth_attrs info with
                | [] => finish (m_rawData (sg_sm sig))
                | _ =>
                    let contentTypeStep :=
                        if V7_0_Nougat <=? maxSdk then
                          match unmarshalSignedAttribute (e_asn1_oid E) oidAttributeContentType (ps_auth_attrs info) with
                          | None => Some (SReturn chain (V1Err "failed to parse signed content type"))
                          | Some typeVal =>
                              if oid_eqb typeVal (p7_content_type (sg_p7 sig)) then None
                              else Some (SContinue (V1Err "PKCS7 content type does not match"))
                          end
                        else None in
                    match contentTypeStep with
                    | Some s => Ret s
                    | None =>
                        match unmarshalSignedAttribute (e_asn1_octets E) oidAttributeMessageDigest (ps_auth_attrs info) with
                        | None => Ret (SReturn chain (V1Err "failed to parse signed message digest"))
                        | Some digest =>
                            match getHashForOID (ps_digest_alg info) with
                            | None => Ret (SReturn chain (V1Err "unsupported hash algorithm oid"))
                            | Some h =>
                                if negb (bytes_eqb digest (e_hash E h (m_rawData (sg_sm sig))))
                                then Ret (SContinue (V1Err "signedAttributes hash mismatch"))
                                else match e_marshal_attrs E (ps_auth_attrs info) with
                                     | None => Ret (SReturn chain (V1Err "marshal"))
                                     | Some signedData => finish signedData
                                     end
                            end
                        end
                    end
                end
            end
        end
    end.

  (** schemev1.go:657-784 the loop; [first] is firstVerifiedSignerCert *)
  Fixpoint signersLoop (sig : v1sig) (signers : list p7_signer) (maxSdk : Z) (first : option cert)
    : outcome ((chain * v1err) + option cert) :=
    match signers with
    | [] => Ret (inr first)
    | info :: t =>
        s <- verifySigner sig info maxSdk ;;
        match s with
        | SReturn ch e => Ret (inl (ch, e))
        | SContinue _ => signersLoop sig t maxSdk first
        | SVerified c => signersLoop sig t maxSdk (match first with None => Some c | Some _ => first end)
        end
    end.

  (** schemev1.go:797-817 the loop appending issuer certificates; [len] = len(chain) so far.
      Fuel: the loop stops when the chain is longer than the list of certificates. *)
  Fixpoint issuerLoop (fuel : nat) (certs : list cert) (issuerCanonical : bytes) (ch : chain) : chain :=
    match fuel with
    | O => ch
    | Datatypes.S fuel' =>
        match find (fun crt => bytes_eqb issuerCanonical (pkixCanonical E S (c_subject crt))) certs with
        | None => ch
        | Some issuerCert =>
            let ch' := ch ++ [issuerCert] in
            if zlen certs <? zlen ch' then ch'
            else
              let ic := pkixCanonical E S (c_issuer issuerCert) in
              if bytes_eqb ic (pkixCanonical E S (c_subject issuerCert)) then ch'
              else issuerLoop fuel' certs ic ch'
        end
    end.

  (** schemev1.go:787-819 *)
  Definition buildChain (certs : list cert) (first : cert) : chain :=
    if bytes_eqb (pkixCanonical E S (c_issuer first)) (pkixCanonical E S (c_subject first)) then [first]
    else issuerLoop (Datatypes.S (length certs)) certs (pkixCanonical E S (c_issuer first)) [first].

  (** schemev1.go:646-819 verifySignature: (chain (nil = []), error) *)
  Definition verifySignature (sig : v1sig) (minSdk maxSdk : Z) : outcome (chain * option v1err) :=
    match p7_signers (sg_p7 sig) with
    | [] => Ret ([], Some (V1Err "Empty signers slice!"))
    | s0 :: _ =>
        let signers := if minSdk <? V7_0_Nougat then [s0] else p7_signers (sg_p7 sig) in
        r <- signersLoop sig signers maxSdk None ;;
        Ret (match r with
             | inl (ch, e) => (ch, Some e)
             | inr None => ([], Some (V1Err "no valid signers"))
             | inr (Some c) => (buildChain (p7_certs (sg_p7 sig)) c, None)
             end)
    end.

  (** ** verify *)

  (** schemev1.go:339-357: does the X-Android-APK-Signed list name scheme 2 *)
  Definition namesScheme2 (idList : bytes) : bool :=
    existsb (fun tok => let tok := trimSpace tok in
                        match tok with
                        | [] => false
                        | _ => match parseInt32 tok with Some id => id =? 2 | None => false end
                        end)
            (splitByte idList ","%byte).

  (** schemev1.go:367-384 the callbacks *)
  Definition cmpHash (data hash : bytes) (h : hash_id) (msg : string) : outcome (option v1err) :=
    Ret (if bytes_eqb hash (e_hash E h data) then None else Some (V1Err msg)).

  (** schemev1.go:397-409 *)
  Definition endsWithTwoLF (data : bytes) : bool := hasSuffix data [x0a; x0a].
  Definition checkChunk (man : manifest) (signtool : bool) (name hash : bytes) (h : hash_id) : outcome (option v1err) :=
    match sget name (m_chunks man) with
    | None => Ret (Some (V1Err "Signature entry not in manifest.mf file."))
    | Some data =>
        cmpHash (if signtool && endsWithTwoLF data then takeZ (zlen data - 1) data else data) hash h
                "Invalid hash of manifest entry"
    end.

  (** schemev1.go:393-416 the loop over the entries of the signature file; [err] is the error of the whole-manifest
      check, kept when there are no entries *)
  Fixpoint entriesCheck (man : manifest) (signtool : bool) (minSdk maxSdk : Z) (l : list (bytes * attrs)) (err : option v1err)
    : outcome (option v1err) :=
    match l with
    | [] => Ret err
    | (name, at_) :: t =>
        r <- verifyManifestEntry at_ attrDigestSuffix minSdk maxSdk (checkChunk man signtool name) ;;
        match r with
        | Some e => Ret (Some e)
        | None => entriesCheck man signtool minSdk maxSdk t None
        end
    end.

  (** The outcome of the loop body for a signature that verified *)
  Inductive sig_step : Type :=
  | VReturn (e : v1err)                    (* verify returns this error *)
  | VSkip                                  (* continue: not a valid signature *)
  | VDone (e : option v1err).              (* valid iff None *)

  (** schemev1.go:338-421 *)
  Definition verifySignatureFile (man : manifest) (k : nat) (sig : v1sig) (hasValidSigningBlock : bool) (minSdk maxSdk : Z)
    : outcome sig_step :=
    let sm := sg_sm sig in
    let downgrade :=
        match sget attrAndroidApkSigned (m_main sm) with
        | Some idList => negb hasValidSigningBlock && SupportsSigV2 maxSdk && namesScheme2 idList
        | None => false
        end in
    if downgrade then Ret (VReturn (V1Err "cannot be verified using v1 scheme, downgrade attack?")) else
    if negb (mhas attrSignatureVersion (m_main sm)) then Ret VSkip else
    let signtool := contains (mstr attrCreatedBy (m_main sm)) (s2b "signtool") in
    mainErr <- (if (0 <? m_mainEnd sm) && negb signtool then
                  verifyManifestEntry (m_main sm) attrDigestMainAttrSuffix minSdk maxSdk
                    (fun hash h => cmpHash (takeZ (m_mainEnd man) (m_rawData man)) hash h "Invalid manifest main attributes hash!")
                else Ret None) ;;
    match mainErr with
    | Some (V1Err m) => Ret (VReturn (V1Err m))
    | _ =>
        err <- verifyManifestEntry (m_main sm) (if signtool then attrDigestSuffix else attrDigestSigntoolSuffix) minSdk maxSdk
                 (fun hash h => cmpHash (m_rawData man) hash h "Invalid whole manifest hash!") ;;
        err' <- (match err with
                 | None => Ret None
                 | Some _ => entriesCheck man signtool minSdk maxSdk (ord S _ 21 k (m_entries sm)) err
                 end) ;;
        Ret (VDone err')
    end.

  (** State of the loop over signatures: schemev1.go:324-327 and p.chain *)
  Record vloop : Type := mkLoop {
    vp_valid : list (bytes * (v1sig * chain));
    vp_errors : nat;                              (* len(signatureErrors) *)
    vp_chain : list chain
  }.

  (** schemev1.go:327-421 *)
  Fixpoint verifyLoop (man : manifest) (hasValidSigningBlock : bool) (minSdk maxSdk : Z)
           (k : nat) (sigs : list (bytes * v1sig)) (st : vloop) : outcome (vloop * option v1err) :=
    match sigs with
    | [] => Ret (st, None)
    | (name, sig) :: t =>
        '(ch, err) <- verifySignature sig minSdk maxSdk ;;
        let chains := match ch with [] => vp_chain st | _ => vp_chain st ++ [ch] end in
        match err with
        | Some _ => verifyLoop man hasValidSigningBlock minSdk maxSdk (Datatypes.S k) t (mkLoop (vp_valid st) (Datatypes.S (vp_errors st)) chains)
        | None =>
            s <- verifySignatureFile man k sig hasValidSigningBlock minSdk maxSdk ;;
            match s with
            | VReturn e => Ret (mkLoop (vp_valid st) (vp_errors st) chains, Some e)
            | VDone None => verifyLoop man hasValidSigningBlock minSdk maxSdk (Datatypes.S k) t
                                       (mkLoop (sset name (sig, ch) (vp_valid st)) (vp_errors st) chains)
            | _ => verifyLoop man hasValidSigningBlock minSdk maxSdk (Datatypes.S k) t (mkLoop (vp_valid st) (vp_errors st) chains)
            end
        end
    end.

  (** schemev1.go:539-550 chainEqual, 506-537 certChainsMatch *)
  Fixpoint chainEqual (a b : chain) : bool :=
    match a, b with
    | [], [] => true
    | x :: a', y :: b' => cert_equal x y && chainEqual a' b'
    | _, _ => false
    end.
  Definition certChainsMatch (a b : list chain) : bool :=
    (zlen a =? zlen b)
    && forallb (fun ca => existsb (fun cb => chainEqual ca cb) b) a
    && forallb (fun cb => existsb (fun ca => chainEqual ca cb) a) b.

  Definition androidManifest : bytes := s2b "AndroidManifest.xml".
  Definition metaInf : bytes := s2b "META-INF/".

  (** schemev1.go:448-470 the list of required files, in the iteration order [files] of apk.File *)
  Definition requiredFiles (files : list (bytes * zfile)) : list bytes :=
    map fst (filter (fun p => negb (zf_isdir (snd p)) && negb (bytes_eqb (fst p) androidManifest) && negb (hasPrefix (fst p) metaInf)) files)
    ++ (if existsb (fun p => negb (zf_isdir (snd p)) && (bytes_eqb (fst p) androidManifest || bytes_eqb (fst p) (s2b "BundleConfig.pb"))) files
        then [] else [androidManifest]).

  (** schemev1.go:472-504 the loop over required files; [ps] = p.chain once chainsSet *)
  Fixpoint requiredLoop (man : manifest) (valid : list (bytes * (v1sig * chain))) (files : list (bytes * zfile))
           (minSdk maxSdk : Z) (k : nat) (req : list bytes) (chains : list chain) (chainsSet : bool)
    : outcome (list chain * option v1err) :=
    match req with
    | [] => Ret (chains, None)
    | path :: t =>
        match sget path (m_entries man) with
        | None => Ret (chains, Some (V1Err "No manifest entry for required file"))
        | Some at_ =>
            e <- verifyManifestEntry at_ attrDigestSuffix minSdk maxSdk
                   (fun hash h => match sget path files with
                                  | None => Panic PNil
                                  | Some f => Ret (verifyFileHash f hash h)
                                  end) ;;
            match e with
            | Some e => Ret (chains, Some e)
            | None =>
                let certChains := map (fun p => snd (snd p))
                                      (filter (fun p => match sget path (m_entries (sg_sm (fst (snd p)))) with Some _ => true | None => false end)
                                              (ord S _ 24 k valid)) in
                match certChains with
                | [] => Ret (chains, Some (V1Err "File is not in any signature manifests"))
                | _ =>
                    if negb chainsSet then requiredLoop man valid files minSdk maxSdk (Datatypes.S k) t certChains true
                    else if negb (certChainsMatch chains certChains) then Ret (chains, Some (V1Err "Mismatched certificates at entry"))
                    else requiredLoop man valid files minSdk maxSdk (Datatypes.S k) t chains true
                end
            end
        end
    end.

  (** schemev1.go:441-504 verifyMainManifest *)
  Definition verifyMainManifest (man : manifest) (valid : list (bytes * (v1sig * chain))) (apk : zip) (minSdk maxSdk : Z)
             (chains : list chain) : outcome (list chain * option v1err) :=
    if negb (forallb (fun p => match sget (fst p) (z_map apk) with Some _ => true | None => false end)
                     (ord S _ 22 0%nat (m_entries man)))
    then Ret (chains, Some (V1Err "Manifest entry does not exists."))
    else requiredLoop man valid (z_map apk) minSdk maxSdk 0 (requiredFiles (ord S _ 23 0%nat (z_map apk))) chains false.

  (* apkverifier.go:43 *)
  Definition maxApkSigners : Z := 10.

  (** schemev1.go:323-439 verify: (p.chain, error) *)
  Definition verifyV1 (p : v1scheme) (apk : zip) (hasValidSigningBlock : bool) (minSdk maxSdk : Z)
    : outcome (list chain * option v1err) :=
    '(st, err) <- verifyLoop (v1_manifest p) hasValidSigningBlock minSdk maxSdk 0 (ord S _ 20 0%nat (v1_sigs p)) (mkLoop [] 0 []) ;;
    match err with
    | Some e => Ret (vp_chain st, Some e)
    | None =>
        match vp_valid st with
        | [] => Ret (vp_chain st, Some (V1Err "No valid cert chains found"))
        | _ =>
            if negb (Nat.eqb (vp_errors st) 0) then Ret (vp_chain st, Some (V1Err "One or more of the signatures are invalid"))
            else if maxApkSigners <? zlen (vp_chain st) then Ret (vp_chain st, Some (V1Err "too many signers"))
            else verifyMainManifest (v1_manifest p) (vp_valid st) apk minSdk maxSdk (vp_chain st)
        end
    end.

  (** ** newSchemeV1 *)

  (** schemev1.go:299-303 signaturePrefix *)
  Definition signaturePrefix (path : bytes) : outcome bytes :=
    match cutLast (pathBase path) "."%byte with
    | Some (p, _) => Ret p
    | None => Panic PSlice
    end.

  (** schemev1.go:186-204, 242-249 the loop over FilesOrdered: main manifest, signature blocks, signature files.
      Ret None: addManifest failed. *)
  Fixpoint scanFiles (l : list zfile) (man : option manifest) (blocks : list zfile) (sfs : list (bytes * zfile))
    : outcome (option (option manifest * list zfile * list (bytes * zfile))) :=
    match l with
    | [] => Ret (Some (man, blocks, sfs))
    | f :: t =>
        if negb (hasPrefix (zf_name f) metaInf) then scanFiles t man blocks sfs
        else if bytes_eqb (zf_name f) (s2b "META-INF/MANIFEST.MF") then
          match man with
          | Some _ => Ret None
          | None => m <- parseManifest f true ;;
                    match m with None => Ret None | Some m => scanFiles t (Some m) blocks sfs end
          end
        else if hasSuffix (zf_name f) (s2b ".RSA") || hasSuffix (zf_name f) (s2b ".DSA") || hasSuffix (zf_name f) (s2b ".EC")
        then scanFiles t man (blocks ++ [f]) sfs
        else if hasSuffix (zf_name f) (s2b ".SF") then
          scanFiles t man blocks (match sget (zf_name f) sfs with None => sset (zf_name f) f sfs | Some _ => sfs end)
        else scanFiles t man blocks sfs
    end.

  (** schemev1.go:264-297 addSignatureBlock: the first candidate stream that parses; None = error *)
  Fixpoint parseBlockStreams (l : list (option bytes)) : outcome (option p7) :=
    match l with
    | [] => Ret None
    | None :: t => parseBlockStreams t
    | Some raw :: t => r <- e_pkcs7 E raw ;; match r with Some s => Ret (Some s) | None => parseBlockStreams t end
    end.
  Definition addSignatureBlock (f : zfile) (sigs : list (bytes * v1sig0)) : outcome (option (list (bytes * v1sig0))) :=
    if negb (zf_open_ok f) then Ret None else
    r <- parseBlockStreams (zf_streams f) ;;
    match r with
    | None => Ret None
    | Some c =>
        prefix <- signaturePrefix (zf_name f) ;;
        let s := match sget prefix sigs with Some s => s | None => emptySig0 end in
        Ret (Some (sset prefix (mkSig0 (zf_name f) (Some c) (s0_manifest s)) sigs))
    end.

  (** schemev1.go:251-262 addSignatureFile: new map and whether it succeeded (on failure signatureManifest is nil) *)
  Definition addSignatureFile (sfname : bytes) (f : zfile) (sigs : list (bytes * v1sig0)) : outcome (list (bytes * v1sig0) * bool) :=
    prefix <- signaturePrefix sfname ;;
    let s := match sget prefix sigs with Some s => s | None => emptySig0 end in
    m <- parseManifest f false ;;
    Ret (sset prefix (mkSig0 (s0_blockName s) (s0_cert s) m) sigs, match m with Some _ => true | None => false end).

  (** schemev1.go:206-231 the loop over signature blocks.  Ret None: newSchemeV1 returns an error. *)
  Fixpoint blocksLoop (l : list zfile) (sfs : list (bytes * zfile)) (sigs : list (bytes * v1sig0))
    : outcome (option (list (bytes * v1sig0))) :=
    match l with
    | [] => Ret (Some sigs)
    | f :: t =>
        match cutLast (zf_name f) "."%byte with
        | None => Panic PSlice                              (* name[:dot] with dot = -1 *)
        | Some (base, _) =>
            let sfname := base ++ s2b ".SF" in
            match sget sfname sfs with
            | None => blocksLoop t sfs sigs
            | Some sf =>
                r <- addSignatureBlock f sigs ;;
                match r with
                | None => Ret None
                | Some sigs' =>
                    '(sigs'', ok) <- addSignatureFile sfname sf sigs' ;;
                    blocksLoop t (if ok then sdel sfname sfs else sfs) sigs''
                end
            end
        end
    end.

  (** schemev1.go:305-321 prepForVerification: drop incomplete signatures *)
  Definition prepSigs (sigs : list (bytes * v1sig0)) : list (bytes * v1sig) :=
    flat_map (fun p => match s0_cert (snd p), s0_manifest (snd p) with
                       | Some c, Some m => [(fst p, mkSig (s0_blockName (snd p)) c m)]
                       | _, _ => []
                       end) sigs.

  (** schemev1.go:177-240 newSchemeV1; None = error *)
  Definition newSchemeV1 (apk : zip) : outcome (option v1scheme) :=
    r <- scanFiles (z_ordered apk) None [] [] ;;
    match r with
    | None => Ret None
    | Some (man, blocks, sfs) =>
        s <- blocksLoop blocks sfs [] ;;
        match s with
        | None => Ret None
        | Some sigs =>
            match man with
            | None => Ret None
            | Some m => match prepSigs sigs with
                        | [] => Ret None
                        | sigs' => Ret (Some (mkV1 sigs' m))
                        end
            end
        end
    end.

  (** schemev1.go:144-152 verifySchemeV1 *)
  Definition verifySchemeV1 (apk : zip) (hasValidSigningBlock : bool) (minSdk maxSdk : Z) : outcome (list chain * option v1err) :=
    r <- newSchemeV1 apk ;;
    match r with
    | None => Ret ([], Some (V1Err "newSchemeV1"))
    | Some p => verifyV1 p apk hasValidSigningBlock minSdk maxSdk
    end.

  (** schemev1.go:154-175 extractCertsSchemeV1 *)
  Fixpoint extractLoop (minSdk maxSdk : Z) (sigs : list (bytes * v1sig)) (chains : list chain) (errs : nat)
    : outcome (list chain * nat) :=
    match sigs with
    | [] => Ret (chains, errs)
    | (_, sig) :: t =>
        '(ch, err) <- verifySignature sig minSdk maxSdk ;;
        extractLoop minSdk maxSdk t (match ch with [] => chains | _ => chains ++ [ch] end)
                    (match err with Some _ => Datatypes.S errs | None => errs end)
    end.
  Definition extractCertsSchemeV1 (apk : zip) (minSdk maxSdk : Z) : outcome (list chain * option v1err) :=
    r <- newSchemeV1 apk ;;
    match r with
    | None => Ret ([], Some (V1Err "newSchemeV1"))
    | Some p =>
        '(chains, errs) <- extractLoop minSdk maxSdk (ord S _ 25 0%nat (v1_sigs p)) [] 0 ;;
        Ret (chains, if Nat.eqb errs 0 then None else Some (V1Err "One or more of the signatures are invalid"))
    end.
End WithEnv.
