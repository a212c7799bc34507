(** /repo/signingblock/sourcestamp.go *)
From Coq Require Import String.
From Verif.Model Require Import Bytes Env Utils SigBlock Result.

(* sourcestamp.go:20-24 *)
Definition sourceStampAttrProofOfRotation : Z := 2640511991. (* 0x9d6303f7 *)
Definition sourceStampAttrTime : Z := 3829160262.            (* 0xe43c5946 *)
Definition sourceStampZipEntryName : bytes := s2b "stamp-cert-sha256".
Definition sourceStampHashSizeLimit : Z := 65536.
Definition manifestMfName : bytes := s2b "META-INF/MANIFEST.MF".

Inductive serr : Set := SErr (msg : string) | SErrCertMismatch.

(** sourcestamp.go:35-41 SourceStampResult (lineage nodes have the same fields as lnode) *)
Record stamp_result : Set := mkStamp {
  st_cert : option cert;
  st_time : option Z;
  st_lineage : list lnode;
  st_errors : list serr;
  st_warnings : list string
}.
Definition stamp0 : stamp_result := mkStamp None None [] [] [].
Definition stAddError (s : stamp_result) (m : string) : stamp_result :=
  mkStamp (st_cert s) (st_time s) (st_lineage s) (st_errors s ++ [SErr m]) (st_warnings s).
Definition stAddWarning (s : stamp_result) (m : string) : stamp_result :=
  mkStamp (st_cert s) (st_time s) (st_lineage s) (st_errors s) (st_warnings s ++ [m]).

(** sourcestamp.go:198-225 getSignatureSchemeDigest: encoding of the pairs sorted by algorithm.
    [pairs] is the content of the map in the order in which [range] visits it. *)
Definition encodePair (p : Z * bytes) : bytes :=
  le_enc 4 (8 + zlen (snd p)) ++ le_enc 4 (fst p) ++ le_enc 4 (zlen (snd p)) ++ snd p.
(** sourcestamp.go:229-254 reading the supported signatures *)
Fixpoint stampReadSigs (items : list bytes) (ok : bool) (m : list (Z * bytes)) (s : stamp_result)
  : option (list (Z * bytes)) * stamp_result :=
  match items with
  | [] => if ok then (Some m, s) else (None, stAddError s "failed to parse signature")
  | signature :: rest =>
      match read_i32 signature with
      | None => (None, stAddError s "failed to parse signature algo id")
      | Some (sigAlgoId, signature') =>
          if negb (isSupported sigAlgoId) then stampReadSigs rest ok m (stAddWarning s "unsupported signature algo")
          else match getLengthPrefixedSlice signature' with
               | None => (None, stAddError s "failed to parse signature bytes")
               | Some (sigBytes, _) => stampReadSigs rest ok (zset sigAlgoId sigBytes m) s
               end
      end
  end.

(** sourcestamp.go:286-302 the candidates loop of filterSignaturesToVerify, over the signatures in
    [range] order: (candidates: minSdk -> (algo, data), minProvidedSignaturesVersion) *)
Fixpoint stampCandidates (sigs : list (Z * bytes)) (maxSdk : Z) (cand : list (Z * (Z * bytes))) (minProvided : Z)
  : outcome (list (Z * (Z * bytes)) * Z) :=
  match sigs with
  | [] => Ret (cand, minProvided)
  | (algo, content) :: rest =>
      let sigMin := getMinSdkVersionJca algo in
      if maxSdk <? sigMin then stampCandidates rest maxSdk cand minProvided else
      let minProvided' := if sigMin <? minProvided then sigMin else minProvided in
      better <- match zget sigMin cand with
                | None => Ret true
                | Some (a, _) => d <- compareAlgos algo a ;; Ret (0 <? d)
                end ;;
      stampCandidates rest maxSdk (if better then zset sigMin (algo, content) cand else cand) minProvided'
  end.

Section WithEnv.
  Variable E : env.
  Variable S : sched.

  Definition getSignatureSchemeDigest (pairs : digests) : bytes :=
    flat_map encodePair (srt S _ (fun a b => fst a <? fst b) pairs).

  (** sourcestamp.go:266-271 *)
  Fixpoint stampVerifyAll (key : pubkey) (data : bytes) (toVerify : list (Z * bytes)) (s : stamp_result)
    : outcome (bool * stamp_result) :=
    match toVerify with
    | [] => Ret (true, s)
    | (algo, sigBytes) :: rest =>
        v <- verifySignature E key algo data sigBytes ;;
        if v then stampVerifyAll key data rest s else Ret (false, stAddError s "failed to verify signature")
    end.

  (** sourcestamp.go:278-325 filterSignaturesToVerify *)
  Definition filterSignaturesToVerify (k : nat) (minSdk maxSdk : Z) (sigs : list (Z * bytes)) (s : stamp_result)
    : outcome (list (Z * bytes) * stamp_result) :=
    '(cand, minProvided) <- stampCandidates (ord S _ 10 k sigs) maxSdk [] max_int32 ;;
    match cand with
    | [] => Ret ([], stAddError s "no supported signature, present")
    | _ =>
        if minSdk <? minProvided then
          Ret ([], stAddError s "minimum provided signature version > minimum sdk version")
        else Ret (fold_left (fun m kv => zset (fst (snd kv)) (snd (snd kv)) m) (ord S _ 11 k cand) [], s)
    end.

  (** sourcestamp.go:227-276 verifySignature *)
  Definition stampVerifySignature (k : nat) (minSdk maxSdk : Z) (data : bytes) (c : cert) (signatures : bytes) (s : stamp_result)
    : outcome (bool * stamp_result) :=
    let '(items, ok) := lpItems signatures in
    let '(m, s1) := stampReadSigs items ok [] s in
    match m with
    | None => Ret (false, s1)
    | Some [] => Ret (false, stAddError s1 "no supported signatures")
    | Some sigs =>
        '(toVerify, s2) <- filterSignaturesToVerify k minSdk maxSdk sigs s1 ;;
        match toVerify with
        | [] => Ret (false, stAddError s2 "no supported signatures for verification")
        | _ => stampVerifyAll (c_key c) data (ord S _ 12 k toVerify) s2
        end
    end.

  (** sourcestamp.go:394-475 one node of parseStampCertLineage; None = error (one error is added) *)
  Definition stampLineageNode (node : bytes) (last : option (cert * Z)) (hist : list cert) : outcome (option lnode) :=
    match getLengthPrefixedSlice node with
    | None => Ret None
    | Some (signedData, nb1) =>
    match read_i32 nb1 with
    | None => Ret None
    | Some (flags, nb2) =>
    match read_i32 nb2 with
    | None => Ret None
    | Some (sigAlgo, nb3) =>
    match getLengthPrefixedSlice nb3 with
    | None => Ret None
    | Some (signature, _) =>
    v <- match last with
         | None => Ret true
         | Some (lastCert, lastAlgo) => verifySignature E (c_key lastCert) lastAlgo signedData signature
         end ;;
    if negb v then Ret None else
    match getLengthPrefixedSlice signedData with
    | None => Ret None
    | Some (encodedCert, sd1) =>
    match read_i32 sd1 with
    | None => Ret None
    | Some (signedSigAlgorithm, _) =>
    if match last with None => false | Some (_, lastAlgo) => negb (lastAlgo =? signedSigAlgorithm) end
    then Ret None else
    match e_cert_andr E encodedCert with
    | None => Ret None
    | Some c =>
        if existsb (fun h => cert_equal h c) hist then Ret None
        else Ret (Some {| ln_cert := c; ln_parent_algo := signedSigAlgorithm; ln_algo := sigAlgo;
                          ln_signature := signature; ln_flags := flags |})
    end end end end end end end.

  Fixpoint stampLineageLoop (items : list bytes) (ok : bool) (last : option (cert * Z)) (hist : list cert)
           (res : list lnode) : outcome (option (list lnode)) :=
    match items with
    | [] => Ret (if ok then Some res else None)
    | nodeBytes :: rest =>
        n <- stampLineageNode nodeBytes last hist ;;
        match n with
        | None => Ret None
        | Some n => stampLineageLoop rest ok (Some (ln_cert n, ln_algo n)) (hist ++ [ln_cert n]) (res ++ [n])
        end
    end.

  (** sourcestamp.go:381-476 parseStampCertLineage: the nodes (nil = []), and the result with at most
      one error added *)
  Definition parseStampCertLineage (lineage : bytes) (s : stamp_result) : outcome (list lnode * stamp_result) :=
    match read_i32 lineage with
    | None => Ret ([], stAddError s "failed to parse lineage version")
    | Some (version, rest) =>
        if negb (version =? 1) then Ret ([], stAddError s "unsupported lineage version")
        else let '(items, ok) := lpItems rest in
             r <- stampLineageLoop items ok None [] [] ;;
             Ret (match r with
                  | None => ([], stAddError s "failed to parse lineage node")
                  | Some nodes => (nodes, s)
                  end)
    end.

  (** sourcestamp.go:344-379 attribute loop of parseStampAttributes *)
  Fixpoint stampAttrLoop (c : cert) (items : list bytes) (ok : bool) (s : stamp_result) : outcome (bool * stamp_result) :=
    match items with
    | [] => Ret (if ok then (true, s) else (false, stAddError s "failed to parse single attribute"))
    | attr :: rest =>
        match read_u32 attr with
        | None => Ret (false, stAddError s "failed to parse attribute ID")
        | Some (id, attr') =>
            if id =? sourceStampAttrProofOfRotation then
              '(nodes, s1) <- parseStampCertLineage attr' s ;;
              let s2 := mkStamp (st_cert s1) (st_time s1) nodes (st_errors s1) (st_warnings s1) in
              match nodes with
              | [] => Ret (false, s2)
              | n0 :: _ =>
                  if cert_equal c (ln_cert (List.last nodes n0)) then stampAttrLoop c rest ok s2
                  else Ret (false, stAddError s2 "lineage certificate mismatch")
              end
            else if id =? sourceStampAttrTime then
              match read_i64 attr' with
              | None => Ret (false, stAddError s "failed to parse attribute timestamp")
              | Some (timestamp, _) =>
                  stampAttrLoop c rest ok
                    (if timestamp <=? 0 then stAddError s "Invalid timestamp in source stamp"
                     else mkStamp (st_cert s) (Some timestamp) (st_lineage s) (st_errors s) (st_warnings s))
              end
            else stampAttrLoop c rest ok (stAddWarning s "Unknown attribute is present.")
        end
    end.

  (** sourcestamp.go:337-379 parseStampAttributes *)
  Definition parseStampAttributes (c : cert) (attributesData : bytes) (s : stamp_result) : outcome (bool * stamp_result) :=
    match getLengthPrefixedSlice attributesData with
    | None => Ret (false, stAddError s "failed to parse attributes")
    | Some (attributes, _) => let '(items, ok) := lpItems attributes in stampAttrLoop c items ok s
    end.

  (** sourcestamp.go:129-152 the schemes loop: the last signature block for [needed] *)
  Fixpoint stampSchemes (items : list bytes) (ok : bool) (needed : Z) (found : option bytes) (s : stamp_result)
    : option (option bytes) * stamp_result :=
    match items with
    | [] => if ok then (Some found, s) else (None, stAddError s "failed to parse signedSignature scheme")
    | schemeBuf :: rest =>
        match read_i32 schemeBuf with
        | None => (None, stAddError s "failed to parse signedSignature scheme int")
        | Some (schemeId, b1) =>
            match getLengthPrefixedSlice b1 with
            | None => (None, stAddError s "failed to parse apkDigestSignatures")
            | Some (sigs, _) =>
                stampSchemes rest ok needed (if schemeId =? needed then Some sigs else found) s
            end
        end
    end.

  (** sourcestamp.go:478-488 getSchemeV1ContentDigest *)
  Definition getSchemeV1ContentDigest (z : zip) (s : stamp_result) : bytes * stamp_result :=
    match sget manifestMfName (z_map z) with
    | None => ([], s)
    | Some f =>
        match zf_readall f (128 * 1024 * 1024) with
        | None => ([], stAddWarning s "failed to read manifest")
        | Some manBytes => (e_hash E HSha256 manBytes, s)
        end
    end.

  (** sourcestamp.go:68-196 VerifySourceV2Stamp; None = nil result *)
  Definition verifySourceV2Stamp (verifiedSchemeId minSdk maxSdk : Z) (z : zip) (block : option bytes) (cds : digests)
    : outcome (option stamp_result) :=
    let srcStampHashEntry := sget sourceStampZipEntryName (z_map z) in
    match block with
    | None =>
        match srcStampHashEntry with
        | Some _ => Ret (Some (stAddError stamp0 "File is present in the APK, but SourceStampV2 block is missing."))
        | None => Ret None
        end
    | Some block =>
    match getLengthPrefixedSlice block with
    | None => Ret (Some (stAddError stamp0 "failed to parse top-level block"))
    | Some (stampBlock, _) =>
    match getLengthPrefixedSlice stampBlock with
    | None => Ret (Some (stAddError stamp0 "failed to parse encoded cert"))
    | Some (encodedCert, sb1) =>
    match e_cert_andr E encodedCert with
    | None => Ret (Some (stAddError stamp0 "failed to parse certificate"))
    | Some c =>
    let s0 := mkStamp (Some c) None [] [] [] in
    match srcStampHashEntry with
    | None => Ret (Some (stAddWarning s0 "Block SourceStampV2 is present in the APK, but file is missing."))
    | Some entry =>
    let '(cds1, s1) := match cds with
                       | [] => let '(d, s) := getSchemeV1ContentDigest z s0 in ([(digestNonChunkedSha256, d)], s)
                       | _ => (cds, s0)
                       end in
    match zf_readall entry sourceStampHashSizeLimit with
    | None => Ret (Some (stAddError s1 "failed to read stamp hash"))
    | Some srcStampHash =>
    if sourceStampHashSizeLimit <=? zlen srcStampHash then Ret (Some (stAddError s1 "The file is too big")) else
    if negb (bytes_eqb (e_hash E HSha256 (c_raw c)) srcStampHash) then
      Ret (Some (mkStamp (st_cert s1) (st_time s1) (st_lineage s1) (st_errors s1 ++ [SErrCertMismatch]) (st_warnings s1)))
    else
    match getLengthPrefixedSlice sb1 with
    | None => Ret (Some (stAddError s1 "failed to parse signedSignatureSchemes"))
    | Some (signedSignatureSchemes, sb2) =>
    let needed := if verifiedSchemeId =? schemeIdV31 then schemeIdV3 else verifiedSchemeId in
    let '(items, ok) := lpItems signedSignatureSchemes in
    let '(found, s2) := stampSchemes items ok needed None s1 in
    match found with
    | None => Ret (Some s2)
    | Some None => Ret (Some (stAddError s2 "No source stamp signature for scheme"))
    | Some (Some signaturesBlock) =>
    let digest := getSignatureSchemeDigest (ord S _ 13 0 cds1) in
    '(good, s3) <- stampVerifySignature 0 minSdk maxSdk digest c signaturesBlock s2 ;;
    if negb good then Ret (Some s3) else
    match sb2 with
    | [] => Ret (Some s3)
    | _ =>
        match getLengthPrefixedSlice sb2 with
        | None => Ret (Some (stAddError s3 "failed to parse attributeData"))
        | Some (attributeData, sb3) =>
        match getLengthPrefixedSlice sb3 with
        | None => Ret (Some (stAddError s3 "failed to parse attributeSignatures"))
        | Some (attributeSignatures, _) =>
            '(good2, s4) <- stampVerifySignature 1 minSdk maxSdk attributeData c attributeSignatures s3 ;;
            if negb good2 then Ret (Some s4) else
            '(_, s5) <- parseStampAttributes c attributeData s4 ;;
            Ret (Some s5)
        end end
    end end end end end end end end end.
End WithEnv.
