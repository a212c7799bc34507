(** /repo/signingblock/schemev3.go, schemev3lineage.go, schemev31.go *)
From Coq Require Import String.
From Verif.Model Require Import Bytes Env ApiLevel Utils SigBlock Result Signer.

(* schemev3.go:17-19 *)
Definition attrV3ProofOfRotation : Z := 1000370060. (* 0x3ba06f8c *)
Definition attrV3MinSdkVersion : Z := 1436519170.   (* 0x559f8b02 *)
Definition attrV3RotationOnDev : Z := 3265704890.   (* 0xc2a6b3ba *)
(* schemev3.go:21 *)
Definition lineageVersionFirst : Z := 1.

(** schemev3.go:32-35 *)
Record v3signer : Set := mkV3Signer {
  vs_lineage : option lineage;
  vs_min : Z;
  vs_max : Z
}.

(** schemev3.go:24-30 (minSdkVersion and sourceStampBlock are never read) *)
Record v3cfg : Set := mkV3Cfg {
  actingAsV31 : bool;
  cfg_maxSdk : Z;
  rotationMin : Z
}.

(** schemev3lineage.go:62-90 V3LineageSigningCertificateNode.Equal (pointer equality implies it) *)
Definition lnode_equal (n o : lnode) : bool :=
  cert_equal (ln_cert n) (ln_cert o)
  && (ln_parent_algo n =? ln_parent_algo o)
  && (ln_algo n =? ln_algo o)
  && bytes_eqb (ln_signature n) (ln_signature o)
  && (ln_flags n =? ln_flags o).

(** schemev3lineage.go:125-137 *)
Fixpoint lnodes_equal (l o : list lnode) : bool :=
  match l, o with
  | [], [] => true
  | x :: l', y :: o' => lnode_equal x y && lnodes_equal l' o'
  | _, _ => false
  end.

(** schemev3lineage.go:139-149 *)
Definition lineageCalculateMinSdkVersion (nodes : list lnode) : Z :=
  fold_left (fun m n => if isSupported (ln_algo n) && (m <? getMinSdkVersion (ln_algo n))
                        then getMinSdkVersion (ln_algo n) else m) nodes V9_0_Pie.

(** schemev3lineage.go:157-167 getSubLineage: number of nodes of the sub-lineage, None = error *)
Fixpoint subLineageLen (nodes : list lnode) (c : cert) : option Z :=
  match nodes with
  | [] => None
  | n :: t => if cert_equal (ln_cert n) c then Some 1
              else match subLineageLen t c with Some k => Some (k + 1) | None => None end
  end.

Section WithEnv.
  Variable E : env.

  (** schemev3.go:303-383 one iteration of the lineage loop.  [last] = (lastCert, lastSigAlgorithmId);
      None until the first node.  [hist] = certHistory. *)
  Definition lineageNode (nodeBytes : bytes) (last : option (cert * Z)) (hist : list cert)
    : outcome (option lnode) :=
    match getLengthPrefixedSlice nodeBytes with
    | None => Ret None
    | Some (signedData, nb1) =>
    match read_i32 nb1 with
    | None => Ret None
    | Some (flags, nb2) =>
    match read_i32 nb2 with
    | None => Ret None
    | Some (sigAlgorithmId, nb3) =>
    match getLengthPrefixedSlice nb3 with
    | None => Ret None
    | Some (signature, _) =>
    v <- match last with
         | None => Ret true
         | Some (lastCert, lastAlgo) => verifySignature E (c_key lastCert) lastAlgo signedData signature
         end ;;
    if negb v then Ret None else
    match getLengthPrefixedSlice signedData with
    | None => Ret None
    | Some (encodedCert, sd1) =>
    match read_i32 sd1 with
    | None => Ret None
    | Some (signedSigAlgorithm, _) =>
    if match last with None => false | Some (_, lastAlgo) => negb (lastAlgo =? signedSigAlgorithm) end
    then Ret None else
    match e_cert_std E encodedCert with
    | None => Ret None
    | Some c =>
        if existsb (fun h => cert_equal h c) hist then Ret None
        else Ret (Some {| ln_cert := c; ln_parent_algo := signedSigAlgorithm; ln_algo := sigAlgorithmId;
                          ln_signature := signature; ln_flags := flags |})
    end end end end end end end.

  Fixpoint lineageLoop (items : list bytes) (ok : bool) (last : option (cert * Z)) (hist : list cert)
           (res : list lnode) : outcome (option (list lnode)) :=
    match items with
    | [] => Ret (if ok then Some res else None)
    | nodeBytes :: rest =>
        n <- lineageNode nodeBytes last hist ;;
        match n with
        | None => Ret None
        | Some n => lineageLoop rest ok (Some (ln_cert n, ln_algo n)) (hist ++ [ln_cert n]) (res ++ [n])
        end
    end.

  (** schemev3.go:286-386 readSigningCertificateLineage; None = error *)
  Definition readSigningCertificateLineage (lineageSlice : bytes) : outcome (option (list lnode)) :=
    match lineageSlice with
    | [] => Ret (Some [])
    | _ =>
        match read_i32 lineageSlice with
        | None => Ret None
        | Some (version, rest) =>
            if negb (version =? lineageVersionFirst) then Ret None
            else let '(items, ok) := lpItems rest in lineageLoop items ok None [] []
        end
    end.

  (** schemev3.go:219-277 the additional-attributes loop.  Result: lineage of the signer, whether
      attrV3MinSdkVersion was met, result, whether the loop ran to its end. *)
  Fixpoint v3Attributes (cfg : v3cfg) (mainCert : cert) (items : list bytes) (ok : bool)
           (lin : option lineage) (found : bool) (r : core) : outcome (option lineage * bool * core * bool) :=
    match items with
    | [] => Ret (if ok then (lin, found, r, true)
                 else (lin, found, addError r "failed to read additional attribute", false))
    | attribute :: rest =>
        match read_u32 attribute with
        | None => Ret (lin, found, addError r "failed to read additional attribute's id", false)
        | Some (id, attribute') =>
            if id =? attrV3ProofOfRotation then
              ns <- readSigningCertificateLineage attribute' ;;
              match ns with
              | None => Ret (lin, found, addError r "failed to read signing certificate lineage attribute", false)
              | Some [] => v3Attributes cfg mainCert rest ok lin found r
              | Some nodes =>
                  let lin' := Some {| l_minSdk := lineageCalculateMinSdkVersion nodes; l_nodes := nodes |} in
                  match subLineageLen nodes mainCert with
                  | None => v3Attributes cfg mainCert rest ok lin' found
                              (addError r "certificate not found in signing lineage")
                  | Some k =>
                      v3Attributes cfg mainCert rest ok lin' found
                        (if zlen nodes =? k then r else addError r "sub lineage cert mismatch")
                  end
              end
            else if id =? attrV3MinSdkVersion then
              if SupportsSigV31 (cfg_maxSdk cfg) then
                match read_i32 attribute' with
                | None => Ret (lin, true, addError r "failed to read attrRotationMinSdkVersion", false)
                | Some (currentAttrMinSdk, _) =>
                    v3Attributes cfg mainCert rest ok lin true
                      (if negb (rotationMin cfg =? 0) then
                         (if negb (rotationMin cfg =? currentAttrMinSdk)
                          then addError r "The v3 signer indicates key rotation should be supported starting from SDK version, but the v3.1 block targets another for rotation"
                          else r)
                       else addError r "The v3 signer indicates key rotation should be supported, but a v3.1 block was not found")
                end
              else v3Attributes cfg mainCert rest ok lin true (addWarning r "unknown additional attribute id")
            else if id =? attrV3RotationOnDev then
              v3Attributes cfg mainCert rest ok lin found
                (if actingAsV31 cfg then r
                 else addWarning r "The rotation-targets-dev-release attribute is only supported on v3.1 signers")
            else v3Attributes cfg mainCert rest ok lin found (addWarning r "unknown additional attribute id")
        end
    end.

  (** schemev3.go:116-284 verifySigner.  The signerInfo appended to s.signers (None if the function
      returns before that), with the lineage it finally holds. *)
  Definition v3VerifySigner (cfg : v3cfg) (signerBlock : bytes) (cds : digests) (r : core)
    : outcome (option v3signer * digests * core) :=
    match getLengthPrefixedSlice signerBlock with
    | None => Ret (None, cds, addError r "failed to read signed data")
    | Some (signedDataBytes, sb1) =>
    match read_i32 sb1 with
    | None => Ret (None, cds, addError r "failed to read parsedMinSdkVersion")
    | Some (parsedMin, sb2) =>
    match read_i32 sb2 with
    | None => Ret (None, cds, addError r "failed to read parsedMaxSdkVersion")
    | Some (parsedMax, sb3) =>
    let r0 := if (parsedMin <? 1) || (parsedMax <? parsedMin) then addError r "invalid min/max sdk versions" else r in
    let info := mkV3Signer None parsedMin parsedMax in
    match getLengthPrefixedSlice sb3 with
    | None => Ret (Some info, cds, addError r0 "failed to read signatures")
    | Some (signaturesSlice, sb4) =>
    '(ctx, r1, sigOk) <- parseSignatures signaturesSlice r0 ;;
    if negb sigOk then Ret (Some info, cds, r1) else
    match getLengthPrefixedSlice sb4 with
    | None => Ret (Some info, cds, addError r1 "failed to read publicKeySlice")
    | Some (publicKeySlice, _) =>
    '(r2, keyOk) <- parsePublicKey E ctx publicKeySlice signedDataBytes r1 ;;
    if negb keyOk then Ret (Some info, cds, r2) else
    match getLengthPrefixedSlice signedDataBytes with
    | None => Ret (Some info, cds, addError r2 "failed to read digests from signedData")
    | Some (digestsSlice, sd1) =>
    match getLengthPrefixedSlice sd1 with
    | None => Ret (Some info, cds, addError r2 "failed to read certificates from signedData")
    | Some (certificatesSlice, sd2) =>
    match read_i32 sd2 with
    | None => Ret (Some info, cds, addError r2 "failed to read signedMinSdkVersion")
    | Some (signedMin, sd3) =>
    match read_i32 sd3 with
    | None => Ret (Some info, cds, addError r2 "Failed to read signedMaxSdkVersion")
    | Some (_signedMax, sd4) =>
    let r3 := if negb (parsedMin =? signedMin) then addError r2 "mismatch between parsed and signed minSdkVersion" else r2 in
    (* schemev3.go:198: the code compares parsedMaxSdkVersion with itself *)
    let r4 := if negb (parsedMax =? parsedMax) then addError r3 "mismatch between parsed and signed minSdkVersion" else r3 in
    let '(r5, mainCert) := parseCertificates E certificatesSlice publicKeySlice r4 in
    match mainCert with
    | None => Ret (Some info, cds, r5)
    | Some mainCert =>
    '(cds', r6, digOk) <- parseDigests digestsSlice ctx cds r5 ;;
    if negb digOk then Ret (Some info, cds', r6) else
    match getLengthPrefixedSlice sd4 with
    | None => Ret (Some info, cds', addError r6 "failed to read additionalAttributes from signedData")
    | Some (additionalAttributes, _) =>
        let '(items, ok) := lpItems additionalAttributes in
        '(lin, found, r7, good) <- v3Attributes cfg mainCert items ok None false r6 ;;
        let info' := mkV3Signer lin parsedMin parsedMax in
        if negb good then Ret (Some info', cds', r7) else
        if negb (rotationMin cfg =? 0) && negb found
        then Ret (Some info', cds', addWarning r7 "APK supports key rotation, but the v3 signer does not contain the attribute to detect if this signature is stripped")
        else Ret (Some info', cds', r7)
    end end end end end end end end end end end.

  (** schemev3.go:45-56 *)
  Fixpoint v3Signers (cfg : v3cfg) (items : list bytes) (ok : bool) (sigs : list v3signer)
           (cds : digests) (r : core) : outcome (list v3signer * digests * core) :=
    match items with
    | [] => Ret (sigs, cds, if ok then r else addError r "failed to parse/verify signer block")
    | signer :: rest =>
        '(info, cds', r') <- v3VerifySigner cfg signer cds r ;;
        v3Signers cfg rest ok (sigs ++ match info with Some i => [i] | None => [] end) cds' r'
    end.

  (** schemev3.go:37-57 parseSigners *)
  Definition v3ParseSigners (cfg : v3cfg) (block : bytes) (cds : digests) (r : core)
    : outcome (list v3signer * digests * core) :=
    match getLengthPrefixedSlice block with
    | None => Ret ([], cds, addError r "failed to read list of signers")
    | Some (signers, _) =>
        let '(items, ok) := lpItems signers in v3Signers cfg items ok [] cds r
    end.
End WithEnv.

(** schemev3.go:81-102 the signer loop of finalizeResult: firstMin, lastMax, lineages, errors added *)
Fixpoint v3RangeLoop (sigs : list v3signer) (firstMin lastMax : Z) (lastLineageSize : Z)
         (lineages : list lineage) (r : core) : Z * Z * list lineage * core :=
  match sigs with
  | [] => (firstMin, lastMax, lineages, r)
  | s :: rest =>
      if negb (firstMin =? 0) && negb (vs_min s =? wrap32 (lastMax + 1))
      then (firstMin, lastMax, lineages, addError r "inconsistent signer sdkversions")
      else
        let firstMin' := if firstMin =? 0 then vs_min s else firstMin in
        match vs_lineage s with
        | None => v3RangeLoop rest firstMin' (vs_max s) lastLineageSize lineages r
        | Some l =>
            if zlen (l_nodes l) <? lastLineageSize
            then (firstMin', vs_max s, lineages, addError r "inconsistent signer lineage sizes")
            else v3RangeLoop rest firstMin' (vs_max s) (zlen (l_nodes l)) (lineages ++ [l]) r
        end
  end.

(** schemev3.go:393-400 index and size of the largest lineage *)
Fixpoint largestIndex (ls : list lineage) (i best maxSize : Z) : Z :=
  match ls with
  | [] => best
  | l :: t => if maxSize <? zlen (l_nodes l) then largestIndex t (i + 1) i (zlen (l_nodes l))
              else largestIndex t (i + 1) best maxSize
  end.

Definition nthZ {A} (l : list A) (i : Z) : option A := if i <? 0 then None else nth_error l (Z.to_nat i).

(** schemev3.go:402-413 *)
Fixpoint checkSubsets (ls : list lineage) (i largest : Z) (largestList : list lnode) : outcome bool :=
  match ls with
  | [] => Ret true
  | l :: t =>
      if i =? largest then checkSubsets t (i + 1) largest largestList
      else if zlen largestList <? zlen (l_nodes l) then Panic PSlice
      else if lnodes_equal (l_nodes l) (takeZ (zlen (l_nodes l)) largestList)
           then checkSubsets t (i + 1) largest largestList
           else Ret false
  end.

(** schemev3.go:388-415 consolidateLineages; inl = (possibly nil) lineage, inr = error *)
Definition consolidateLineages (ls : list lineage) : outcome (option lineage + unit) :=
  match ls with
  | [] => Ret (inl None)
  | _ =>
      let li := largestIndex ls 0 0 0 in
      match nthZ ls li with
      | None => Panic PIndex
      | Some l =>
          ok <- checkSubsets ls 0 li (l_nodes l) ;;
          Ret (if ok then inl (Some l) else inr tt)
      end
  end.

(** schemev3.go:59-114 finalizeResult.  [sortSigners] is sort.Slice by minSdkVersion. *)
Definition v3FinalizeWith (sortSigners : list v3signer -> list v3signer)
           (cfg : v3cfg) (sigs : list v3signer) (reqMin0 reqMax0 : Z) (r : core) : outcome core :=
  let reqMin1 := if reqMin0 <? V9_0_Pie then V9_0_Pie else reqMin0 in
  let reqMin := if actingAsV31 cfg then reqMax0 else reqMin1 in
  let '(firstMin, lastMax, lineages, r1) := v3RangeLoop (sortSigners sigs) 0 0 0 [] r in
  let reqMax := if negb (rotationMin cfg =? 0) then wrap32 (rotationMin cfg - 1) else reqMax0 in
  let r2 := if (reqMin <? firstMin) || (lastMax <? reqMax) then addError r1 "missing sdk versions" else r1 in
  match signingLineage r2 with
  | Some _ => Ret r2
  | None =>
      c <- consolidateLineages lineages ;;
      match c with
      | inl l => Ret (mkCore (certs r2) l (warnings r2) (errors r2))
      | inr _ => Ret (addError (mkCore (certs r2) None (warnings r2) (errors r2))
                               "inconsistent certificate lineage, not all lineages are subsets of each other")
      end
  end.

(** sort.Slice(s.signers, less) with less i j = minSdk i < minSdk j *)
Definition v3Less (a b : v3signer) : bool := vs_min a <? vs_min b.

(** schemev31.go:18-26 rotationMinSdkVersion for the v3.0 backend *)
Definition v31RotationMin (sigs : list v3signer) : Z :=
  let m := fold_left (fun m s => if vs_min s <? m then vs_min s else m) sigs max_int32 in
  if m =? max_int32 then 0 else m.

(** schemev31.go: state kept between parseSigners and finalizeResult *)
Record v31state : Set := {
  s31_signers : list v3signer;       (* backendV31.signers *)
  s31_v3signers : list v3signer;     (* backendV3.signers *)
  s31_rotationMin : Z                (* backendV3.rotationMinSdkVersion *)
}.

Section WithEnv2.
  Variable E : env.

  (** schemev31.go:14-46 parseSigners.  The v3.0 block is looked up in ExtraBlocks; [None] as second
      component: no v3.0 block, ExtraResults untouched. *)
  Definition v31ParseSigners (maxSdk : Z) (extraBlocks : list (Z * bytes)) (block : bytes) (cds : digests) (r : core)
    : outcome (v31state * digests * core * option core) :=
    '(sigs31, cds31, r1) <- v3ParseSigners E (mkV3Cfg true maxSdk 0) block [] r ;;
    let rot := v31RotationMin sigs31 in
    match zget blockIdSchemeV3 extraBlocks with
    | None =>
        Ret ({| s31_signers := sigs31; s31_v3signers := []; s31_rotationMin := rot |},
             fold_left (fun m kv => zset (fst kv) (snd kv) m) cds31 cds,
             addError r1 "The APK contains a v3.1 signing block without a v3.0 base block", None)
    | Some v3Block =>
        '(sigs3, cds3, r3) <- v3ParseSigners E (mkV3Cfg false maxSdk rot) v3Block cds core0 ;;
        Ret ({| s31_signers := sigs31; s31_v3signers := sigs3; s31_rotationMin := rot |}, cds3, r1, Some r3)
    end.

  (** schemev31.go:48-60 finalizeResult: (result, ExtraResults[3]) *)
  Definition v31FinalizeWith (sortSigners : list v3signer -> list v3signer)
             (maxSdkCfg : Z) (st : v31state) (reqMin reqMax : Z) (r : core) (extra : option core)
    : outcome (core * option core) :=
    let v31min := if reqMin <? V13_0_TIRAMISU then V13_0_TIRAMISU else reqMin in
    r1 <- v3FinalizeWith sortSigners (mkV3Cfg true maxSdkCfg 0) (s31_signers st) v31min reqMax r ;;
    match extra with
    | None => Ret (r1, None)
    | Some r3 =>
        r3' <- v3FinalizeWith sortSigners (mkV3Cfg false maxSdkCfg (s31_rotationMin st)) (s31_v3signers st) reqMin reqMax r3 ;;
        Ret (mkCore (certs r1) (signingLineage r1) (warnings r1 ++ warnings r3') (errors r1 ++ errors r3'), Some r3')
    end.
End WithEnv2.
