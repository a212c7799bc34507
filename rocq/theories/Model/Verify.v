(** /repo/signingblock/signingblock.go:133-285, 363-391, 449-586: entry points *)
From Coq Require Import String.
From Verif.Model Require Import Bytes Env ApiLevel Utils SigBlock Result Signer SchemeV2 SchemeV3 DataSource Digest Frosting SourceStamp.

(** verificationresult.go:31-35 *)
Record frostingResult : Set := { fr_error : option ferr; fr_keySha256 : bytes; fr_protobufInfo : bytes }.

(** verificationresult.go:8-28 VerificationResult.  ExtraResults only ever holds key 3. *)
Record vresult : Type := mkRes {
  v_core : core;
  v_schemeId : Z;
  v_extraResult3 : option core;
  v_frosting : option frostingResult;
  v_sourceStamp : option stamp_result;
  v_extraBlocks : list (Z * bytes)
}.
Definition vres0 : vresult := mkRes core0 0 None None None [].

Definition withCore (res : vresult) (c : core) : vresult :=
  mkRes c (v_schemeId res) (v_extraResult3 res) (v_frosting res) (v_sourceStamp res) (v_extraBlocks res).

(** verificationresult.go:52-61 *)
Definition containsErrors (c : core) : bool := match errors c with [] => false | _ => true end.
Definition getLastError (c : core) : option verr :=
  match errors c with [] => None | e :: t => Some (List.last (e :: t) e) end.

Section WithEnv.
  Variable E : env.
  Variable S : sched.

  (** state of the entry loop: blocks, frostingRes, result *)
  Record entries_state : Type := mkEnt {
    en_blocks : list (Z * bytes);
    en_frosting : option frostingInfo;
    en_res : vresult
  }.

  (** signingblock.go:497-548 the switch on one entry; None = err (io.EOF from pairs.Read) *)
  Definition handleEntry (maxSdk : Z) (id : Z) (payload : bytes) (eof : bool) (st : entries_state)
    : outcome (option entries_state) :=
    let res := en_res st in
    let setExtra (res : vresult) : vresult :=
        mkRes (v_core res) (v_schemeId res) (v_extraResult3 res) (v_frosting res) (v_sourceStamp res)
              (zset id payload (v_extraBlocks res)) in
    if (id =? blockIdSchemeV2) || (id =? blockIdSchemeV3) || (id =? blockIdSchemeV31) then
      if eof then Ret None else
      let supported := ((id =? blockIdSchemeV2) && SupportsSigV2 maxSdk)
                       || ((id =? blockIdSchemeV3) && SupportsSigV3 maxSdk)
                       || ((id =? blockIdSchemeV31) && SupportsSigV31 maxSdk) in
      let blocks' := if supported then zset id payload (en_blocks st) else en_blocks st in
      let res' := if negb supported || ((id =? blockIdSchemeV3) && SupportsSigV31 maxSdk) then setExtra res else res in
      Ret (Some (mkEnt blocks' (en_frosting st) res'))
    else if id =? blockIdVerityPadding then Ret (Some st)
    else if id =? blockIdFrosting then
      if eof then Ret None else
      '(f, ferr) <- frostingParse E payload ;;
      let fr := {| fr_error := ferr; fr_keySha256 := f_usedKeySha256 f; fr_protobufInfo := f_protobufInfo f |} in
      let core' := match ferr with Some _ => addWarning (v_core res) "frosting" | None => v_core res end in
      Ret (Some (mkEnt (en_blocks st)
                       (match ferr with Some _ => en_frosting st | None => Some f end)
                       (mkRes core' (v_schemeId res) (v_extraResult3 res) (Some fr) (v_sourceStamp res) (v_extraBlocks res))))
    else if id =? blockIdSourceStampV2 then
      if eof then Ret None else
      Ret (Some (mkEnt (zset id payload (en_blocks st)) (en_frosting st) res))
    else
      if eof then Ret None else
      Ret (Some (mkEnt (en_blocks st) (en_frosting st) (setExtra res))).

  (** signingblock.go:468-553 the pairs loop.  Result: state and whether it ended without error.
      Fuel: every entry consumes at least 12 bytes. *)
  Fixpoint entriesLoop (fuel : nat) (maxSdk : Z) (pairs : bytes) (st : entries_state) : outcome (entries_state * bool) :=
    match pairs with
    | [] => Ret (st, true)
    | _ =>
        match fuel with
        | O => Ret (st, false)
        | Datatypes.S fuel' =>
            match nextEntry pairs with
            | EntryErr => Ret (st, false)
            | Entry id payload eof rest =>
                r <- handleEntry maxSdk id payload eof st ;;
                match r with
                | None => Ret (st, false)
                | Some st' => entriesLoop fuel' maxSdk rest st'
                end
            end
        end
    end.

  (** What findSignatureBlocks establishes in s: signingblock.go:110-118 *)
  Record sblock : Set := { sb_eocd : eocd_info; sb_offset : Z }.

  (** signingblock.go:449-556 findSignatureBlocks on a fresh result.  The state of [s] is only used by
      the callers when a signing block was found (frosting) or no error occurred. *)
  Inductive find_result : Type :=
  | FindErr (st : entries_state) (s : option sblock)
  | FindOk (st : entries_state) (s : sblock).

  Definition findSignatureBlocks (file : bytes) (maxSdk : Z) : outcome find_result :=
    let st0 := mkEnt [] None vres0 in
    match findEocd file with
    | EocdFound ei =>
        if isZip64 file (ei_eocdOffset ei) then Ret (FindErr st0 None) else
        match findApkSigningBlock file (ei_centralDirOffset ei) with
        | SigBlockFound sigBlock offset =>
            let s := {| sb_eocd := ei; sb_offset := offset |} in
            let pairs := slice sigBlock 8 (zlen sigBlock - 24) in
            '(st, ok) <- entriesLoop (length pairs) maxSdk pairs st0 ;;
            Ret (if ok then FindOk st s else FindErr st (Some s))
        | _ => Ret (FindErr st0 None)
        end
    | _ => Ret (FindErr st0 None)
    end.

  (** signingblock.go:363-391 pickScheme: scheme id and block; None = signingBlockNotFoundError *)
  Definition pickScheme (blocks : list (Z * bytes)) : Z * option bytes :=
    match zget blockIdSchemeV31 blocks with
    | Some b => (schemeIdV31, Some b)
    | None =>
        match zget blockIdSchemeV3 blocks with
        | Some b => (schemeIdV3, Some b)
        | None =>
            match zget blockIdSchemeV2 blocks with
            | Some b => (schemeIdV2, Some b)
            | None => (schemeIdV1, None)
            end
        end
    end.

  Definition noBlockError : verr := ErrNotFound "No APK Signature block in APK Signing Block".

  (** schemev3.go:76-78 *)
  Definition sortV3 : list v3signer -> list v3signer := srt S _ v3Less.

  (** State of a scheme object between parseSigners and finalizeResult *)
  Inductive scheme_state : Type :=
  | StV2
  | StV3 (sigs : list v3signer)
  | StV31 (st : v31state).

  (** signingblock.go:558-564 extractCerts, for the scheme chosen by pickScheme *)
  Definition extractCertsScheme (schemeId maxSdk : Z) (block : bytes) (res : vresult)
    : outcome (scheme_state * digests * vresult) :=
    if schemeId =? schemeIdV31 then
      '(st, cds, c, extra) <- v31ParseSigners E maxSdk (v_extraBlocks res) block [] (v_core res) ;;
      Ret (StV31 st, cds,
           mkRes c (v_schemeId res) (match extra with Some x => Some x | None => v_extraResult3 res end)
                 (v_frosting res) (v_sourceStamp res) (v_extraBlocks res))
    else if schemeId =? schemeIdV3 then
      '(sigs, cds, c) <- v3ParseSigners E (mkV3Cfg false maxSdk 0) block [] (v_core res) ;;
      Ret (StV3 sigs, cds, withCore res c)
    else
      '(cds, c) <- v2ParseSigners E maxSdk (v_extraBlocks res) block [] (v_core res) ;;
      Ret (StV2, cds, withCore res c).

  (** scheme.finalizeResult *)
  Definition finalizeScheme (st : scheme_state) (minSdk maxSdk : Z) (res : vresult) : outcome vresult :=
    match st with
    | StV2 => Ret res
    | StV3 sigs =>
        c <- v3FinalizeWith sortV3 (mkV3Cfg false maxSdk 0) sigs minSdk maxSdk (v_core res) ;;
        Ret (withCore res c)
    | StV31 st =>
        '(c, extra) <- v31FinalizeWith sortV3 maxSdk st minSdk maxSdk (v_core res) (v_extraResult3 res) ;;
        Ret (mkRes c (v_schemeId res) extra (v_frosting res) (v_sourceStamp res) (v_extraBlocks res))
    end.

  (** signingblock.go:566-586 verify; [k] numbers the executions.  Returned digests: nil and empty maps
      are not distinguished (the only consumer tests len() == 0). *)
  Definition verifyScheme (k : nat) (file : bytes) (s : sblock) (schemeId : Z) (block : bytes) (minSdk maxSdk : Z)
             (res : vresult) : outcome (digests * vresult) :=
    '(st, cds, res1) <- extractCertsScheme schemeId maxSdk block res ;;
    match certs (v_core res1) with
    | [] => Ret ([], withCore res1 (addError (v_core res1) "no signers found"))
    | _ =>
        match cds with
        | [] => Ret ([], withCore res1 (addError (v_core res1) "no content digests found"))
        | _ =>
            '(c, good) <- verifyIntegrity E file (sb_eocd s) (sb_offset s) (ord S _ 1 k (map fst cds)) cds (v_core res1) ;;
            let res2 := withCore res1 c in
            if negb good then Ret (cds, res2)
            else res3 <- finalizeScheme st minSdk maxSdk res2 ;; Ret (cds, res3)
        end
    end.

  Definition setScheme (res : vresult) (id : Z) : vresult :=
    mkRes (v_core res) id (v_extraResult3 res) (v_frosting res) (v_sourceStamp res) (v_extraBlocks res).

  (** signingblock.go:202-219 pickAndVerify *)
  Definition pickAndVerify (k : nat) (file : bytes) (s : sblock) (blocks : list (Z * bytes)) (minSdk maxSdk : Z) (res : vresult)
    : outcome (digests * vresult) :=
    if negb (SupportsSigV2 maxSdk) then Ret ([], setScheme res 1) else
    let '(id, block) := pickScheme blocks in
    let res1 := setScheme res id in
    match block with
    | None => Ret ([], withCore res1 (mkCore (certs (v_core res1)) (signingLineage (v_core res1)) (warnings (v_core res1))
                                             (errors (v_core res1) ++ [noBlockError])))
    | Some b => verifyScheme k file s id b minSdk maxSdk res1
    end.

  (** Result of VerifySigningBlockReaderWithZip: (res or nil, magic, err) *)
  Record vsb_result : Type := { vr_res : option vresult; vr_magic : Z; vr_err : option verr }.

  Definition setFrostingError (res : vresult) (e : option ferr) : vresult :=
    mkRes (v_core res) (v_schemeId res) (v_extraResult3 res)
          (match v_frosting res with
           | Some fr => Some {| fr_error := e; fr_keySha256 := fr_keySha256 fr; fr_protobufInfo := fr_protobufInfo fr |}
           | None => None
           end) (v_sourceStamp res) (v_extraBlocks res).

  (** signingblock.go:158-164 *)
  Definition applyFrosting (file : bytes) (st : entries_state) (s : option sblock) : outcome vresult :=
    match en_frosting st, v_frosting (en_res st), s with
    | Some f, Some fr, Some s =>
        match fr_error fr with
        | Some _ => Ret (en_res st)
        | None =>
            let v2block := match zget blockIdSchemeV2 (en_blocks st) with
                           | Some b => Some b
                           | None => zget blockIdSchemeV2 (v_extraBlocks (en_res st))
                           end in
            e <- frostingVerifyApk E f file (sb_offset s) v2block (ei_centralDirOffset (sb_eocd s))
                                   (ei_centralDirSize (sb_eocd s)) (ei_eocd (sb_eocd s)) ;;
            Ret (setFrostingError (en_res st) e)
        end
    | _, _, _ => Ret (en_res st)
    end.

  (** signingblock.go:172-187: fall back to v2 below API 28.  A nil blocks[v3] stored in ExtraBlocks
      (only v3.1 present) is identified with an absent key: the readers test for nil. *)
  Definition fallback (file : bytes) (s : sblock) (blocks : list (Z * bytes)) (minSdk maxSdk : Z) (cds : digests) (res : vresult)
    : outcome (digests * vresult) :=
    if containsErrors (v_core res) && (schemeIdV3 <=? v_schemeId res) && (minSdk <? V9_0_Pie)
       && match zget blockIdSchemeV2 blocks with Some _ => true | None => false end
    then
      let extra := match zget blockIdSchemeV3 blocks with
                   | Some b => zset blockIdSchemeV3 b (v_extraBlocks res)
                   | None => zdel blockIdSchemeV3 (v_extraBlocks res)
                   end in
      let c := v_core res in
      let c' := mkCore (certs c) (signingLineage c) (warnings c ++ map WSchemeV3 (errors c)) [] in
      pickAndVerify 1 file s (zdel blockIdSchemeV3 blocks) minSdk maxSdk
                    (mkRes c' (v_schemeId res) (v_extraResult3 res) (v_frosting res) (v_sourceStamp res) extra)
    else Ret (cds, res).

  (** signingblock.go:259-285 newSigningBlock: the magic, None = file shorter than 4 bytes *)
  Definition newSigningBlock (file : bytes) : option Z :=
    match read_at file 0 4 with Some b => Some (le_dec b) | None => None end.

  (** signingblock.go:143-200 VerifySigningBlockReaderWithZip with a given zip *)
  Definition verifySigningBlock (file : bytes) (minSdk maxSdk : Z) (z : zip) : outcome vsb_result :=
    match newSigningBlock file with
    | None => Ret {| vr_res := None; vr_magic := 0; vr_err := Some (Err "APK file is too short") |}
    | Some magic =>
        fr <- findSignatureBlocks file maxSdk ;;
        match fr with
        | FindErr st s =>
            res <- applyFrosting file st s ;;
            Ret {| vr_res := Some res; vr_magic := magic; vr_err := Some (ErrNotFound "findSignatureBlocks") |}
        | FindOk st s =>
            res <- applyFrosting file st (Some s) ;;
            '(cds, res1) <- pickAndVerify 0 file s (en_blocks st) minSdk maxSdk res ;;
            '(cds2, res2) <- fallback file s (en_blocks st) minSdk maxSdk cds res1 ;;
            stamp <- verifySourceV2Stamp E S (v_schemeId res2) minSdk maxSdk z
                                         (zget blockIdSourceStampV2 (en_blocks st)) cds2 ;;
            let res3 := mkRes (v_core res2) (v_schemeId res2) (v_extraResult3 res2) (v_frosting res2) stamp (v_extraBlocks res2) in
            Ret {| vr_res := Some res3; vr_magic := magic; vr_err := getLastError (v_core res3) |}
        end
    end.

  (** signingblock.go:234-257 ExtractCertsReader: (certs, err) *)
  Definition extractCertsReader (file : bytes) (minSdk maxSdk : Z) : outcome (list (list cert) * option verr) :=
    match newSigningBlock file with
    | None => Ret ([], Some (Err "APK file is too short"))
    | Some _ =>
        fr <- findSignatureBlocks file maxSdk ;;
        match fr with
        | FindErr _ _ => Ret ([], Some (ErrNotFound "findSignatureBlocks"))
        | FindOk st _ =>
            let '(id, block) := pickScheme (en_blocks st) in
            match block with
            | None => Ret ([], Some noBlockError)
            | Some b =>
                '(_, _, res) <- extractCertsScheme id maxSdk b (setScheme (en_res st) id) ;;
                Ret (certs (v_core res), getLastError (v_core res))
            end
        end
    end.
End WithEnv.
