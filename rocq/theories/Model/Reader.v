(** The io.ReadSeeker behind the verifier, with I/O errors.  The functions of SigBlock.v, Digest.v, Frosting.v,
    Verify.v and ApkVerifier.v that read the APK take it as a byte string, every read of which succeeds; here they are
    modelled again over a reader whose operations may fail (or return other bytes than before).  ReaderFacts proves
    that with a reader that never fails they are the same functions.
    The ZIP reader (apkparser) is given as in the other files: failures of its own reads are part of [zip]. *)
From Coq Require Import String.
From Verif.Model Require Import Bytes Env ApiLevel Utils SigBlock Result Signer SchemeV2 SchemeV3 DataSource Digest Frosting SourceStamp Verify GoStrings Manifest SchemeV1 ApkVerifier.

(** The places in the code that read the APK.  No two reads of one call of VerifySigningBlock or ExtractCerts have
    the same place and offset, so a reader can answer every read differently. *)
Inductive site : Set :=
| SMagic                              (* signingblock.go:271-279 newSigningBlock *)
| SEocd (second : bool)               (* signingblock.go:306-312, the two calls of findEocdMaxCommentSize *)
| SZip64                              (* signingblock.go:352-359 isZip64 *)
| SFooter                             (* signingblock.go:401-407 findApkSigningBlock *)
| SBlock                              (* signingblock.go:432-438 findApkSigningBlock *)
| SFrosting                           (* frosting.go:355-380 hashFileSection *)
| SChunk (run hasher : nat)           (* datasource.go:30-42 from computeOneMbChunkContentDigests; [run]: 0, or 1 in the fallback to v2 *)
| SVerity (run : nat).                (* datasource.go:30-42 from computeVerityContentDigest *)

(** An io.ReadSeeker.  [rd_size] is the result of Seek(0, io.SeekEnd); [rd_read s o n] is what Seek(o, io.SeekStart)
    followed by a complete read of n bytes yields; [rd_seek] is a Seek followed by no read.  None/false = an error
    (or fewer than n bytes). *)
Record reader : Type := {
  rd_size : option Z;
  rd_seek : site -> Z -> bool;
  rd_read : site -> Z -> Z -> option bytes
}.

(** A reader of [file] that never fails *)
Definition reader_of (file : bytes) : reader :=
  {| rd_size := Some (zlen file); rd_seek := fun _ _ => true; rd_read := fun _ => read_at file |}.

Section WithEnv.
  Variable E : env.
  Variable S : sched.
  Variable R : reader.

  (** signingblock.go:259-285 newSigningBlock: the size and the magic *)
  Definition newSigningBlockR : option (Z * Z) :=
    match rd_size R with
    | None => None
    | Some size => if size <? 4 then None else
                   match rd_read R SMagic 0 4 with None => None | Some b => Some (size, le_dec b) end
    end.

  (** signingblock.go:298-344 findEocdMaxCommentSize *)
  Definition findEocdMaxCommentSizeR (size : Z) (second : bool) (maxCommentSize0 : Z) : eocd_result :=
    let maxCommentSize1 := if size - eocdRecMinSize <? maxCommentSize0 then size - eocdRecMinSize else maxCommentSize0 in
    let bufLen := eocdRecMinSize + maxCommentSize1 in
    let bufOffsetInFile := size - bufLen in
    match rd_read R (SEocd second) bufOffsetInFile bufLen with
    | None => EocdNotFound
    | Some buf =>
        let maxCommentSize2 := zlen buf - eocdRecMinSize in
        let maxCommentSize := if maxUint16 <? maxCommentSize2 then maxUint16 else maxCommentSize2 in
        eocdLoop (Z.to_nat (maxCommentSize + 1)) buf bufOffsetInFile 0
    end.

  (** signingblock.go:287-296 findEocd *)
  Definition findEocdR (size : Z) : eocd_result :=
    if size <? eocdRecMinSize then EocdTooShort else
    match findEocdMaxCommentSizeR size false 0 with
    | EocdFound i => EocdFound i
    | _ => findEocdMaxCommentSizeR size true maxUint16
    end.

  (** signingblock.go:346-361 isZip64 *)
  Definition isZip64R (eocdOffset : Z) : bool :=
    let locatorPos := eocdOffset - zip64LocatorSize in
    if locatorPos <? 0 then false else
    match rd_read R SZip64 locatorPos 4 with
    | None => false
    | Some b => le_dec b =? zip64LocatorMagic
    end.

  (** signingblock.go:393-447 findApkSigningBlock *)
  Definition findApkSigningBlockR (centralDirOffset : Z) : sigblock_result :=
    if centralDirOffset <? apkSigBlockMinSize then SigBlockNone else
    match rd_read R SFooter (centralDirOffset - 24) 24 with
    | None => SigBlockBad
    | Some footer =>
        if negb (le_at 8 footer 8 =? apkSigBlockMagicLo) || negb (le_at 8 footer 16 =? apkSigBlockMagicHi)
        then SigBlockNone else
        let blockSizeFooter := le_at 8 footer 0 in
        if (blockSizeFooter <? 24) || (max_int32 - 8 <? blockSizeFooter) then SigBlockBad else
        let totalSize := blockSizeFooter + 8 in
        if totalSize <? apkSigBlockMinSize then SigBlockBad else
        let offset := centralDirOffset - totalSize in
        if offset <? 0 then SigBlockBad else
        match rd_read R SBlock offset totalSize with
        | None => SigBlockBad
        | Some block =>
            if negb (le_at 8 block 0 =? blockSizeFooter) then SigBlockBad
            else SigBlockFound block offset
        end
    end.

  (** signingblock.go:449-556 findSignatureBlocks *)
  Definition findSignatureBlocksR (size maxSdk : Z) : outcome find_result :=
    let st0 := mkEnt [] None vres0 in
    match findEocdR size with
    | EocdFound ei =>
        if isZip64R (ei_eocdOffset ei) then Ret (FindErr st0 None) else
        match findApkSigningBlockR (ei_centralDirOffset ei) with
        | SigBlockFound sigBlock offset =>
            let s := {| sb_eocd := ei; sb_offset := offset |} in
            let pairs := slice sigBlock 8 (zlen sigBlock - 24) in
            '(st, ok) <- entriesLoop E (length pairs) maxSdk pairs st0 ;;
            Ret (if ok then FindOk st s else FindErr st (Some s))
        | _ => Ret (FindErr st0 None)
        end
    | _ => Ret (FindErr st0 None)
    end.

  (** frosting.go:355-380 hashFileSection *)
  Definition hashFileSectionR (offset size : Z) : option bytes :=
    if size <=? 0 then (if (offset <? 0) || negb (rd_seek R SFrosting offset) then None else Some [])
    else rd_read R SFrosting offset size.

  (** frosting.go:382-408 verifyApk *)
  Definition frostingVerifyApkR (f : frostingInfo) (signingBlockOffset : Z) (schemeV2block : option bytes)
             (zipCdOffset zipCdSize : Z) (eocdOrig : bytes) : outcome (option ferr) :=
    match hashFileSectionR 0 signingBlockOffset with
    | None => Ret (Some (FErr "failed to hash apk"))
    | Some a =>
        let v2 := match schemeV2block with
                  | None | Some [] => []
                  | Some b => le_enc 4 blockIdSchemeV2 ++ b
                  end in
        match hashFileSectionR zipCdOffset zipCdSize with
        | None => Ret (Some (FErr "failed to hash zip central directory"))
        | Some b =>
            eocd <- copyAt eocdOrig eocdCentralDirOffsetOffset (le_enc 4 signingBlockOffset) ;;
            if bytes_eqb (e_hash E HSha256 (a ++ v2 ++ b ++ eocd)) (f_fileSha256 f)
            then Ret None else Ret (Some FErrDigestMismatch)
        end
    end.

  (** signingblock.go:158-164 *)
  Definition applyFrostingR (st : entries_state) (s : option sblock) : outcome vresult :=
    match en_frosting st, v_frosting (en_res st), s with
    | Some f, Some fr, Some s =>
        match fr_error fr with
        | Some _ => Ret (en_res st)
        | None =>
            let v2block := match zget blockIdSchemeV2 (en_blocks st) with
                           | Some b => Some b
                           | None => zget blockIdSchemeV2 (v_extraBlocks (en_res st))
                           end in
            e <- frostingVerifyApkR f (sb_offset s) v2block (ei_centralDirOffset (sb_eocd s))
                                    (ei_centralDirSize (sb_eocd s)) (ei_eocd (sb_eocd s)) ;;
            Ret (setFrostingError (en_res st) e)
        end
    | _, _, _ => Ret (en_res st)
    end.

  (** datasource.go:19-46 dataSourceApk, read from the given place *)
  Definition dataSourceApkR (at_ : site) (start end_ : Z) : dataSource := {|
    ds_chunkCount := (end_ - start + maxChunkSize - 1) / maxChunkSize;
    ds_length := end_ - start;
    ds_write := fun offset size =>
      if (end_ <? offset) || (end_ - start <? offset) then None
      else if (end_ - start <? size) || (end_ - start <? offset + size) then None
      else rd_read R at_ (start + offset) size
  |}.

  (** signingblock.go:686-700; [input i] is the input as hasher number [i] reads it *)
  Fixpoint digestChunkR (input : nat -> dataSource) (offset chunkSize chunkIndex : Z) (i : nat)
           (bufs : list (hash_id * bytes)) : outcome (option (list (hash_id * bytes))) :=
    match bufs with
    | [] => Ret (Some [])
    | (h, buf) :: t =>
        match ds_write (input i) offset chunkSize with
        | None => Ret None
        | Some data =>
            let sum := e_hash E h ((xa5 :: le_enc 4 chunkSize) ++ data) in
            buf' <- copyAt buf (5 + chunkIndex * zlen sum) sum ;;
            t' <- digestChunkR input offset chunkSize chunkIndex (Datatypes.S i) t ;;
            Ret (match t' with None => None | Some t' => Some ((h, buf') :: t') end)
        end
    end.

  (** signingblock.go:676-705 *)
  Fixpoint digestInputR (fuel : nat) (input : nat -> dataSource) (offset remaining chunkIndex : Z)
           (bufs : list (hash_id * bytes)) : outcome (option (Z * list (hash_id * bytes))) :=
    match fuel with
    | O => Ret (Some (chunkIndex, bufs))
    | Datatypes.S fuel' =>
        if remaining <=? 0 then Ret (Some (chunkIndex, bufs)) else
        let chunkSize := if maxChunkSize <? remaining then maxChunkSize else remaining in
        b <- digestChunkR input offset chunkSize chunkIndex 0 bufs ;;
        match b with
        | None => Ret None
        | Some bufs' => digestInputR fuel' input (offset + chunkSize) (remaining - chunkSize) (chunkIndex + 1) bufs'
        end
    end.

  Fixpoint digestInputsR (contents : list (nat -> dataSource)) (chunkIndex : Z) (bufs : list (hash_id * bytes))
    : outcome (option (list (hash_id * bytes))) :=
    match contents with
    | [] => Ret (Some bufs)
    | input :: rest =>
        r <- digestInputR (Z.to_nat (ds_length (input 0%nat))) input 0 (ds_length (input 0%nat)) chunkIndex bufs ;;
        match r with
        | None => Ret None
        | Some (i, bufs') => digestInputsR rest i bufs'
        end
    end.

  (** signingblock.go:649-713 computeOneMbChunkContentDigests *)
  Definition computeOneMbChunkContentDigestsR (algos : list Z) (contents : list (nat -> dataSource))
    : outcome (option digests) :=
    let total := sumZ (map (fun c => ds_chunkCount (c 0%nat)) contents) in
    if max_int32 / 1024 <=? total then Ret None else
    hs <- omap digestHash algos ;;
    let bufs := map (fun h => (h, (x5a :: le_enc 4 total) ++ zeros (total * hash_size h))) hs in
    r <- digestInputsR contents 0 bufs ;;
    match r with
    | None => Ret None
    | Some bufs' =>
        Ret (Some (fold_left (fun m kv => zset (fst kv) (e_hash E (fst (snd kv)) (snd (snd kv))) m)
                             (combine algos bufs') []))
    end.

  (** signingblock.go:622-647 computeContentDigests; [verity] are the contents as the verity tree builder reads them *)
  Definition computeContentDigestsR (algos : list Z) (contents : list (nat -> dataSource)) (verity : list dataSource)
    : outcome (option digests) :=
    '(oneMb, hasVerity) <- splitAlgos algos ;;
    result <- match oneMb with
              | [] => Ret (Some [])
              | _ => computeOneMbChunkContentDigestsR oneMb contents
              end ;;
    match result with
    | None => Ret None
    | Some m =>
        m' <- (if hasVerity then
                 v <- computeVerityContentDigest E verity ;;
                 Ret (match v with None => None | Some d => Some (zset digestVeritySha256 d m) end)
               else Ret (Some m)) ;;
        Ret (match m' with Some [] => None | x => x end)
    end.

  (** signingblock.go:588-620 verifyIntegrity, in run [k] *)
  Definition verifyIntegrityR (k : nat) (ei : eocd_info) (sigBlockOffset : Z) (keys : list Z)
             (expected : digests) (r : core) : outcome (core * bool) :=
    let before at_ := dataSourceApkR at_ 0 sigBlockOffset in
    let centralDir at_ := dataSourceApkR at_ (ei_centralDirOffset ei) (ei_eocdOffset ei) in
    eocd <- copyAt (ei_eocd ei) eocdCentralDirOffsetOffset (le_enc 4 sigBlockOffset) ;;
    actual <- computeContentDigestsR keys
                [fun i => before (SChunk k i); fun i => centralDir (SChunk k i); fun _ => dataSourceBytes eocd]
                [before (SVerity k); centralDir (SVerity k); dataSourceBytes eocd] ;;
    match actual with
    | None => Ret (addError r "Failed to compute digest(s) of contents", false)
    | Some m =>
        let getd k (d : digests) := match zget k d with Some x => x | None => [] end in
        Ret (fold_left (fun r k => if bytes_eqb (getd k expected) (getd k m) then r
                                   else addError r "digest of contents did not verify.") keys r, true)
    end.

  (** signingblock.go:566-586 verify *)
  Definition verifySchemeR (k : nat) (s : sblock) (schemeId : Z) (block : bytes) (minSdk maxSdk : Z)
             (res : vresult) : outcome (digests * vresult) :=
    '(st, cds, res1) <- extractCertsScheme E schemeId maxSdk block res ;;
    match certs (v_core res1) with
    | [] => Ret ([], withCore res1 (addError (v_core res1) "no signers found"))
    | _ =>
        match cds with
        | [] => Ret ([], withCore res1 (addError (v_core res1) "no content digests found"))
        | _ =>
            '(c, good) <- verifyIntegrityR k (sb_eocd s) (sb_offset s) (ord S _ 1 k (map fst cds)) cds (v_core res1) ;;
            let res2 := withCore res1 c in
            if negb good then Ret (cds, res2)
            else res3 <- finalizeScheme S st minSdk maxSdk res2 ;; Ret (cds, res3)
        end
    end.

  (** signingblock.go:202-219 pickAndVerify *)
  Definition pickAndVerifyR (k : nat) (s : sblock) (blocks : list (Z * bytes)) (minSdk maxSdk : Z) (res : vresult)
    : outcome (digests * vresult) :=
    if negb (SupportsSigV2 maxSdk) then Ret ([], setScheme res 1) else
    let '(id, block) := pickScheme blocks in
    let res1 := setScheme res id in
    match block with
    | None => Ret ([], withCore res1 (mkCore (certs (v_core res1)) (signingLineage (v_core res1)) (warnings (v_core res1))
                                             (errors (v_core res1) ++ [noBlockError])))
    | Some b => verifySchemeR k s id b minSdk maxSdk res1
    end.

  (** signingblock.go:172-187 *)
  Definition fallbackR (s : sblock) (blocks : list (Z * bytes)) (minSdk maxSdk : Z) (cds : digests) (res : vresult)
    : outcome (digests * vresult) :=
    if containsErrors (v_core res) && (schemeIdV3 <=? v_schemeId res) && (minSdk <? V9_0_Pie)
       && match zget blockIdSchemeV2 blocks with Some _ => true | None => false end
    then
      let extra := match zget blockIdSchemeV3 blocks with
                   | Some b => zset blockIdSchemeV3 b (v_extraBlocks res)
                   | None => zdel blockIdSchemeV3 (v_extraBlocks res)
                   end in
      let c := v_core res in
      let c' := mkCore (certs c) (signingLineage c) (warnings c ++ map WSchemeV3 (errors c)) [] in
      pickAndVerifyR 1 s (zdel blockIdSchemeV3 blocks) minSdk maxSdk
                     (mkRes c' (v_schemeId res) (v_extraResult3 res) (v_frosting res) (v_sourceStamp res) extra)
    else Ret (cds, res).

  (** signingblock.go:143-200 VerifySigningBlockReaderWithZip with a given zip *)
  Definition verifySigningBlockR (minSdk maxSdk : Z) (z : zip) : outcome vsb_result :=
    match newSigningBlockR with
    | None => Ret {| vr_res := None; vr_magic := 0; vr_err := Some (Err "APK file is too short") |}
    | Some (size, magic) =>
        fr <- findSignatureBlocksR size maxSdk ;;
        match fr with
        | FindErr st s =>
            res <- applyFrostingR st s ;;
            Ret {| vr_res := Some res; vr_magic := magic; vr_err := Some (ErrNotFound "findSignatureBlocks") |}
        | FindOk st s =>
            res <- applyFrostingR st (Some s) ;;
            '(cds, res1) <- pickAndVerifyR 0 s (en_blocks st) minSdk maxSdk res ;;
            '(cds2, res2) <- fallbackR s (en_blocks st) minSdk maxSdk cds res1 ;;
            stamp <- verifySourceV2Stamp E S (v_schemeId res2) minSdk maxSdk z
                                         (zget blockIdSourceStampV2 (en_blocks st)) cds2 ;;
            let res3 := mkRes (v_core res2) (v_schemeId res2) (v_extraResult3 res2) (v_frosting res2) stamp (v_extraBlocks res2) in
            Ret {| vr_res := Some res3; vr_magic := magic; vr_err := getLastError (v_core res3) |}
        end
    end.

  (** signingblock.go:234-257 ExtractCertsReader *)
  Definition extractCertsReaderR (minSdk maxSdk : Z) : outcome (list (list cert) * option verr) :=
    match newSigningBlockR with
    | None => Ret ([], Some (Err "APK file is too short"))
    | Some (size, _) =>
        fr <- findSignatureBlocksR size maxSdk ;;
        match fr with
        | FindErr _ _ => Ret ([], Some (ErrNotFound "findSignatureBlocks"))
        | FindOk st _ =>
            let '(id, block) := pickScheme (en_blocks st) in
            match block with
            | None => Ret ([], Some noBlockError)
            | Some b =>
                '(_, _, res) <- extractCertsScheme E id maxSdk b (setScheme (en_res st) id) ;;
                Ret (certs (v_core res), getLastError (v_core res))
            end
        end
    end.

  (** apkverifier.go:72-145 VerifyWithSdkVersionReader *)
  Definition verifyWithSdkR (oz : option zip) (minArg maxSdk : Z) : outcome (aresult * option aerr) :=
    match oz with
    | None => Ret (mkARes 0 [] None, Some AErrZip)
    | Some z =>
        let info := if (minArg =? V_AnyMin) || RequiresSandboxV2 maxSdk then getManifestInfo E z else Some (mkEnc 0 0 0) in
        let manifestError := match info with None => true | Some _ => false end in
        let e := match info with None => mkEnc 0 0 0 | Some e => e end in
        let minSdk := if negb manifestError && (minArg =? V_AnyMin) then en_min e else minArg in
        if maxSdk <? minSdk then Ret (mkARes 0 [] None, Some AErrRange) else
        vr <- verifySigningBlockR minSdk maxSdk z ;;
        let blockError := vr_err vr in
        let res := match vr_res vr, isNotFound blockError with
                   | Some b, false => mkARes (v_schemeId b) (certs (v_core b)) (vr_res vr)
                   | _, _ => mkARes 1 [] (vr_res vr)
                   end in
        match blockError, isNotFound blockError, SupportsSigV2 minSdk with
        | Some err, false, _ => Ret (res, Some (AErrBlock err))
        | None, _, true => Ret (res, None)
        | _, _, _ =>
            let noBlock := match blockError with Some _ => true | None => false end in
            let sandboxError :=
              if RequiresSandboxV2 maxSdk && (1 <? en_sandbox e) && (noBlock || (ar_schemeId res <? 2)) then Some AErrSandbox
              else if (V11_0_Eleven <=? en_target e) && (en_target e <=? maxSdk) && (ar_schemeId res <? 2) then Some AErrTargetSdk
              else None in
            '(certsv1, v1error) <- verifySchemeV1 E S z (negb noBlock) minSdk maxSdk ;;
            let res' := match ar_certs res with [] => mkARes (ar_schemeId res) certsv1 (ar_block res) | _ => res end in
            Ret (res', match sandboxError, v1error with
                       | Some err, _ => Some err
                       | None, Some err => Some (AErrV1 err)
                       | None, None => if negb (ar_schemeId res =? 1) && manifestError then Some AErrManifest
                                       else if vr_magic vr =? dexHeaderMagic then Some AErrMixedDex
                                       else None
                       end)
        end
    end.

  (** apkverifier.go:157-175 ExtractCertsReader *)
  Definition extractCertsR (oz : option zip) : outcome (list (list cert) * option aerr) :=
    match oz with
    | None => Ret ([], Some AErrZip)
    | Some z =>
        '(cs, blockError) <- extractCertsReaderR V_AnyMin V_AnyMax ;;
        if negb (isNotFound blockError) then Ret (cs, match blockError with Some e => Some (AErrBlock e) | None => None end) else
        '(certsv1, v1error) <- extractCertsSchemeV1 E S z V_AnyMin V_AnyMax ;;
        Ret (cs ++ certsv1, match v1error with Some e => Some (AErrV1 e) | None => None end)
    end.
End WithEnv.
