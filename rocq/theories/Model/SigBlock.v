(** /repo/signingblock/signingblock.go: locating the ZIP End Of Central Directory record and the
    APK Signing Block. *)
From Verif.Model Require Import Bytes ApiLevel.

(* signingblock.go:37-42 *)
Definition blockIdDependencyMetadata : Z := 1347109971. (* 0x504b4453 *)
Definition blockIdMeituanMetadata : Z := 1903654775.    (* 0x71777777 *)
Definition blockIdSourceStampV1 : Z := 722016414.       (* 0x2b09189e *)
Definition blockIdVerityPadding : Z := 1114793335.      (* 0x42726577 *)
Definition blockIdSchemeV2 : Z := 1896449818.           (* 0x7109871a *)
Definition blockIdSchemeV3 : Z := 4031998144.           (* 0xf05368c0 *)
Definition blockIdSchemeV31 : Z := 462663009.           (* 0x1b93ad61 *)
Definition blockIdFrosting : Z := 558253134.            (* 0x2146444e *)
Definition blockIdSourceStampV2 : Z := 1845461005.      (* 0x6dff800d *)

(* signingblock.go:70-92 *)
Definition eocdRecMinSize : Z := 22.
Definition eocdRecMagic : Z := 101010256.               (* 0x06054b50 *)
Definition eocdCommentSizeOffset : Z := 20.
Definition eocdCentralDirSizeOffset : Z := 12.
Definition eocdCentralDirOffsetOffset : Z := 16.
Definition zip64LocatorSize : Z := 20.
Definition zip64LocatorMagic : Z := 117853008.          (* 0x07064b50 *)
Definition apkSigBlockMinSize : Z := 32.
Definition apkSigBlockMagicHi : Z := 3617552046287187010. (* 0x3234206b636f6c42 *)
Definition apkSigBlockMagicLo : Z := 2334950737559900225. (* 0x20676953204b5041 *)
Definition maxChunkSize : Z := 1048576.
Definition maxApkSigners : Z := 10.
Definition schemeIdV1 : Z := 1.
Definition schemeIdV2 : Z := 2.
Definition schemeIdV3 : Z := 3.
Definition schemeIdV31 : Z := 31.
Definition maxUint16 : Z := 65535.

(** binary.LittleEndian.Uint16/32/64(buf[pos:]) for in-range pos *)
Definition le_at (n : nat) (buf : bytes) (pos : Z) : Z := le_dec (firstn n (dropZ pos buf)).

(** signingblock.go:110-118, the fields filled in by findEocd *)
Record eocd_info : Set := {
  ei_eocdOffset : Z;
  ei_centralDirOffset : Z;
  ei_centralDirSize : Z;
  ei_eocd : bytes
}.

Inductive eocd_result : Set :=
| EocdFound (i : eocd_info)
| EocdCdOutOfRange
| EocdCdNotAdjacent
| EocdNotFound
| EocdTooShort.

(** signingblock.go:319-343 the loop of findEocdMaxCommentSize from [commentSize]; [fuel] is the number
    of iterations left. *)
Fixpoint eocdLoop (fuel : nat) (buf : bytes) (bufOffsetInFile commentSize : Z) : eocd_result :=
  match fuel with
  | O => EocdNotFound
  | S fuel' =>
      let pos := (zlen buf - eocdRecMinSize) - commentSize in
      if (le_at 4 buf pos =? eocdRecMagic)
         && (le_at 2 buf (pos + eocdCommentSizeOffset) =? commentSize)
      then
        let eocdOffset := bufOffsetInFile + pos in
        let centralDirOffset := le_at 4 buf (pos + eocdCentralDirOffsetOffset) in
        let centralDirSize := le_at 4 buf (pos + eocdCentralDirSizeOffset) in
        if eocdOffset <=? centralDirOffset then EocdCdOutOfRange
        else if negb (centralDirOffset + centralDirSize =? eocdOffset) then EocdCdNotAdjacent
        else EocdFound {| ei_eocdOffset := eocdOffset; ei_centralDirOffset := centralDirOffset;
                          ei_centralDirSize := centralDirSize; ei_eocd := dropZ pos buf |}
      else eocdLoop fuel' buf bufOffsetInFile (commentSize + 1)
  end.

(** signingblock.go:298-344 findEocdMaxCommentSize.  Seek and ReadFull succeed: the offset is within
    the file. *)
Definition findEocdMaxCommentSize (file : bytes) (maxCommentSize0 : Z) : eocd_result :=
  let maxCommentSize1 := if zlen file - eocdRecMinSize <? maxCommentSize0
                         then zlen file - eocdRecMinSize else maxCommentSize0 in
  let bufLen := eocdRecMinSize + maxCommentSize1 in
  let bufOffsetInFile := zlen file - bufLen in
  match read_at file bufOffsetInFile bufLen with
  | None => EocdNotFound
  | Some buf =>
      let maxCommentSize2 := zlen buf - eocdRecMinSize in
      let maxCommentSize := if maxUint16 <? maxCommentSize2 then maxUint16 else maxCommentSize2 in
      eocdLoop (Z.to_nat (maxCommentSize + 1)) buf bufOffsetInFile 0
  end.

(** signingblock.go:287-296 findEocd *)
Definition findEocd (file : bytes) : eocd_result :=
  if zlen file <? eocdRecMinSize then EocdTooShort else
  match findEocdMaxCommentSize file 0 with
  | EocdFound i => EocdFound i
  | _ => findEocdMaxCommentSize file maxUint16
  end.

(** signingblock.go:346-361 isZip64 *)
Definition isZip64 (file : bytes) (eocdOffset : Z) : bool :=
  let locatorPos := eocdOffset - zip64LocatorSize in
  if locatorPos <? 0 then false else
  match read_at file locatorPos 4 with
  | None => false
  | Some b => le_dec b =? zip64LocatorMagic
  end.

Inductive sigblock_result : Set :=
| SigBlockFound (block : bytes) (offset : Z)
| SigBlockNone                 (* errNoSigningBlockSignature *)
| SigBlockBad.                 (* any other error *)

(** signingblock.go:393-447 findApkSigningBlock *)
Definition findApkSigningBlock (file : bytes) (centralDirOffset : Z) : sigblock_result :=
  if centralDirOffset <? apkSigBlockMinSize then SigBlockNone else
  match read_at file (centralDirOffset - 24) 24 with
  | None => SigBlockBad
  | Some footer =>
      if negb (le_at 8 footer 8 =? apkSigBlockMagicLo) || negb (le_at 8 footer 16 =? apkSigBlockMagicHi)
      then SigBlockNone else
      let blockSizeFooter := le_at 8 footer 0 in
      if (blockSizeFooter <? 24) || (max_int32 - 8 <? blockSizeFooter) then SigBlockBad else
      let totalSize := blockSizeFooter + 8 in
      if totalSize <? apkSigBlockMinSize then SigBlockBad else
      let offset := centralDirOffset - totalSize in
      if offset <? 0 then SigBlockBad else
      match read_at file offset totalSize with
      | None => SigBlockBad
      | Some block =>
          if negb (le_at 8 block 0 =? blockSizeFooter) then SigBlockBad
          else SigBlockFound block offset
      end
  end.

(** One entry of the pairs loop of findSignatureBlocks, signingblock.go:467-552, up to the switch:
    the id and payload of the next entry, whether [pairs.Read] of the payload would return io.EOF
    (payload empty and nothing left in pairs), and the remaining pairs. *)
Inductive entry_step : Set :=
| EntryErr
| Entry (id : Z) (payload : bytes) (eof : bool) (rest : bytes).

Definition nextEntry (pairs : bytes) : entry_step :=
  if zlen pairs <? 8 then EntryErr else
  match read_i64 pairs with
  | None => EntryErr
  | Some (entryLen, r) =>
      if (entryLen <? 4) || (max_int32 <? entryLen) then EntryErr
      else if zlen r <? entryLen then EntryErr
      else match read_u32 r with
           | None => EntryErr
           | Some (id, r') => Entry id (takeZ (entryLen - 4) r') (match r' with [] => true | _ => false end)
                                    (dropZ (entryLen - 4) r')
           end
  end.
