(** /repo/signingblock/frosting.go *)
From Coq Require Import String.
From Verif.Model Require Import Bytes Env SigBlock.

(* frosting.go:82 *)
Definition frostingPublicKeys : list bytes :=
  [s2b "MFkwEwYHKoZIzj0CAQYIKoZIzj0DAQcDQgAEZH2+1+E07dnErAD3L6BbTnaohU0bbXriNlJI7VxJU+LjdSwPyXR5pomARAMoyPkMksLz/gitUPtFuJoPL2ziEw=="].
(** strings.Split(frostingPublicKeys, ",") (frosting.go:279): the constant contains no comma. *)

(** frosting.go:97-100 readInt8 on a bytes.Reader at [pos]: signed value and new position *)
Definition readInt8 (data : bytes) (pos : Z) : option (Z * Z) :=
  match nth_error data (Z.to_nat pos) with
  | Some b => if pos <? 0 then None
              else Some ((if b2z b <? 128 then b2z b else b2z b - 256), pos + 1)
  | None => None
  end.

(** frosting.go:102-149 readInt32 (varint).  For negative v, v & 0x7f = v + 128. *)
Definition readInt32 (data : bytes) (pos : Z) : option (Z * Z) :=
  match readInt8 data pos with
  | None => None
  | Some (v0, p1) =>
      if 0 <=? v0 then Some (v0, p1) else
      let v0 := v0 + 128 in
      match readInt8 data p1 with
      | None => None
      | Some (v1, p2) =>
          if 0 <=? v1 then Some (Z.lor v0 (Z.shiftl v1 7), p2) else
          let v0 := Z.lor v0 (Z.shiftl (v1 + 128) 7) in
          match readInt8 data p2 with
          | None => None
          | Some (v1, p3) =>
              if 0 <=? v1 then Some (Z.lor v0 (Z.shiftl v1 14), p3) else
              let v0 := Z.lor v0 (Z.shiftl (v1 + 128) 14) in
              match readInt8 data p3 with
              | None => None
              | Some (v1, p4) =>
                  if 0 <=? v1 then Some (Z.lor v0 (Z.shiftl v1 21), p4) else
                  match readInt8 data p4 with
                  | None => None
                  | Some (v2, p5) =>
                      (* int32 arithmetic: v2<<28 wraps *)
                      let v := wrap32 (Z.lor (Z.lor v0 (Z.shiftl (v1 + 128) 21)) (Z.shiftl v2 28)) in
                      if v2 <? 0 then None else Some (v, p5)
                  end
              end
          end
      end
  end.

(** bytes.Reader.Len() *)
Definition rdLen (data : bytes) (pos : Z) : Z := if zlen data <=? pos then 0 else zlen data - pos.
(** bytes.Reader.Read into make([]byte, n) at pos: io.EOF at the end (even for n = 0), a short read
    leaves zeros at the end of the slice and is not an error. *)
Definition rdRead (data : bytes) (pos n : Z) : option bytes :=
  if zlen data <=? pos then None
  else let d := takeZ n (dropZ pos data) in Some (d ++ zeros (n - zlen d)).

(** frosting.go:164-176 skipping [index] array entries *)
Fixpoint skipEntries (index : nat) (data : bytes) (pos limit : Z) : option Z :=
  match index with
  | O => Some pos
  | S i => match readInt32 data pos with
           | None => None
           | Some (entrySize, p) =>
               if (entrySize <? 0) || (limit <=? p + entrySize) then None
               else skipEntries i data (p + entrySize) limit
           end
  end.

(** frosting.go:151-191 readArrayItem (result, only its bytes are used) *)
Definition readArrayItem (data : bytes) (pos : Z) (index : nat) : option bytes :=
  match readInt32 data pos with
  | None => None
  | Some (totalSize, startPos) =>
      if (totalSize <=? 0) || (rdLen data startPos <? totalSize) then None else
      match skipEntries index data startPos (startPos + totalSize) with
      | None => None
      | Some p =>
          match readInt32 data p with
          | None => None
          | Some (size, p') =>
              if (size <? 0) || (totalSize + startPos <? p' + size) then None
              else rdRead data p' size
          end
      end
  end.

Inductive ferr : Set := FErrInvalidSignature | FErrDigestMismatch | FErr (msg : string).

(** frosting.go:89-94 frostingInfo *)
Record frostingInfo : Set := mkFrosting {
  f_fileSha256 : bytes;
  f_protobufInfo : bytes;
  f_usedKeySha256 : bytes
}.
Definition frosting0 : frostingInfo := mkFrosting [] [] [].

Section WithEnv.
  Variable E : env.

  (** frosting.go:197-236 verifySignature: (usedKeySha256, error) *)
  Definition frostingVerifySignature (signed signature keyBase64 : bytes) : bytes * option ferr :=
    match e_base64 E keyBase64 with
    | None => ([], Some (FErr "failed to verify signature"))
    | Some pubKeyAsn =>
        let used := hex_encode (e_hash E HSha256 pubKeyAsn) in
        match e_pkix_std E pubKeyAsn with
        | Some (KEcdsa k) =>
            match e_asn1_rs_std E signature with
            | None => (used, Some (FErr "failed to verify signature"))
            | Some (_, _, true) => (used, Some (FErr "failed to verify signature"))
            | Some (R_, S_, false) =>
                if (R_ <=? 0) || (S_ <=? 0) then (used, Some (FErr "failed to verify signature"))
                else if e_ecdsa E k (e_hash E HSha256 signed) R_ S_ then (used, None)
                else (used, Some FErrInvalidSignature)
            end
        | _ => (used, Some (FErr "failed to verify signature"))
        end
    end.

  (** frosting.go:262-350 the loop over metadata entries.  [off] = offAfterSignaturesEnd, [pm] =
      protoAndMetaSize, [ps] = frostingProtobufStart, [psz] = protobufSize, [idx] = signatureIdx. *)
  Fixpoint frostingLoop (fuel : nat) (data : bytes) (off pm ps psz limit pos : Z) (idx : nat)
    : outcome (frostingInfo * option ferr) :=
    match fuel with
    | O => Ret (frosting0, Some (FErr "no enabled signature found"))
    | S fuel' =>
        if limit <=? pos then Ret (frosting0, Some (FErr "no enabled signature found")) else
        match readInt32 data pos with
        | None => Ret (frosting0, Some (FErr "invalid nextKey offset"))
        | Some (nk, p1) =>
            let nextKey := wrap32 (nk + wrap32 p1) in
            if (limit <? nextKey) || (nextKey <=? 0) then Ret (frosting0, Some (FErr "invalid nextKey offset")) else
            match readInt32 data p1 with
            | None => Ret (frosting0, Some (FErr "invalid 'disabled' read"))
            | Some (disabled, p2) =>
                if nextKey <? p2 then Ret (frosting0, Some (FErr "invalid 'disabled' read")) else
                if negb (disabled =? 0) then frostingLoop fuel' data off pm ps psz limit nextKey (S idx) else
                match readInt32 data p2 with
                | None => Ret (frosting0, Some (FErr "invalid/unknown key used in this frosting"))
                | Some (keyIndex, p3) =>
                    if zlen frostingPublicKeys <=? keyIndex then Ret (frosting0, Some (FErr "invalid/unknown key used in this frosting")) else
                    if negb (nextKey - p3 =? 32) then Ret (frosting0, Some (FErr "invalind key index length")) else
                    match rdRead data p3 32 with
                    | None => Ret (frosting0, Some (FErr "failed to read signature"))
                    | Some fileSha256 =>
                    match readArrayItem data (off + pm) idx with
                    | None => Ret (frosting0, Some (FErr "failed to read signature"))
                    | Some signature =>
                    match rdRead data off (nextKey - off) with
                    | None => Ret (frosting0, Some (FErr "failed to read signed data"))
                    | Some signedData =>
                    if keyIndex <? 0 then Panic PIndex else
                    match nth_error frostingPublicKeys (Z.to_nat keyIndex) with
                    | None => Panic PIndex
                    | Some key =>
                        let '(used, err) := frostingVerifySignature signedData signature key in
                        match err with
                        | Some e => Ret (mkFrosting [] [] used, Some e)
                        | None =>
                            match rdRead data ps psz with
                            | None => Ret (mkFrosting [] [] used, Some (FErr "failed to read protobufInfo data"))
                            | Some protobufInfo => Ret (mkFrosting fileSha256 protobufInfo used, None)
                            end
                        end
                    end end end end
                end
            end
        end
    end.

  Definition maxInt16 : Z := 32767.

  (** frosting.go:238-353 parseFrostingBlock / parse: the frostingInfo (with what was filled in before
      an error) and the error *)
  Definition frostingParse (block : bytes) : outcome (frostingInfo * option ferr) :=
    match readInt32 block 0 with
    | None => Ret (frosting0, Some (FErr "invalid protoAndMetaSize value"))
    | Some (protoAndMetaSize, off) =>
        if (protoAndMetaSize <=? 0) || (rdLen block off <? protoAndMetaSize)
        then Ret (frosting0, Some (FErr "invalid protoAndMetaSize value")) else
        match readInt32 block off with
        | None => Ret (frosting0, Some (FErr "invalid protobufSize value"))
        | Some (protobufSize, ps) =>
            if (protobufSize <=? 0) || (rdLen block ps <? protobufSize)
               || (protoAndMetaSize - (ps - off) <? protobufSize)
            then Ret (frosting0, Some (FErr "invalid protobufSize value")) else
            match readInt32 block (ps + protobufSize) with
            | None => Ret (frosting0, Some (FErr "invalid metadataSize"))
            | Some (metadataSize, p) =>
                if (metadataSize <=? 0) || (protoAndMetaSize - protobufSize <? metadataSize)
                then Ret (frosting0, Some (FErr "invalid metadataSize")) else
                frostingLoop (Z.to_nat maxInt16) block off protoAndMetaSize ps protobufSize
                             (p + metadataSize) p 0
            end
        end
    end.

  (** frosting.go:355-380 hashFileSection: the bytes fed to the hasher; None = read error *)
  Definition hashFileSection (file : bytes) (offset size : Z) : option bytes :=
    if size <=? 0 then (if offset <? 0 then None else Some [])
    else read_at file offset size.

  (** frosting.go:382-408 verifyApk *)
  Definition frostingVerifyApk (f : frostingInfo) (file : bytes) (signingBlockOffset : Z) (schemeV2block : option bytes)
             (zipCdOffset zipCdSize : Z) (eocdOrig : bytes) : outcome (option ferr) :=
    match hashFileSection file 0 signingBlockOffset with
    | None => Ret (Some (FErr "failed to hash apk"))
    | Some a =>
        let v2 := match schemeV2block with
                  | None | Some [] => []
                  | Some b => le_enc 4 blockIdSchemeV2 ++ b
                  end in
        match hashFileSection file zipCdOffset zipCdSize with
        | None => Ret (Some (FErr "failed to hash zip central directory"))
        | Some b =>
            eocd <- copyAt eocdOrig eocdCentralDirOffsetOffset (le_enc 4 signingBlockOffset) ;;
            if bytes_eqb (e_hash E HSha256 (a ++ v2 ++ b ++ eocd)) (f_fileSha256 f)
            then Ret None else Ret (Some FErrDigestMismatch)
        end
    end.
End WithEnv.
