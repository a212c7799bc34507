(** /repo/signingblock/schemev2.go *)
From Coq Require Import String.
From Verif.Model Require Import Bytes Env ApiLevel Utils SigBlock Result Signer.


(* schemev2.go:10 *)
Definition attrV2StrippingProtection : Z := 3203395597. (* 0xbeeff00d *)

(** signingblock.go:94-98 schemeIdToBlockId *)
Definition schemeIdToBlockId (id : Z) : option Z :=
  if id =? schemeIdV2 then Some blockIdSchemeV2
  else if id =? schemeIdV3 then Some blockIdSchemeV3
  else if id =? schemeIdV31 then Some blockIdSchemeV31
  else None.

(** schemev2.go:111-148 the additional-attributes loop *)
Fixpoint v2Attributes (items : list bytes) (ok : bool) (maxSdk : Z) (extraBlocks : list (Z * bytes)) (r : core) : core :=
  match items with
  | [] => if ok then r else addError r "failed to read additional attribute"
  | attribute :: rest =>
      match read_u32 attribute with
      | None => addError r "failed to read additional attribute's id"
      | Some (id, attribute') =>
          if id =? attrV2StrippingProtection then
            if negb (SupportsSigV3 maxSdk) then v2Attributes rest ok maxSdk extraBlocks r
            else match read_i32 attribute' with
                 | None => addError r "failed to read additional attribute's strippedSchemeId"
                 | Some (strippedSchemeId, _) =>
                     match schemeIdToBlockId strippedSchemeId with
                     | None => v2Attributes rest ok maxSdk extraBlocks (addError r "unknown stripped scheme id")
                     | Some strippedBlockId =>
                         match zget strippedBlockId extraBlocks with
                         | None => addError r "this apk was signed with a signing scheme, but it was stripped, downgrade attack?"
                         | Some _ => v2Attributes rest ok maxSdk extraBlocks r
                         end
                     end
                 end
          else v2Attributes rest ok maxSdk extraBlocks (addWarning r "unknown additional attribute id")
      end
  end.

Section WithEnv.
  Variable E : env.

  (** schemev2.go:47-149 verifySigner *)
  Definition v2VerifySigner (maxSdk : Z) (extraBlocks : list (Z * bytes)) (signerBlock : bytes)
             (cds : digests) (r : core) : outcome (digests * core) :=
    match getLengthPrefixedSlice signerBlock with
    | None => Ret (cds, addError r "failed to read signed data")
    | Some (signedDataBytes, signerBlock1) =>
    match getLengthPrefixedSlice signerBlock1 with
    | None => Ret (cds, addError r "failed to read signatures")
    | Some (signaturesSlice, signerBlock2) =>
    '(ctx, r1, sigOk) <- parseSignatures signaturesSlice r ;;
    if negb sigOk then Ret (cds, r1) else
    match getLengthPrefixedSlice signerBlock2 with
    | None => Ret (cds, addError r1 "failed to read publicKeySlice")
    | Some (publicKeySlice, _) =>
    '(r2, keyOk) <- parsePublicKey E ctx publicKeySlice signedDataBytes r1 ;;
    if negb keyOk then Ret (cds, r2) else
    match getLengthPrefixedSlice signedDataBytes with
    | None => Ret (cds, addError r2 "failed to read digests from signedData")
    | Some (digestsSlice, signedData1) =>
    match getLengthPrefixedSlice signedData1 with
    | None => Ret (cds, addError r2 "failed to read certificates from signedData")
    | Some (certificatesSlice, signedData2) =>
    let '(r3, mainCert) := parseCertificates E certificatesSlice publicKeySlice r2 in
    match mainCert with
    | None => Ret (cds, r3)
    | Some _ =>
    '(cds', r4, digOk) <- parseDigests digestsSlice ctx cds r3 ;;
    if negb digOk then Ret (cds', r4) else
    match getLengthPrefixedSlice signedData2 with
    | None => Ret (cds', addError r4 "failed to read additionalAttributes from signedData")
    | Some (additionalAttributes, _) =>
        let '(items, ok) := lpItems additionalAttributes in
        Ret (cds', v2Attributes items ok maxSdk extraBlocks r4)
    end end end end end end end.

  (** schemev2.go:25-35 the signers loop *)
  Fixpoint v2Signers (maxSdk : Z) (extraBlocks : list (Z * bytes)) (items : list bytes) (ok : bool)
           (cds : digests) (r : core) : outcome (digests * core * bool) :=
    match items with
    | [] => if ok then Ret (cds, r, true) else Ret (cds, addError r "failed to parse/verify signer block", false)
    | signer :: rest =>
        '(cds', r') <- v2VerifySigner maxSdk extraBlocks signer cds r ;;
        v2Signers maxSdk extraBlocks rest ok cds' r'
    end.

  (** schemev2.go:17-41 parseSigners *)
  Definition v2ParseSigners (maxSdk : Z) (extraBlocks : list (Z * bytes)) (block : bytes)
             (cds : digests) (r : core) : outcome (digests * core) :=
    match getLengthPrefixedSlice block with
    | None => Ret (cds, addError r "failed to read list of signers")
    | Some (signers, _) =>
        let '(items, ok) := lpItems signers in
        '(cds', r', good) <- v2Signers maxSdk extraBlocks items ok cds r ;;
        if negb good then Ret (cds', r') else
        if maxApkSigners <? zlen (certs r') then
          Ret (cds', addError r' "APK Signature Scheme V2 only supports a maximum of 10 signers")
        else Ret (cds', r')
    end.
End WithEnv.
