(** The String methods of package signingblock: block ids, signature algorithms, lineage capabilities *)
From Coq Require Import String.
From Verif.Model Require Import Bytes GoStrings SigBlock Utils CertInfo.

(** fmt %x of a non-negative number: lower case digits, no leading zeros; [fuel] bounds the digits.  Built-in fmt is
    trusted to do this; %0wx pads on the left with zeros to [w] digits. *)
Fixpoint hexDigits (fuel : nat) (n : Z) : bytes :=
  match fuel with
  | O => []
  | Datatypes.S f => if n <? 16 then [hex_digit n] else hexDigits f (n / 16) ++ [hex_digit (n mod 16)]
  end.
Definition fmtHex (n : Z) : bytes := hexDigits 8 n.
Definition fmtHexPad (w : Z) (n : Z) : bytes := let d := fmtHex n in repeat x30 (Z.to_nat (w - zlen d)) ++ d.

(** signingblock.go:46-70 BlockId.String *)
Definition blockIdString (b : Z) : bytes :=
  if b =? 0x504b4453 then s2b "DependencyMetadata"
  else if b =? 0x71777777 then s2b "MeituanMetadata"
  else if b =? 0x2b09189e then s2b "SourceStampV1 (deprecated)"
  else if b =? 0x6dff800d then s2b "SourceStampV2"
  else if b =? 0x42726577 then s2b "VerityPadding"
  else if b =? 0x7109871a then s2b "SchemeV2Signature"
  else if b =? 0xf05368c0 then s2b "SchemeV3Signature"
  else if b =? 0x1b93ad61 then s2b "SchemeV3.1Signature"
  else if b =? 0x2146444e then s2b "PlayFrosting"
  else s2b "Unknown (0x" ++ fmtHexPad 8 b ++ s2b ")".

(** signer.go:56-80 SignatureAlgorithm.String; the type is int32, printed as uint32 *)
Definition sigAlgorithmString (algo : Z) : bytes :=
  if algo =? 0x0101 then s2b "SigRsaPssWithSha256"
  else if algo =? 0x0102 then s2b "SigRsaPssWithSha512"
  else if algo =? 0x0103 then s2b "SigRsaPkcs1V15WithSha256"
  else if algo =? 0x0104 then s2b "SigRsaPkcs1V15WithSha512"
  else if algo =? 0x0201 then s2b "SigEcdsaWithSha256"
  else if algo =? 0x0202 then s2b "SigEcdsaWithSha512"
  else if algo =? 0x0301 then s2b "SigDsaWithSha256"
  else if algo =? 0x0421 then s2b "SigVerityRsaPkcs1V15WithSha256"
  else if algo =? 0x0423 then s2b "SigVerityEcdsaWithSha256"
  else if algo =? 0x0425 then s2b "SigVerityDsaWithSha256"
  else s2b "0x" ++ fmtHexPad 4 (algo mod 2 ^ 32).

(** schemev3lineage.go:34-62 LineageCertCaps.String *)
Definition capWord (i : Z) : bytes :=
  let mask := 2 ^ i in
  if mask =? 1 then s2b "InstalledData"
  else if mask =? 2 then s2b "SharedUserId"
  else if mask =? 4 then s2b "Permission"
  else if mask =? 8 then s2b "Rollback"
  else if mask =? 16 then s2b "Auth"
  else s2b "0x" ++ fmtHex mask.
Fixpoint capsLoop (fuel : nat) (i : Z) (c : Z) : list bytes :=
  match fuel with
  | O => []
  | Datatypes.S f => if negb (i <? 31) then [] else
      if Z.land c (2 ^ i) =? 0 then capsLoop f (i + 1) c else capWord i :: capsLoop f (i + 1) c
  end.
Definition lineageCapsString (c : Z) : bytes :=
  match capsLoop 32 0 c with
  | [] => s2b "None"
  | values => joinWith [x7c] values
  end.
