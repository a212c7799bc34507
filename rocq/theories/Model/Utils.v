(** /repo/signingblock/utils.go and the algorithm tables of /repo/signingblock/signer.go *)
From Verif.Model Require Import Bytes ApiLevel Env.

(** utils.go:20-37 getLenghtPrefixedSlice: (field, rest of r) or an error.  [int(length) > r.Len()]
    compares with what remains after the 4 length bytes. *)
Definition getLengthPrefixedSlice (r : bytes) : option (bytes * bytes) :=
  if zlen r <? 4 then None else
  match read_i32 r with
  | None => None
  | Some (length, r') =>
      if length <? 0 then None
      else if zlen r' <? length then None
      else Some (takeZ length r', dropZ length r')
  end.

(** The loop [for b.Len() > 0 { x, err := getLenghtPrefixedSlice(b); if err != nil {... return}; ... }]
    cut into its items; the flag is false when the loop ends with a parse error after these items.
    (Used at schemev2.go:25-34, schemev3.go:45-56, signer.go:163-170, 233-239, 267-273 etc.
    Simplification: items are cut before the bodies run; bodies never touch b.)
    Fuel: every item consumes at least 4 bytes, [length r] suffices (Proofs/UtilsFacts.v). *)
Fixpoint lpItemsFuel (fuel : nat) (r : bytes) : list bytes * bool :=
  match r with
  | [] => ([], true)
  | _ :: _ =>
      match fuel with
      | O => ([], false)
      | S fuel' =>
          match getLengthPrefixedSlice r with
          | None => ([], false)
          | Some (x, r') => let '(xs, ok) := lpItemsFuel fuel' r' in (x :: xs, ok)
          end
      end
  end.
Definition lpItems (r : bytes) : list bytes * bool := lpItemsFuel (length r) r.

(* signer.go:19-30 *)
Definition SigRsaPssWithSha256 : Z := 257.             (* 0x0101 *)
Definition SigRsaPssWithSha512 : Z := 258.             (* 0x0102 *)
Definition SigRsaPkcs1V15WithSha256 : Z := 259.        (* 0x0103 *)
Definition SigRsaPkcs1V15WithSha512 : Z := 260.        (* 0x0104 *)
Definition SigEcdsaWithSha256 : Z := 513.              (* 0x0201 *)
Definition SigEcdsaWithSha512 : Z := 514.              (* 0x0202 *)
Definition SigDsaWithSha256 : Z := 769.                (* 0x0301 *)
Definition SigVerityRsaPkcs1V15WithSha256 : Z := 1057. (* 0x0421 *)
Definition SigVerityEcdsaWithSha256 : Z := 1059.       (* 0x0423 *)
Definition SigVerityDsaWithSha256 : Z := 1061.         (* 0x425 *)

(* signer.go:34-39 *)
Definition digestChunkedSha256 : Z := 1.
Definition digestChunkedSha512 : Z := 2.
Definition digestVeritySha256 : Z := 3.
Definition digestNonChunkedSha256 : Z := 4.

Definition zmem (x : Z) (l : list Z) : bool := existsb (Z.eqb x) l.

(** signer.go:82-93 isSupported *)
Definition isSupported (algo : Z) : bool :=
  zmem algo [SigRsaPssWithSha256; SigRsaPssWithSha512; SigRsaPkcs1V15WithSha256; SigRsaPkcs1V15WithSha512;
             SigEcdsaWithSha256; SigEcdsaWithSha512; SigDsaWithSha256;
             SigVerityRsaPkcs1V15WithSha256; SigVerityEcdsaWithSha256; SigVerityDsaWithSha256].

(** signer.go:95-106 getDigestType; panics on unknown algorithms *)
Definition getDigestType (algo : Z) : outcome Z :=
  if zmem algo [SigRsaPssWithSha256; SigRsaPkcs1V15WithSha256; SigEcdsaWithSha256; SigDsaWithSha256] then Ret digestChunkedSha256
  else if zmem algo [SigVerityRsaPkcs1V15WithSha256; SigVerityEcdsaWithSha256; SigVerityDsaWithSha256] then Ret digestVeritySha256
  else if zmem algo [SigRsaPssWithSha512; SigRsaPkcs1V15WithSha512; SigEcdsaWithSha512] then Ret digestChunkedSha512
  else Panic PExplicit.

(** signer.go:108-118 getMinSdkVersion (SigRsaPssWithSha256 is missing from the switch in the code) *)
Definition getMinSdkVersion (algo : Z) : Z :=
  if zmem algo [SigRsaPssWithSha512; SigRsaPkcs1V15WithSha256; SigRsaPkcs1V15WithSha512;
                SigEcdsaWithSha256; SigEcdsaWithSha512; SigDsaWithSha256] then V7_0_Nougat
  else if zmem algo [SigVerityRsaPkcs1V15WithSha256; SigVerityEcdsaWithSha256; SigVerityDsaWithSha256] then V9_0_Pie
  else max_int32.

(** signer.go:136-148 getMinSdkVersionJca *)
Definition getMinSdkVersionJca (algo : Z) : Z :=
  if zmem algo [SigRsaPssWithSha256; SigRsaPssWithSha512] then V6_0_Marshmallow
  else if zmem algo [SigRsaPkcs1V15WithSha256; SigRsaPkcs1V15WithSha512; SigDsaWithSha256;
                     SigVerityRsaPkcs1V15WithSha256; SigVerityDsaWithSha256] then V1_0_InitialRelease
  else if zmem algo [SigEcdsaWithSha256; SigEcdsaWithSha512; SigVerityEcdsaWithSha256] then V3_0_Honeycomb
  else max_int32.

(** signer.go:313-348 compareAlgos *)
Definition compareAlgos (a b : Z) : outcome Z :=
  digest1 <- getDigestType a ;;
  digest2 <- getDigestType b ;;
  if digest1 =? digest2 then Ret 0
  else if digest1 =? digestChunkedSha256 then
    (if (digest2 =? digestChunkedSha512) || (digest2 =? digestVeritySha256) then Ret (-1) else Panic PExplicit)
  else if digest1 =? digestChunkedSha512 then
    (if (digest2 =? digestChunkedSha256) || (digest2 =? digestVeritySha256) then Ret 1 else Panic PExplicit)
  else if digest1 =? digestVeritySha256 then
    (if digest2 =? digestChunkedSha256 then Ret 1
     else if digest2 =? digestChunkedSha512 then Ret (-1)
     else Panic PExplicit)
  else Panic PExplicit.

Section WithEnv.
  Variable E : env.

  (** utils.go:39-91 verifySignature; Ret true = nil error.  The Go code uses unchecked type
      assertions, params[0]/params[1] and hashed[:Q.BitLen()/8], all of which can panic. *)
  Definition verifySignature (publicKey : pubkey) (algo : Z) (signedDataBytes signature : bytes) : outcome bool :=
    let rsa (f : bytes -> bool) : outcome bool :=
      match publicKey with KRsa k _ => Ret (f k) | _ => Panic PTypeAssertion end in
    if algo =? SigRsaPssWithSha256 then
      rsa (fun k => e_rsa_pss E k HSha256 32 (e_hash E HSha256 signedDataBytes) signature)
    else if algo =? SigRsaPssWithSha512 then
      rsa (fun k => e_rsa_pss E k HSha512 64 (e_hash E HSha512 signedDataBytes) signature)
    else if zmem algo [SigRsaPkcs1V15WithSha256; SigVerityRsaPkcs1V15WithSha256] then
      rsa (fun k => e_rsa_pkcs1 E k HSha256 (e_hash E HSha256 signedDataBytes) signature)
    else if algo =? SigRsaPkcs1V15WithSha512 then
      rsa (fun k => e_rsa_pkcs1 E k HSha512 (e_hash E HSha512 signedDataBytes) signature)
    else if zmem algo [SigEcdsaWithSha256; SigEcdsaWithSha512; SigDsaWithSha256;
                       SigVerityEcdsaWithSha256; SigVerityDsaWithSha256] then
      match e_asn1_ints E signature with
      | None => Ret false
      | Some params =>
          let hashed := if algo =? SigEcdsaWithSha512 then e_hash E HSha512 signedDataBytes
                        else e_hash E HSha256 signedDataBytes in
          if zmem algo [SigDsaWithSha256; SigVerityDsaWithSha256] then
            match publicKey with
            | KDsa k qbitlen =>
                if zlen hashed <? qbitlen / 8 then Panic PSlice else
                match params with
                | r :: s :: _ => Ret (e_dsa E k (takeZ (qbitlen / 8) hashed) r s)
                | _ => Panic PIndex
                end
            | _ => Panic PTypeAssertion
            end
          else
            match publicKey with
            | KEcdsa k =>
                match params with
                | r :: s :: _ => Ret (e_ecdsa E k hashed r s)
                | _ => Panic PIndex
                end
            | _ => Panic PTypeAssertion
            end
      end
    else Ret false.
End WithEnv.
