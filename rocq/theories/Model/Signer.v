(** /repo/signingblock/signer.go:150-311 signerContext *)
From Coq Require Import String.
From Verif.Model Require Import Bytes Env Utils Result.


(** signer.go:150-158 *)
Record sctx : Set := mkCtx {
  bestAlgo : Z;
  bestAlgoSignature : bytes;
  signaturesAlgos : list Z
}.
Definition ctx0 : sctx := mkCtx (-1) [] [].

(** signer.go:163-201 the loop of parseSignatures over the records; [ok] = false: the buffer ends in a
    malformed record.  Result: (context, result, success of the loop). *)
Fixpoint parseSignaturesLoop (items : list bytes) (ok : bool) (c : sctx) (r : core)
  : outcome (sctx * core * bool) :=
  match items with
  | [] => if ok then Ret (c, r, true)
          else Ret (c, addError r "failed to parse signature record", false)
  | signature :: rest =>
      if zlen signature <? 8 then Ret (c, addError r "signature record is too short", false) else
      match read_i32 signature with
      | None => Ret (c, addError r "failed to parse signature record", false)
      | Some (algo, signature') =>
          let c1 := mkCtx (bestAlgo c) (bestAlgoSignature c) (signaturesAlgos c ++ [algo]) in
          if negb (isSupported algo) then
            parseSignaturesLoop rest ok c1 (addWarning r "signature is using unsupported algorithm")
          else
            better <- (if bestAlgo c1 =? -1 then Ret true
                       else d <- compareAlgos algo (bestAlgo c1) ;; Ret (0 <? d)) ;;
            if better then
              match getLengthPrefixedSlice signature' with
              | None => Ret (mkCtx algo (bestAlgoSignature c1) (signaturesAlgos c1),
                             addError r "failed to read signature bytes from signature record", false)
              | Some (sigBytes, _) =>
                  parseSignaturesLoop rest ok (mkCtx algo sigBytes (signaturesAlgos c1)) r
              end
            else parseSignaturesLoop rest ok c1 r
      end
  end.

(** signer.go:160-211 parseSignatures *)
Definition parseSignatures (signaturesSlice : bytes) (r : core) : outcome (sctx * core * bool) :=
  let '(items, ok) := lpItems signaturesSlice in
  '(c, r1, good) <- parseSignaturesLoop items ok ctx0 r ;;
  if negb good then Ret (c, r1, false)
  else if bestAlgo c =? -1 then
    Ret (c, addError r1 (match items with [] => "no signatures found"%string | _ => "no supported signatures found"%string end), false)
  else Ret (c, r1, true).

Section WithEnv.
  Variable E : env.

  (** signer.go:213-229 parsePublicKey *)
  Definition parsePublicKey (c : sctx) (publicKeyBytes signedDataBytes : bytes) (r : core)
    : outcome (core * bool) :=
    match e_pkix_andr E publicKeyBytes with
    | None => Ret (addError r "failed to parse public key", false)
    | Some publicKey =>
        v <- verifySignature E publicKey (bestAlgo c) signedDataBytes (bestAlgoSignature c) ;;
        if v then Ret (r, true) else Ret (addError r "failed to verify signature of type", false)
    end.

  (** verificationresult.go:69-77 certAdder.append: the first certificate opens a new chain in
      res.Certs, the others extend that (last) chain. *)
  Definition certAppend (r : core) (chain : list cert) (x : cert) : core * list cert :=
    let chain' := chain ++ [x] in
    match chain with
    | [] => (mkCore (certs r ++ [chain']) (signingLineage r) (warnings r) (errors r), chain')
    | _ => (mkCore (removelast (certs r) ++ [chain']) (signingLineage r) (warnings r) (errors r), chain')
    end.

  (** signer.go:234-248 loop of parseCertificates *)
  Fixpoint parseCertificatesLoop (items : list bytes) (ok : bool) (chain : list cert) (r : core)
    : list cert * core * bool :=
    match items with
    | [] => if ok then (chain, r, true) else (chain, addError r "failed to read certificate", false)
    | encodedCert :: rest =>
        match e_cert_andr E encodedCert with
        | None => (chain, addError r "Failed to parse certificate", false)
        | Some x => let '(r', chain') := certAppend r chain x in parseCertificatesLoop rest ok chain' r'
        end
    end.

  (** signer.go:231-262 parseCertificates; Some mainCert = success *)
  Definition parseCertificates (certificatesSlice publicKeyBytes : bytes) (r : core) : core * option cert :=
    let '(items, ok) := lpItems certificatesSlice in
    let '(chain, r1, good) := parseCertificatesLoop items ok [] r in
    if negb good then (r1, None) else
    match chain with
    | [] => (addError r1 "No certificates listed.", None)
    | mainCert :: _ =>
        if bytes_eqb (c_spki mainCert) publicKeyBytes then (r1, Some mainCert)
        else (addError r1 "Public key mismatch between certificate and signature record", None)
    end.
End WithEnv.

(** signer.go:268-291 loop of parseDigests: (digest for bestAlgo, algorithms, result, success).
    The Go variable contentDigest is nil until a record for bestAlgo is met; None models nil. *)
Fixpoint parseDigestsLoop (items : list bytes) (ok : bool) (best : Z)
         (cd : option bytes) (algos : list Z) (r : core) : option bytes * list Z * core * bool :=
  match items with
  | [] => if ok then (cd, algos, r, true) else (cd, algos, addError r "failed to parse digest", false)
  | digest :: rest =>
      if zlen digest <? 8 then (cd, algos, addError r "failed to parse digest: record too short", false) else
      match read_i32 digest with
      | None => (cd, algos, r, false)   (* impossible: length checked *)
      | Some (sigAlgorithm, digest') =>
          let algos' := algos ++ [sigAlgorithm] in
          if sigAlgorithm =? best then
            match getLengthPrefixedSlice digest' with
            | None => (cd, algos', addError r "failed to read content digest for digest", false)
            | Some (d, _) => parseDigestsLoop rest ok best (Some d) algos' r
            end
          else parseDigestsLoop rest ok best cd algos' r
      end
  end.

Fixpoint zlist_eqb (a b : list Z) : bool :=
  match a, b with
  | [], [] => true
  | x :: a', y :: b' => (x =? y) && zlist_eqb a' b'
  | _, _ => false
  end.

(** signer.go:264-311 parseDigests.  A nil contentDigest stored in the map (no record for bestAlgo)
    cannot survive the comparison with signaturesAlgos, which contains bestAlgo; it is modelled as
    an empty digest. *)
Definition parseDigests (digestsSlice : bytes) (c : sctx) (cds : digests) (r : core)
  : outcome (digests * core * bool) :=
  let '(items, ok) := lpItems digestsSlice in
  let '(cd, algos, r1, good) := parseDigestsLoop items ok (bestAlgo c) None [] r in
  if negb good then Ret (cds, r1, false)
  else if negb (zlist_eqb algos (signaturesAlgos c)) then
    Ret (cds, addError r1 "signature algorithms don't match between digests and signatures records", false)
  else
    digestAlgorithm <- getDigestType (bestAlgo c) ;;
    let contentDigest := match cd with Some d => d | None => [] end in
    let previousSignerDigest := zget digestAlgorithm cds in
    let cds' := zset digestAlgorithm contentDigest cds in
    match previousSignerDigest with
    | Some p => if bytes_eqb p contentDigest then Ret (cds', r1, true)
                else Ret (cds', addError r1 "contents digest does not match the digest specified by a preceding signer", false)
    | None => Ret (cds', r1, true)
    end.
