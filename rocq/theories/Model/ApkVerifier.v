(** /repo/apkverifier.go: Verify, ExtractCerts and the AndroidManifest.xml attributes they need *)
From Coq Require Import String.
From Verif.Model Require Import Bytes Env ApiLevel GoStrings Manifest Result Verify SchemeV1.

(** apkverifier.go:221-232 getAttrIntValue: io.EOF (no such attribute), a decoding error, or the value *)
Inductive attr_value : Set := AttrEOF | AttrBad | AttrVal (v : Z).
Fixpoint getAttrIntValue (attrs : list (bytes * bytes)) (name : bytes) : attr_value :=
  match attrs with
  | [] => AttrEOF
  | (n, v) :: t => if bytes_eqb n name then match parseInt32 v with Some z => AttrVal z | None => AttrBad end
                   else getAttrIntValue t name
  end.

(** apkverifier.go:174-178 sandboxVersionEncoder *)
Record encoder : Set := mkEnc { en_min : Z; en_target : Z; en_sandbox : Z }.
Inductive token_result : Set := TokOk (e : encoder) | TokEnd (e : encoder) | TokErr.

(** apkverifier.go:180-215 EncodeToken of a start element (other tokens are ignored, :181-184);
    TokEnd = apkparser.ErrEndParsing *)
Definition encodeToken (e : encoder) (st : xml_start) : token_result :=
  if bytes_eqb (xs_name st) (s2b "manifest") then
    match getAttrIntValue (xs_attrs st) (s2b "targetSandboxVersion") with
    | AttrVal v => TokOk (mkEnc (en_min e) (en_target e) v)
    | AttrEOF => TokOk e
    | AttrBad => TokErr
    end
  else if bytes_eqb (xs_name st) (s2b "uses-sdk") then
    match getAttrIntValue (xs_attrs st) (s2b "minSdkVersion") with
    | AttrBad => TokErr
    | r =>
        let e1 := match r with AttrVal v => mkEnc v (en_target e) (en_sandbox e) | _ => e end in
        match getAttrIntValue (xs_attrs st) (s2b "targetSdkVersion") with
        | AttrBad => TokErr
        | AttrVal v => TokEnd (mkEnc (en_min e1) v (en_sandbox e1))
        | AttrEOF => TokEnd e1
        end
    end
  else TokOk e.

(** apkparser.ParseXml driving the encoder: it stops without error at ErrEndParsing and with the encoder's error
    at any other; [ok]: see [e_parse_xml] *)
Fixpoint parseXml (toks : list xml_start) (ok : bool) (e : encoder) : option encoder :=
  match toks with
  | [] => if ok then Some e else None
  | st :: t => match encodeToken e st with
               | TokOk e' => parseXml t ok e'
               | TokEnd e' => Some e'
               | TokErr => None
               end
  end.

(** Errors of the entry points, apkverifier.go *)
Inductive aerr : Set :=
| AErrZip                       (* :73, apkparser.OpenZipReader failed *)
| AErrRange                     (* :96 invalid sdk version range *)
| AErrBlock (e : verr)          (* :112 *)
| AErrSandbox                   (* :121 *)
| AErrTargetSdk                 (* :123 *)
| AErrV1 (e : v1err)            (* :127 *)
| AErrManifest                  (* :136 *)
| AErrMixedDex.                 (* :138 ErrMixedDexApkFile *)

(** apkverifier.go:21-25 Result *)
Record aresult : Type := mkARes {
  ar_schemeId : Z;
  ar_certs : list (list cert);
  ar_block : option vresult
}.

(* apkverifier.go:41 *)
Definition dexHeaderMagic : Z := 0xa786564.

(** signingblock.go:120-131 IsSigningBlockNotFoundError *)
Definition isNotFound (e : option verr) : bool := match e with Some (ErrNotFound _) => true | _ => false end.

Section WithEnv.
  Variable E : env.
  Variable S : sched.

  (** apkverifier.go:234-256 getManifestInfo; None = error *)
  Definition getManifestInfo (z : zip) : option encoder :=
    match sget (s2b "AndroidManifest.xml") (z_map z) with
    | None => Some (mkEnc 1 0 1)
    | Some f =>
        if negb (zf_open_ok f) then None else
        match zf_streams f with
        | [] => Some (mkEnc 0 0 0)
        | stream :: _ => let '(toks, ok) := e_parse_xml E stream in parseXml toks ok (mkEnc 1 0 1)
        end
    end.

  (** apkverifier.go:72-145 VerifyWithSdkVersionReader; [oz] is the caller's or the opened ZipReader, None = opening failed *)
  Definition verifyWithSdk (file : bytes) (oz : option zip) (minArg maxSdk : Z) : outcome (aresult * option aerr) :=
    match oz with
    | None => Ret (mkARes 0 [] None, Some AErrZip)
    | Some z =>
        let info := if (minArg =? V_AnyMin) || RequiresSandboxV2 maxSdk then getManifestInfo z else Some (mkEnc 0 0 0) in
        let manifestError := match info with None => true | Some _ => false end in
        let e := match info with None => mkEnc 0 0 0 | Some e => e end in
        let minSdk := if negb manifestError && (minArg =? V_AnyMin) then en_min e else minArg in
        if maxSdk <? minSdk then Ret (mkARes 0 [] None, Some AErrRange) else
        vr <- verifySigningBlock E S file minSdk maxSdk z ;;
        let blockError := vr_err vr in
        let res := match vr_res vr, isNotFound blockError with
                   | Some b, false => mkARes (v_schemeId b) (certs (v_core b)) (vr_res vr)
                   | _, _ => mkARes 1 [] (vr_res vr)
                   end in
        match blockError, isNotFound blockError, SupportsSigV2 minSdk with
        | Some err, false, _ => Ret (res, Some (AErrBlock err))
        | None, _, true => Ret (res, None)
        | _, _, _ =>
            let noBlock := match blockError with Some _ => true | None => false end in
            let sandboxError :=
              if RequiresSandboxV2 maxSdk && (1 <? en_sandbox e) && (noBlock || (ar_schemeId res <? 2)) then Some AErrSandbox
              else if (V11_0_Eleven <=? en_target e) && (en_target e <=? maxSdk) && (ar_schemeId res <? 2) then Some AErrTargetSdk
              else None in
            '(certsv1, v1error) <- verifySchemeV1 E S z (negb noBlock) minSdk maxSdk ;;
            let res' := match ar_certs res with [] => mkARes (ar_schemeId res) certsv1 (ar_block res) | _ => res end in
            Ret (res', match sandboxError, v1error with
                       | Some err, _ => Some err
                       | None, Some err => Some (AErrV1 err)
                       | None, None => if negb (ar_schemeId res =? 1) && manifestError then Some AErrManifest
                                       else if vr_magic vr =? dexHeaderMagic then Some AErrMixedDex
                                       else None
                       end)
        end
    end.

  (** apkverifier.go:47-54 Verify, VerifyReader (opening the file is not modelled) *)
  Definition verifyApk (file : bytes) (oz : option zip) : outcome (aresult * option aerr) :=
    verifyWithSdk file oz V_AnyMin V_AnyMax.

  (** apkverifier.go:157-175 ExtractCertsReader *)
  Definition extractCerts (file : bytes) (oz : option zip) : outcome (list (list cert) * option aerr) :=
    match oz with
    | None => Ret ([], Some AErrZip)
    | Some z =>
        '(cs, blockError) <- extractCertsReader E file V_AnyMin V_AnyMax ;;
        if negb (isNotFound blockError) then Ret (cs, match blockError with Some e => Some (AErrBlock e) | None => None end) else
        '(certsv1, v1error) <- extractCertsSchemeV1 E S z V_AnyMin V_AnyMax ;;
        Ret (cs ++ certsv1, match v1error with Some e => Some (AErrV1 e) | None => None end)
    end.
End WithEnv.
