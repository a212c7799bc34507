(** /repo/internal/x509andr/verify.go, cert_pool.go and the signature checks of x509.go: certificate chains and host names.
    A copy of crypto/x509 of its time; the APK verifier itself calls none of it.  Not modelled: system roots (a pool of
    roots is given), PEM, the texts of errors, Windows. *)
From Coq Require Import String.
From Verif.Model Require Import Bytes Env GoStrings.

(** x509.go:640-730 the fields of Certificate used here.  [vc_known_key]: PublicKeyAlgorithm is not UnknownPublicKeyAlgorithm;
    [vc_has_san]: hasSANExtension(); [vc_unknown_eku] = len(UnknownExtKeyUsage), [vc_unhandled] = len(UnhandledCriticalExtensions). *)
Record vcert : Set := {
  vc_raw : bytes; vc_raw_tbs : bytes; vc_raw_spki : bytes; vc_raw_subject : bytes; vc_raw_issuer : bytes;
  vc_subject_key_id : bytes; vc_authority_key_id : bytes;
  vc_version : Z; vc_bc_valid : bool; vc_is_ca : bool; vc_max_path_len : Z; vc_key_usage : Z;
  vc_known_key : bool; vc_key : pubkey; vc_sig_algo : Z; vc_signature : bytes;
  vc_not_before : Z; vc_not_after : Z;
  vc_permitted : list bytes; vc_excluded : list bytes;
  vc_has_san : bool; vc_dns_names : list bytes; vc_ips : list bytes; vc_common_name : bytes;
  vc_eku : list Z; vc_unknown_eku : Z; vc_unhandled : Z
}.

(** Standard library: strings.EqualFold, net.ParseIP, net.IP.Equal *)
Record venv : Set := {
  v_env : env;
  v_equal_fold : bytes -> bytes -> bool;
  v_parse_ip : bytes -> option bytes;
  v_ip_equal : bytes -> bytes -> bool
}.

(** x509.go:182-199 (iota) *)
Definition xMD2WithRSA : Z := 1.
Definition xMD5WithRSA : Z := 2.
Definition xSHA1WithRSA : Z := 3.
Definition xSHA256WithRSA : Z := 4.
Definition xSHA384WithRSA : Z := 5.
Definition xSHA512WithRSA : Z := 6.
Definition xDSAWithSHA1 : Z := 7.
Definition xDSAWithSHA256 : Z := 8.
Definition xECDSAWithSHA1 : Z := 9.
Definition xECDSAWithSHA256 : Z := 10.
Definition xECDSAWithSHA384 : Z := 11.
Definition xECDSAWithSHA512 : Z := 12.
Definition xSHA256WithRSAPSS : Z := 13.
Definition xSHA384WithRSAPSS : Z := 14.
Definition xSHA512WithRSAPSS : Z := 15.

(** x509.go:201-208 isRSAPSS *)
Definition isRSAPSS (algo : Z) : bool := (algo =? xSHA256WithRSAPSS) || (algo =? xSHA384WithRSAPSS) || (algo =? xSHA512WithRSAPSS).

(** x509.go:543-552, 585-598 *)
Definition keyUsageCertSign : Z := 32.
Definition ekuAny : Z := 0.
Definition ekuServerAuth : Z := 1.
Definition ekuMicrosoftSGC : Z := 10.
Definition ekuNetscapeSGC : Z := 11.

(** x509.go:767-805 *)
Definition entrustBrokenSPKI : bytes := map z2b
  [0x30; 0x82; 0x01; 0x22; 0x30; 0x0d; 0x06; 0x09; 0x2a; 0x86; 0x48; 0x86; 0xf7; 0x0d; 0x01; 0x01; 0x01; 0x05; 0x00; 0x03; 0x82; 0x01; 0x0f; 0x00;
   0x30; 0x82; 0x01; 0x0a; 0x02; 0x82; 0x01; 0x01; 0x00; 0x97; 0xa3; 0x2d; 0x3c; 0x9e; 0xde; 0x05; 0xda; 0x13; 0xc2; 0x11; 0x8d; 0x9d; 0x8e; 0xe3;
   0x7f; 0xc7; 0x4b; 0x7e; 0x5a; 0x9f; 0xb3; 0xff; 0x62; 0xab; 0x73; 0xc8; 0x28; 0x6b; 0xba; 0x10; 0x64; 0x82; 0x87; 0x13; 0xcd; 0x57; 0x18; 0xff;
   0x28; 0xce; 0xc0; 0xe6; 0x0e; 0x06; 0x91; 0x50; 0x29; 0x83; 0xd1; 0xf2; 0xc3; 0x2a; 0xdb; 0xd8; 0xdb; 0x4e; 0x04; 0xcc; 0x00; 0xeb; 0x8b; 0xb6;
   0x96; 0xdc; 0xbc; 0xaa; 0xfa; 0x52; 0x77; 0x04; 0xc1; 0xdb; 0x19; 0xe4; 0xae; 0x9c; 0xfd; 0x3c; 0x8b; 0x03; 0xef; 0x4d; 0xbc; 0x1a; 0x03; 0x65;
   0xf9; 0xc1; 0xb1; 0x3f; 0x72; 0x86; 0xf2; 0x38; 0xaa; 0x19; 0xae; 0x10; 0x88; 0x78; 0x28; 0xda; 0x75; 0xc3; 0x3d; 0x02; 0x82; 0x02; 0x9c; 0xb9;
   0xc1; 0x65; 0x77; 0x76; 0x24; 0x4c; 0x98; 0xf7; 0x6d; 0x31; 0x38; 0xfb; 0xdb; 0xfe; 0xdb; 0x37; 0x02; 0x76; 0xa1; 0x18; 0x97; 0xa6; 0xcc; 0xde;
   0x20; 0x09; 0x49; 0x36; 0x24; 0x69; 0x42; 0xf6; 0xe4; 0x37; 0x62; 0xf1; 0x59; 0x6d; 0xa9; 0x3c; 0xed; 0x34; 0x9c; 0xa3; 0x8e; 0xdb; 0xdc; 0x3a;
   0xd7; 0xf7; 0x0a; 0x6f; 0xef; 0x2e; 0xd8; 0xd5; 0x93; 0x5a; 0x7a; 0xed; 0x08; 0x49; 0x68; 0xe2; 0x41; 0xe3; 0x5a; 0x90; 0xc1; 0x86; 0x55; 0xfc;
   0x51; 0x43; 0x9d; 0xe0; 0xb2; 0xc4; 0x67; 0xb4; 0xcb; 0x32; 0x31; 0x25; 0xf0; 0x54; 0x9f; 0x4b; 0xd1; 0x6f; 0xdb; 0xd4; 0xdd; 0xfc; 0xaf; 0x5e;
   0x6c; 0x78; 0x90; 0x95; 0xde; 0xca; 0x3a; 0x48; 0xb9; 0x79; 0x3c; 0x9b; 0x19; 0xd6; 0x75; 0x05; 0xa0; 0xf9; 0x88; 0xd7; 0xc1; 0xe8; 0xa5; 0x09;
   0xe4; 0x1a; 0x15; 0xdc; 0x87; 0x23; 0xaa; 0xb2; 0x75; 0x8c; 0x63; 0x25; 0x87; 0xd8; 0xf8; 0x3d; 0xa6; 0xc2; 0xcc; 0x66; 0xff; 0xa5; 0x66; 0x68;
   0x55; 0x02; 0x03; 0x01; 0x00; 0x01].

Inductive cverr : Set :=
| CvNotParsed | CvUnhandledCritical
| CvNameMismatch | CvExpired | CvNotAuthorizedForName | CvNotAuthorizedToSign | CvTooManyIntermediates | CvIncompatibleUsage
| CvHostname | CvUnknownAuthority
| CvFuel.   (* not in the code: the recursion bound of the model; proved unreachable *)

(** cert_pool.go:14-18 CertPool; the maps go from a key to indices into the certificates *)
Record cpool : Set := { cp_by_ski : list (bytes * list nat); cp_by_name : list (bytes * list nat); cp_certs : list vcert }.
(** cert_pool.go:21-26 NewCertPool *)
Definition newCertPool : cpool := {| cp_by_ski := []; cp_by_name := []; cp_certs := [] |}.

Fixpoint idxGet (k : bytes) (m : list (bytes * list nat)) : list nat :=
  match m with [] => [] | (k', v) :: t => if bytes_eqb k k' then v else idxGet k t end.
(** m[k] = append(m[k], n) *)
Fixpoint idxAdd (k : bytes) (n : nat) (m : list (bytes * list nat)) : list (bytes * list nat) :=
  match m with
  | [] => [(k, [n])]
  | (k', v) :: t => if bytes_eqb k k' then (k', v ++ [n]) :: t else (k', v) :: idxAdd k n t
  end.

(** x509.go:750-752 Equal *)
Definition vcEqual (a b : vcert) : bool := bytes_eqb (vc_raw a) (vc_raw b).

(** cert_pool.go:69-82 contains *)
Definition poolContains (s : cpool) (c : vcert) : bool :=
  existsb (fun n => match nth_error (cp_certs s) n with Some x => vcEqual x c | None => false end) (idxGet (vc_raw_subject c) (cp_by_name s)).

(** cert_pool.go:85-104 AddCert *)
Definition addCert (s : cpool) (c : vcert) : cpool :=
  if poolContains s c then s else
  let n := List.length (cp_certs s) in
  {| cp_by_ski := if 0 <? zlen (vc_subject_key_id c) then idxAdd (vc_subject_key_id c) n (cp_by_ski s) else cp_by_ski s;
     cp_by_name := idxAdd (vc_raw_subject c) n (cp_by_name s);
     cp_certs := cp_certs s ++ [c] |}.
Definition poolOf (l : list vcert) : cpool := fold_left addCert l newCertPool.

(** verify.go:167-190 matchNameConstraint *)
Definition matchNameConstraint (V : venv) (domain constraint : bytes) : bool :=
  match constraint with
  | [] => true
  | c0 :: _ =>
      if zlen domain <? zlen constraint then false else
      let prefixLen := zlen domain - zlen constraint in
      if negb (v_equal_fold V (dropZ prefixLen domain) constraint) then false else
      if prefixLen =? 0 then true else
      let isSubdomain := match nth_error domain (Z.to_nat (prefixLen - 1)) with Some b => b2z b =? 46 | None => false end in
      let constraintHasLeadingDot := b2z c0 =? 46 in
      negb (Bool.eqb isSubdomain constraintHasLeadingDot)
  end.

(** strings.TrimSuffix(s, ".") *)
Definition trimDot (s : bytes) : bytes :=
  match rev s with b :: t => if b2z b =? 46 then rev t else s | [] => s end.
(** strings.Split(s, ".") *)
Definition splitDot (s : bytes) : list bytes := splitByte s (z2b 46).

(** verify.go:411-436 matchHostnames *)
Fixpoint matchParts (first : bool) (pattern host : list bytes) : bool :=
  match pattern, host with
  | [], _ => true
  | p :: ps, h :: hs => (if first && bytes_eqb p [z2b 42] then true else bytes_eqb p h) && matchParts false ps hs
  | _ :: _, [] => false       (* not reached: the lengths are equal *)
  end.
Definition matchHostnames (pattern host : bytes) : bool :=
  let host := trimDot host in
  let pattern := trimDot pattern in
  if (zlen pattern =? 0) || (zlen host =? 0) then false else
  let patternParts := splitDot pattern in
  let hostParts := splitDot host in
  if negb (zlen patternParts =? zlen hostParts) then false else matchParts true patternParts hostParts.

(** verify.go:441-469 toLowerCaseASCII.  Simplified: the code returns the string itself if no rune is an upper-case
    letter (or invalid); the bytes are then all left alone by the second loop, too. *)
Definition lowerByte (b : byte) : byte := if (65 <=? b2z b) && (b2z b <=? 90) then z2b (b2z b + 32) else b.
Definition toLowerCaseASCII (s : bytes) : bytes := map lowerByte s.

(** verify.go:472-503 VerifyHostname: no error? *)
Definition verifyHostname (V : venv) (c : vcert) (h : bytes) : bool :=
  let candidateIP := if (3 <=? zlen h) && match h with b :: _ => b2z b =? 91 | [] => false end && match rev h with b :: _ => b2z b =? 93 | [] => false end
                     then takeZ (zlen h - 2) (dropZ 1 h) else h in
  match v_parse_ip V candidateIP with
  | Some ip => existsb (fun cand => v_ip_equal V ip cand) (vc_ips c)
  | None =>
      let lowered := toLowerCaseASCII h in
      if vc_has_san c then existsb (fun m => matchHostnames (toLowerCaseASCII m) lowered) (vc_dns_names c)
      else matchHostnames (toLowerCaseASCII (vc_common_name c)) lowered
  end.

(** verify.go:150-160 VerifyOptions.  [vo_time]: CurrentTime, not zero (time.Now() is not modelled); no Intermediates
    (nil) is an empty pool; Roots are given. *)
Record voptions : Set := { vo_dns : bytes; vo_inter : cpool; vo_roots : cpool; vo_time : Z; vo_usages : list Z }.

Inductive ctype : Set := LeafCertificate | IntermediateCertificate | RootCertificate.

Section WithEnv.
  Variable V : venv.
  Let E := v_env V.

  (** x509.go:843-907 checkSignature: no error?  (Available() holds: the hash packages are imported.) *)
  Definition xCheckSignature (algo : Z) (signed signature : bytes) (key : pubkey) : bool :=
    let hash :=
        if (algo =? xSHA1WithRSA) || (algo =? xDSAWithSHA1) || (algo =? xECDSAWithSHA1) then Some HSha1
        else if (algo =? xSHA256WithRSA) || (algo =? xSHA256WithRSAPSS) || (algo =? xDSAWithSHA256) || (algo =? xECDSAWithSHA256) then Some HSha256
        else if (algo =? xSHA384WithRSA) || (algo =? xSHA384WithRSAPSS) || (algo =? xECDSAWithSHA384) then Some HSha384
        else if (algo =? xSHA512WithRSA) || (algo =? xSHA512WithRSAPSS) || (algo =? xECDSAWithSHA512) then Some HSha512
        else None in
    match hash with
    | None => false
    | Some h =>
        let digest := e_hash E h signed in
        match key with
        | KRsa k _ => if isRSAPSS algo then e_rsa_pss E k h (hash_size h) digest signature else e_rsa_pkcs1 E k h digest signature
        | KDsa k _ =>
            match e_asn1_rs_andr E signature with
            | None => false
            | Some (_, _, true) => false
            | Some (r, s, false) => if (r <=? 0) || (s <=? 0) then false else e_dsa E k digest r s
            end
        | KEcdsa k =>
            match e_asn1_rs_andr E signature with
            | None => false
            | Some (_, _, true) => false
            | Some (r, s, false) => if (r <=? 0) || (s <=? 0) then false else e_ecdsa E k digest r s
            end
        | KOther _ => false
        end
    end.

  (** x509.go:809-833 CheckSignatureFrom: no error?  The exemption looks at the key of the child. *)
  Definition checkSignatureFrom (c parent : vcert) : bool :=
    if (((vc_version parent =? 3) && negb (vc_bc_valid parent)) || (vc_bc_valid parent && negb (vc_is_ca parent)))
       && negb (bytes_eqb (vc_raw_spki c) entrustBrokenSPKI) then false
    else if negb (vc_key_usage parent =? 0) && (Z.land (vc_key_usage parent) keyUsageCertSign =? 0) then false
    else if negb (vc_known_key parent) then false
    else xCheckSignature (vc_sig_algo c) (vc_raw_tbs c) (vc_signature c) (vc_key parent).

  (** cert_pool.go:45-67 findVerifiedParents: the indices (the rejected candidate is used only in the error text) *)
  Definition findVerifiedParents (s : cpool) (c : vcert) : list nat :=
    let candidates := if 0 <? zlen (vc_authority_key_id c) then idxGet (vc_authority_key_id c) (cp_by_ski s) else [] in
    let candidates := match candidates with [] => idxGet (vc_raw_issuer c) (cp_by_name s) | _ => candidates end in
    filter (fun n => match nth_error (cp_certs s) n with Some p => checkSignatureFrom c p | None => false end) candidates.

  Variable opts : voptions.

  (** verify.go:193-260 isValid: None = no error *)
  Definition isValid (c : vcert) (t : ctype) (currentChain : list vcert) : option cverr :=
    if match rev currentChain with child :: _ => negb (bytes_eqb (vc_raw_issuer child) (vc_raw_subject c)) | [] => false end
    then Some CvNameMismatch
    else if (vo_time opts <? vc_not_before c) || (vc_not_after c <? vo_time opts) then Some CvExpired
    else if (0 <? zlen (vc_permitted c)) && negb (existsb (matchNameConstraint V (vo_dns opts)) (vc_permitted c)) then Some CvNotAuthorizedForName
    else if existsb (matchNameConstraint V (vo_dns opts)) (vc_excluded c) then Some CvNotAuthorizedForName
    else if match t with IntermediateCertificate => negb (vc_bc_valid c) || negb (vc_is_ca c) | _ => false end then Some CvNotAuthorizedToSign
    else if vc_bc_valid c && (0 <=? vc_max_path_len c) && (vc_max_path_len c <? zlen currentChain - 1) then Some CvTooManyIntermediates
    else None.

  (** verify.go:355-370 the loop over the roots: chains and err *)
  Fixpoint rootsLoop (roots : list nat) (currentChain : list vcert) (chains : list (list vcert)) (err : option cverr)
    : list (list vcert) * option cverr :=
    match roots with
    | [] => (chains, err)
    | n :: t =>
        match nth_error (cp_certs (vo_roots opts)) n with
        | None => rootsLoop t currentChain chains err        (* not reached: indices are in range *)
        | Some root =>
            if existsb (fun c => vcEqual c root) currentChain then rootsLoop t currentChain chains err
            else match isValid root RootCertificate currentChain with
                 | Some e => rootsLoop t currentChain chains (Some e)
                 | None => rootsLoop t currentChain (chains ++ [currentChain ++ [root]]) None
                 end
        end
    end.

  Definition ccache := list (nat * list (list vcert)).
  Fixpoint cacheGet (n : nat) (m : ccache) : option (list (list vcert)) :=
    match m with [] => None | (k, v) :: t => if Nat.eqb n k then Some v else cacheGet n t end.

  (** verify.go:353-409 buildChains with [build] for the recursive call: the loop over the intermediates *)
  Fixpoint intersLoop (build : ccache -> vcert -> list vcert -> list (list vcert) * option cverr * ccache)
           (inters : list nat) (currentChain : list vcert) (chains : list (list vcert)) (err : option cverr) (cache : ccache)
    : list (list vcert) * option cverr * ccache :=
    match inters with
    | [] => (chains, err, cache)
    | n :: t =>
        match nth_error (cp_certs (vo_inter opts)) n with
        | None => intersLoop build t currentChain chains err cache        (* not reached *)
        | Some inter =>
            if existsb (fun c => vcEqual c inter) currentChain then intersLoop build t currentChain chains err cache
            else match isValid inter IntermediateCertificate currentChain with
                 | Some e => intersLoop build t currentChain chains (Some e) cache
                 | None =>
                     match cacheGet n cache with
                     | Some childChains => intersLoop build t currentChain (chains ++ childChains) None cache
                     | None =>
                         let '(childChains, err', cache') := build cache inter (currentChain ++ [inter]) in
                         intersLoop build t currentChain (chains ++ childChains) err' ((n, childChains) :: cache')
                     end
                 end
        end
    end.
  Fixpoint buildChains (fuel : nat) (cache : ccache) (c : vcert) (currentChain : list vcert)
    : list (list vcert) * option cverr * ccache :=
    match fuel with
    | O => ([], Some CvFuel, cache)
    | S fuel' =>
        let '(chains1, err1) := rootsLoop (findVerifiedParents (vo_roots opts) c) currentChain [] None in
        let '(chains2, err2, cache2) :=
            intersLoop (buildChains fuel') (findVerifiedParents (vo_inter opts) c) currentChain chains1 err1 cache in
        (chains2, match chains2 with
                  | _ :: _ => None
                  | [] => match err2 with None => Some CvUnknownAuthority | Some e => Some e end
                  end, cache2)
    end.

  (** verify.go:505-565 checkChainForKeyUsage: one certificate; the usages not yet crossed out are kept in place with -1 for
      those crossed out, [remaining] = usagesRemaining; None = return false *)
  Definition allowsUsage (c : vcert) (requested : Z) : bool :=
    existsb (fun usage => (requested =? usage)
                          || ((requested =? ekuServerAuth) && ((usage =? ekuNetscapeSGC) || (usage =? ekuMicrosoftSGC)))) (vc_eku c).
  Fixpoint usagesLoop (c : vcert) (usages : list Z) (remaining : Z) : option (list Z * Z) :=
    match usages with
    | [] => Some ([], remaining)
    | u :: t =>
        if (u =? -1) || allowsUsage c u
        then match usagesLoop c t remaining with Some (t', r) => Some (u :: t', r) | None => None end
        else if remaining - 1 =? 0 then None
             else match usagesLoop c t (remaining - 1) with Some (t', r) => Some ((-1) :: t', r) | None => None end
    end.
  Fixpoint usageChain (chain : list vcert) (usages : list Z) (remaining : Z) : bool :=
    match chain with
    | [] => true
    | c :: t =>
        if ((zlen (vc_eku c) =? 0) && (vc_unknown_eku c =? 0)) || existsb (fun u => u =? ekuAny) (vc_eku c)
        then usageChain t usages remaining
        else match usagesLoop c usages remaining with
             | None => false
             | Some (usages', remaining') => usageChain t usages' remaining'
             end
    end.
  (** from the last certificate to the first *)
  Definition checkChainForKeyUsage (chain : list vcert) (keyUsages : list Z) : bool :=
    match chain with [] => false | _ => usageChain (rev chain) keyUsages (zlen keyUsages) end.

  (** verify.go:269-344 Verify: chains and error.  Fuel: the length of the intermediates + 1 (proved sufficient). *)
  Definition verifyChains (c : vcert) : list (list vcert) * option cverr :=
    if zlen (vc_raw c) =? 0 then ([], Some CvNotParsed)
    else if existsb (fun i => zlen (vc_raw i) =? 0) (cp_certs (vo_inter opts)) then ([], Some CvNotParsed)
    else if 0 <? vc_unhandled c then ([], Some CvUnhandledCritical)
    else match isValid c LeafCertificate [] with
         | Some e => ([], Some e)
         | None =>
             if (0 <? zlen (vo_dns opts)) && negb (verifyHostname V c (vo_dns opts)) then ([], Some CvHostname)
             else
               let candidates :=
                   if poolContains (vo_roots opts) c then ([[c]], None)
                   else let '(ch, err, _) := buildChains (S (List.length (cp_certs (vo_inter opts)))) [] c [c] in (ch, err) in
               match candidates with
               | (_, Some e) => ([], Some e)
               | (candidateChains, None) =>
                   let keyUsages := match vo_usages opts with [] => [ekuServerAuth] | u => u end in
                   if existsb (fun u => u =? ekuAny) keyUsages then (candidateChains, None)
                   else match filter (fun ch => checkChainForKeyUsage ch keyUsages) candidateChains with
                        | [] => ([], Some CvIncompatibleUsage)
                        | chains => (chains, None)
                        end
               end
         end.
End WithEnv.
