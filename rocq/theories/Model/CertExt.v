(** The values of certificate extensions in x509andr, read and written.  Model/X509.v has only whether a certificate is accepted. *)
From Verif.Model Require Import Bytes Env Asn1 Pkcs7 X509.

(** x509.go:638-702 Certificate: the fields that come from extensions *)
Record certExt : Set := mkExt {
  xe_keyUsage : Z;
  xe_bcValid : bool;
  xe_isCA : bool;
  xe_maxPathLen : Z;
  xe_maxPathLenZero : bool;
  xe_ski : bytes;
  xe_aki : bytes;
  xe_ocsp : list bytes;
  xe_issuing : list bytes;
  xe_dns : list bytes;
  xe_emails : list bytes;
  xe_ips : list bytes;
  xe_permCritical : bool;
  xe_permitted : list bytes;
  xe_excluded : list bytes;
  xe_crl : list bytes;
  xe_policies : list oid;
  xe_eku : list Z;
  xe_unknownEku : list oid;
  xe_unhandled : list oid }.
Definition set_keyUsage (v_keyUsage : Z) (c : certExt) : certExt := {| xe_keyUsage := v_keyUsage; xe_bcValid := xe_bcValid c; xe_isCA := xe_isCA c; xe_maxPathLen := xe_maxPathLen c; xe_maxPathLenZero := xe_maxPathLenZero c; xe_ski := xe_ski c; xe_aki := xe_aki c; xe_ocsp := xe_ocsp c; xe_issuing := xe_issuing c; xe_dns := xe_dns c; xe_emails := xe_emails c; xe_ips := xe_ips c; xe_permCritical := xe_permCritical c; xe_permitted := xe_permitted c; xe_excluded := xe_excluded c; xe_crl := xe_crl c; xe_policies := xe_policies c; xe_eku := xe_eku c; xe_unknownEku := xe_unknownEku c; xe_unhandled := xe_unhandled c |}.
Definition set_basic (v_bcValid : bool) (v_isCA : bool) (v_maxPathLen : Z) (v_maxPathLenZero : bool) (c : certExt) : certExt := {| xe_keyUsage := xe_keyUsage c; xe_bcValid := v_bcValid; xe_isCA := v_isCA; xe_maxPathLen := v_maxPathLen; xe_maxPathLenZero := v_maxPathLenZero; xe_ski := xe_ski c; xe_aki := xe_aki c; xe_ocsp := xe_ocsp c; xe_issuing := xe_issuing c; xe_dns := xe_dns c; xe_emails := xe_emails c; xe_ips := xe_ips c; xe_permCritical := xe_permCritical c; xe_permitted := xe_permitted c; xe_excluded := xe_excluded c; xe_crl := xe_crl c; xe_policies := xe_policies c; xe_eku := xe_eku c; xe_unknownEku := xe_unknownEku c; xe_unhandled := xe_unhandled c |}.
Definition set_san (v_dns : list bytes) (v_emails : list bytes) (v_ips : list bytes) (c : certExt) : certExt := {| xe_keyUsage := xe_keyUsage c; xe_bcValid := xe_bcValid c; xe_isCA := xe_isCA c; xe_maxPathLen := xe_maxPathLen c; xe_maxPathLenZero := xe_maxPathLenZero c; xe_ski := xe_ski c; xe_aki := xe_aki c; xe_ocsp := xe_ocsp c; xe_issuing := xe_issuing c; xe_dns := v_dns; xe_emails := v_emails; xe_ips := v_ips; xe_permCritical := xe_permCritical c; xe_permitted := xe_permitted c; xe_excluded := xe_excluded c; xe_crl := xe_crl c; xe_policies := xe_policies c; xe_eku := xe_eku c; xe_unknownEku := xe_unknownEku c; xe_unhandled := xe_unhandled c |}.
Definition set_constraints (v_permitted : list bytes) (v_excluded : list bytes) (v_permCritical : bool) (c : certExt) : certExt := {| xe_keyUsage := xe_keyUsage c; xe_bcValid := xe_bcValid c; xe_isCA := xe_isCA c; xe_maxPathLen := xe_maxPathLen c; xe_maxPathLenZero := xe_maxPathLenZero c; xe_ski := xe_ski c; xe_aki := xe_aki c; xe_ocsp := xe_ocsp c; xe_issuing := xe_issuing c; xe_dns := xe_dns c; xe_emails := xe_emails c; xe_ips := xe_ips c; xe_permCritical := v_permCritical; xe_permitted := v_permitted; xe_excluded := v_excluded; xe_crl := xe_crl c; xe_policies := xe_policies c; xe_eku := xe_eku c; xe_unknownEku := xe_unknownEku c; xe_unhandled := xe_unhandled c |}.
Definition set_crl (v_crl : list bytes) (c : certExt) : certExt := {| xe_keyUsage := xe_keyUsage c; xe_bcValid := xe_bcValid c; xe_isCA := xe_isCA c; xe_maxPathLen := xe_maxPathLen c; xe_maxPathLenZero := xe_maxPathLenZero c; xe_ski := xe_ski c; xe_aki := xe_aki c; xe_ocsp := xe_ocsp c; xe_issuing := xe_issuing c; xe_dns := xe_dns c; xe_emails := xe_emails c; xe_ips := xe_ips c; xe_permCritical := xe_permCritical c; xe_permitted := xe_permitted c; xe_excluded := xe_excluded c; xe_crl := v_crl; xe_policies := xe_policies c; xe_eku := xe_eku c; xe_unknownEku := xe_unknownEku c; xe_unhandled := xe_unhandled c |}.
Definition set_aki (v_aki : bytes) (c : certExt) : certExt := {| xe_keyUsage := xe_keyUsage c; xe_bcValid := xe_bcValid c; xe_isCA := xe_isCA c; xe_maxPathLen := xe_maxPathLen c; xe_maxPathLenZero := xe_maxPathLenZero c; xe_ski := xe_ski c; xe_aki := v_aki; xe_ocsp := xe_ocsp c; xe_issuing := xe_issuing c; xe_dns := xe_dns c; xe_emails := xe_emails c; xe_ips := xe_ips c; xe_permCritical := xe_permCritical c; xe_permitted := xe_permitted c; xe_excluded := xe_excluded c; xe_crl := xe_crl c; xe_policies := xe_policies c; xe_eku := xe_eku c; xe_unknownEku := xe_unknownEku c; xe_unhandled := xe_unhandled c |}.
Definition set_eku (v_eku : list Z) (v_unknownEku : list oid) (c : certExt) : certExt := {| xe_keyUsage := xe_keyUsage c; xe_bcValid := xe_bcValid c; xe_isCA := xe_isCA c; xe_maxPathLen := xe_maxPathLen c; xe_maxPathLenZero := xe_maxPathLenZero c; xe_ski := xe_ski c; xe_aki := xe_aki c; xe_ocsp := xe_ocsp c; xe_issuing := xe_issuing c; xe_dns := xe_dns c; xe_emails := xe_emails c; xe_ips := xe_ips c; xe_permCritical := xe_permCritical c; xe_permitted := xe_permitted c; xe_excluded := xe_excluded c; xe_crl := xe_crl c; xe_policies := xe_policies c; xe_eku := v_eku; xe_unknownEku := v_unknownEku; xe_unhandled := xe_unhandled c |}.
Definition set_ski (v_ski : bytes) (c : certExt) : certExt := {| xe_keyUsage := xe_keyUsage c; xe_bcValid := xe_bcValid c; xe_isCA := xe_isCA c; xe_maxPathLen := xe_maxPathLen c; xe_maxPathLenZero := xe_maxPathLenZero c; xe_ski := v_ski; xe_aki := xe_aki c; xe_ocsp := xe_ocsp c; xe_issuing := xe_issuing c; xe_dns := xe_dns c; xe_emails := xe_emails c; xe_ips := xe_ips c; xe_permCritical := xe_permCritical c; xe_permitted := xe_permitted c; xe_excluded := xe_excluded c; xe_crl := xe_crl c; xe_policies := xe_policies c; xe_eku := xe_eku c; xe_unknownEku := xe_unknownEku c; xe_unhandled := xe_unhandled c |}.
Definition set_policies (v_policies : list oid) (c : certExt) : certExt := {| xe_keyUsage := xe_keyUsage c; xe_bcValid := xe_bcValid c; xe_isCA := xe_isCA c; xe_maxPathLen := xe_maxPathLen c; xe_maxPathLenZero := xe_maxPathLenZero c; xe_ski := xe_ski c; xe_aki := xe_aki c; xe_ocsp := xe_ocsp c; xe_issuing := xe_issuing c; xe_dns := xe_dns c; xe_emails := xe_emails c; xe_ips := xe_ips c; xe_permCritical := xe_permCritical c; xe_permitted := xe_permitted c; xe_excluded := xe_excluded c; xe_crl := xe_crl c; xe_policies := v_policies; xe_eku := xe_eku c; xe_unknownEku := xe_unknownEku c; xe_unhandled := xe_unhandled c |}.
Definition set_aia (v_ocsp : list bytes) (v_issuing : list bytes) (c : certExt) : certExt := {| xe_keyUsage := xe_keyUsage c; xe_bcValid := xe_bcValid c; xe_isCA := xe_isCA c; xe_maxPathLen := xe_maxPathLen c; xe_maxPathLenZero := xe_maxPathLenZero c; xe_ski := xe_ski c; xe_aki := xe_aki c; xe_ocsp := v_ocsp; xe_issuing := v_issuing; xe_dns := xe_dns c; xe_emails := xe_emails c; xe_ips := xe_ips c; xe_permCritical := xe_permCritical c; xe_permitted := xe_permitted c; xe_excluded := xe_excluded c; xe_crl := xe_crl c; xe_policies := xe_policies c; xe_eku := xe_eku c; xe_unknownEku := xe_unknownEku c; xe_unhandled := xe_unhandled c |}.
Definition set_unhandled (v_unhandled : list oid) (c : certExt) : certExt := {| xe_keyUsage := xe_keyUsage c; xe_bcValid := xe_bcValid c; xe_isCA := xe_isCA c; xe_maxPathLen := xe_maxPathLen c; xe_maxPathLenZero := xe_maxPathLenZero c; xe_ski := xe_ski c; xe_aki := xe_aki c; xe_ocsp := xe_ocsp c; xe_issuing := xe_issuing c; xe_dns := xe_dns c; xe_emails := xe_emails c; xe_ips := xe_ips c; xe_permCritical := xe_permCritical c; xe_permitted := xe_permitted c; xe_excluded := xe_excluded c; xe_crl := xe_crl c; xe_policies := xe_policies c; xe_eku := xe_eku c; xe_unknownEku := xe_unknownEku c; xe_unhandled := v_unhandled |}.
Definition noExt : certExt := mkExt 0 false false 0 false [] [] [] [] [] [] [] false [] [] [] [] [] [] [].

(** x509.go:567-583 and 601-617 extKeyUsageOIDs: the constants are the places in the list. *)
Definition extKeyUsageOIDs : list oid :=
  [[2; 5; 29; 37; 0]; [1; 3; 6; 1; 5; 5; 7; 3; 1]; [1; 3; 6; 1; 5; 5; 7; 3; 2]; [1; 3; 6; 1; 5; 5; 7; 3; 3]; [1; 3; 6; 1; 5; 5; 7; 3; 4];
   [1; 3; 6; 1; 5; 5; 7; 3; 5]; [1; 3; 6; 1; 5; 5; 7; 3; 6]; [1; 3; 6; 1; 5; 5; 7; 3; 7]; [1; 3; 6; 1; 5; 5; 7; 3; 8]; [1; 3; 6; 1; 5; 5; 7; 3; 9];
   [1; 3; 6; 1; 4; 1; 311; 10; 3; 3]; [2; 16; 840; 1; 113730; 4; 1]].
(** x509.go:619-626 extKeyUsageFromOID *)
Fixpoint ekuFrom (o : oid) (n : Z) (l : list oid) : option Z :=
  match l with [] => None | x :: t => if oidEqual o x then Some n else ekuFrom o (n + 1) t end.
Definition extKeyUsageFromOID (o : oid) : option Z := ekuFrom o 0 extKeyUsageOIDs.
(** x509.go:628-635 oidFromExtKeyUsage *)
Definition oidFromExtKeyUsage (u : Z) : option oid := if u <? 0 then None else nth_error extKeyUsageOIDs (Z.to_nat u).

(** encoding/asn1 BitString.At: the bit [i], 0 behind the end *)
Definition bitAt (b : bytes) (n i : Z) : bool :=
  if (i <? 0) || (n <=? i) then false else Z.testbit (b2z (nth (Z.to_nat (i / 8)) b x00)) (7 - i mod 8).
(** x509.go:1183-1188: bits 0 to 8 *)
Definition usageOf (b : bytes) (n : Z) : Z :=
  fold_left (fun u i => if bitAt b n i then Z.lor u (Z.shiftl 1 i) else u) [0; 1; 2; 3; 4; 5; 6; 7; 8] 0.

Definition asString (v : goval) : bytes := match v with VString s => s | _ => [] end.
Definition asBool (v : goval) : bool := match v with VBool b => b | _ => false end.
Definition rawTag (v : goval) : Z := match v with VRaw _ t _ _ _ => t | _ => 0 end.
Definition oidAiaOcsp : oid := [1; 3; 6; 1; 5; 5; 7; 48; 1].
Definition oidAiaIssuers : oid := [1; 3; 6; 1; 5; 5; 7; 48; 2].

Section WithEnv.
  Variable K : xenv.
  Notation X := (k_text K).

  (** x509.go:1063-1117 parseSANExtension: DNS names, e-mail addresses, IP addresses *)
  Fixpoint sanValues (fuel : nat) (d e i : list bytes) (rest : bytes) : option (list bytes * list bytes * list bytes) :=
    match rest with
    | [] => Some (d, e, i)
    | _ =>
        match fuel with
        | O => None
        | Datatypes.S f =>
            match unmarshal X TyRaw rest with
            | (VRaw _ tag _ b _, Some r) =>
                if tag =? 1 then sanValues f d (e ++ [b]) i r
                else if tag =? 2 then sanValues f (d ++ [b]) e i r
                else if tag =? 7 then (if (zlen b =? 4) || (zlen b =? 16) then sanValues f d e (i ++ [b]) r else None)
                else sanValues f d e i r
            | _ => None
            end
        end
    end.
  Definition parseSANs (value : bytes) : option (list bytes * list bytes * list bytes) :=
    match unmarshalAll K TyRaw value with
    | Some (VRaw class tag compound b _) =>
        if negb compound || negb (tag =? 16) || negb (class =? 0) then None else sanValues (List.length b) [] [] [] b
    | _ => None
    end.
  (** x509.go:1239-1254 getDNSNames *)
  Fixpoint getDNSNames (critical : bool) (l : list goval) : option (list bytes) :=
    match l with
    | [] => Some []
    | s :: t =>
        match field 0 s with
        | VString [] => if critical then None else getDNSNames critical t
        | name => option_map (cons (asString name)) (getDNSNames critical t)
        end
    end.
  (** x509.go:1282-1299: the URLs of distribution points *)
  Fixpoint crlNames (l : list goval) : option (list bytes) :=
    match l with
    | [] => Some []
    | dp :: t =>
        match rawBytes (field 0 (field 0 dp)) with
        | [] => crlNames t
        | b => match unmarshal X TyRaw b with
               | (n, Some _) => option_map (fun r => if rawTag n =? 6 then rawBytes n :: r else r) (crlNames t)
               | _ => None
               end
        end
    end.
  (** x509.go:1327-1333 *)
  Definition addUsages (l : list oid) (c : certExt) : certExt :=
    fold_left (fun c u => match extKeyUsageFromOID u with
                          | Some n => set_eku (xe_eku c ++ [n]) (xe_unknownEku c) c
                          | None => set_eku (xe_eku c) (xe_unknownEku c ++ [u]) c
                          end) l c.
  (** x509.go:1371-1381 *)
  Definition addAccess (l : list goval) (c : certExt) : certExt :=
    fold_left (fun c v => if negb (rawTag (field 1 v) =? 6) then c
                          else if oidEqual (asOid (field 0 v)) oidAiaOcsp then set_aia (xe_ocsp c ++ [rawBytes (field 1 v)]) (xe_issuing c) c
                          else if oidEqual (asOid (field 0 v)) oidAiaIssuers then set_aia (xe_ocsp c) (xe_issuing c ++ [rawBytes (field 1 v)]) c
                          else c) l c.

  (** x509.go:1172-1386 one extension: the fields and whether it is unhandled; None = the certificate is rejected.  (When a critical name
      constraint has an empty name the code returns the certificate together with an error.) *)
  Definition knownExt (x : Z) (critical : bool) (value : bytes) (c : certExt) : option (certExt * bool) :=
    if x =? 15 then
      match unmarshalAll K TyBits value with Some v => Some (set_keyUsage (match v with VBits b n => usageOf b n | _ => 0 end) c, false) | None => None end
    else if x =? 19 then
      match unmarshalAll K tyBasicConstraints value with
      | Some v => let n := asInt (field 1 v) in Some (set_basic true (asBool (field 0 v)) n (n =? 0) c, false)
      | None => None
      end
    else if x =? 17 then
      match parseSANs value with
      | Some (d, e, i) => Some (set_san d e i c, match d, e, i with [], [], [] => true | _, _, _ => false end)
      | None => None
      end
    else if x =? 30 then
      match unmarshalAll K tyNameConstraints value with
      | Some v =>
          match getDNSNames critical (asSlice (field 0 v)), getDNSNames critical (asSlice (field 1 v)) with
          | Some p, Some e => Some (set_constraints p e critical c, false)
          | _, _ => None
          end
      | None => None
      end
    else if x =? 31 then
      match unmarshalAll K tyDistributionPoints value with
      | Some v => match crlNames (asSlice v) with Some l => Some (set_crl (xe_crl c ++ l) c, false) | None => None end
      | None => None
      end
    else if x =? 35 then
      match unmarshalAll K tyAuthKeyId value with Some v => Some (set_aki (asBytes (field 0 v)) c, false) | None => None end
    else if x =? 37 then
      match unmarshalAll K (TySlice false TyOid) value with Some v => Some (addUsages (map asOid (asSlice v)) c, false) | None => None end
    else if x =? 14 then
      match unmarshalAll K TyBytes value with Some v => Some (set_ski (asBytes v) c, false) | None => None end
    else if x =? 32 then
      match unmarshalAll K tyPolicies value with Some v => Some (set_policies (map (fun p => asOid (field 0 p)) (asSlice v)) c, false) | None => None end
    else Some (c, true).
  Definition oneExt (id : oid) (critical : bool) (value : bytes) (c : certExt) : option (certExt * bool) :=
    let aia := if oidEqual id oidAia then match unmarshalAll K tyAia value with Some v => Some (addAccess (asSlice v) c, false) | None => None end else Some (c, true) in
    match id with
    | [a; b; d; x] => if (a =? 2) && (b =? 5) && (d =? 29) then knownExt x critical value c else aia
    | _ => aia
    end.
  (** x509.go:1168-1391 the loop of parseCertificate *)
  Fixpoint certExtensions (l : list goval) (c : certExt) : option certExt :=
    match l with
    | [] => Some c
    | e :: t =>
        let id := asOid (field 0 e) in
        let critical := asBool (field 1 e) in
        match oneExt id critical (asBytes (field 2 e)) c with
        | None => None
        | Some (c', unhandled) => certExtensions t (if critical && unhandled then set_unhandled (xe_unhandled c' ++ [id]) c' else c')
        end
    end.

  (** *** Writing *)
  (** x509.go:1492-1497 reverseBitsInAByte *)
  Definition reverseBitsInAByte (b : Z) : Z :=
    let b1 := Z.land (Z.lor (Z.shiftr b 4) (Z.shiftl b 4)) 255 in
    let b2 := Z.land (Z.lor (Z.land (Z.shiftr b1 2) 51) (Z.land (Z.shiftl b1 2) 204)) 255 in
    Z.land (Z.lor (Z.land (Z.shiftr b2 1) 85) (Z.land (Z.shiftl b2 1) 170)) 255.
  (** x509.go:1502-1517 asn1BitLength: the position behind the last bit that is set; the octets are given last one first *)
  Fixpoint lowestBit (b : Z) (bit : Z) (n : nat) : option Z :=
    match n with O => None | Datatypes.S m => if Z.testbit b bit then Some bit else lowestBit b (bit + 1) m end.
  Fixpoint bitLengthOf (rev : list Z) : Z :=
    match rev with
    | [] => 0
    | b :: t => match lowestBit b 0 8 with Some k => 8 * (zlen t + 1) - k | None => bitLengthOf t end
    end.
  (** net.IP.To4 *)
  Definition ipTo4 (ip : bytes) : option bytes :=
    if zlen ip =? 4 then Some ip
    else if (zlen ip =? 16) && forallb (fun b => b2z b =? 0) (takeZ 10 ip) && (b2z (nth 10 ip x00) =? 255) && (b2z (nth 11 ip x00) =? 255) then Some (dropZ 12 ip)
    else None.
  (** x509.go:1550-1567 marshalSANs; encoding/asn1.Marshal differs from asn1andr in the order of SETs only, and there are none here *)
  Definition otherName (tag : Z) (b : bytes) : goval := VRaw 2 tag false b [].
  Definition marshalSANs (dns emails ips : list bytes) : option bytes :=
    marshal X (TySlice false TyRaw) (VSlice (map (otherName 2) dns ++ map (otherName 1) emails ++
      map (fun ip => otherName 7 (match ipTo4 ip with Some x => x | None => ip end)) ips)).
  Definition ext (x : Z) (critical : bool) (value : option bytes) : option (list goval) :=
    match value with Some v => Some [VStruct [] [VOid [2; 5; 29; x]; VBool critical; VBytes v]] | None => None end.
  Definition andThen {A B} (x : option A) (f : A -> option B) : option B := match x with Some a => f a | None => None end.
  Definition unless (b : bool) (e : option (list goval)) : option (list goval) := if b then e else Some [].
  Definition subtreesVal (l : list bytes) : goval := VSlice (map (fun n => VStruct [] [VString n]) l).
  Definition accessVal (o : oid) (name : bytes) : goval := VStruct [] [VOid o; otherName 6 name].
  (** x509.go:1726-1738: one URL of a revocation list *)
  Definition pointVal (name : bytes) : goval :=
    VStruct [] [VStruct [] [VRaw 2 0 true (match marshal X TyRaw (otherName 6 name) with Some b => b | None => [] end) []; VNil]; VBits [] 0; VRaw 0 0 false [] []].
  Fixpoint usageOids (l : list Z) : option (list oid) :=
    match l with [] => Some [] | u :: t => match oidFromExtKeyUsage u, usageOids t with Some o, Some r => Some (o :: r) | _, _ => None end end.
  (** x509.go:1569-1752 buildExtensions, for a template without ExtraExtensions; None = error (or the panic of an unknown extended key usage) *)
  Definition buildExtensions (t : certExt) (authorityKeyId : bytes) : option (list goval) :=
    let some {A} (l : list A) := negb (zlen l =? 0) in
    let k0 := reverseBitsInAByte (xe_keyUsage t mod 256) in
    let k1 := reverseBitsInAByte (xe_keyUsage t / 256 mod 256) in
    let bits := if k1 =? 0 then [k0] else [k0; k1] in
    let pathLen := if (xe_maxPathLen t =? 0) && negb (xe_maxPathLenZero t) then -1 else xe_maxPathLen t in
    andThen (unless (negb (xe_keyUsage t =? 0)) (ext 15 true (marshal X TyBits (VBits (map z2b bits) (bitLengthOf (rev bits)))))) (fun e1 =>
    andThen (unless (some (xe_eku t) || some (xe_unknownEku t))
             (match usageOids (xe_eku t) with Some l => ext 37 false (marshal X (TySlice false TyOid) (VSlice (map VOid (l ++ xe_unknownEku t)))) | None => None end)) (fun e2 =>
    andThen (unless (xe_bcValid t) (ext 19 true (marshal X tyBasicConstraints (VStruct [] [VBool (xe_isCA t); VInt pathLen])))) (fun e3 =>
    andThen (unless (some (xe_ski t)) (ext 14 false (marshal X TyBytes (VBytes (xe_ski t))))) (fun e4 =>
    andThen (unless (some authorityKeyId) (ext 35 false (marshal X tyAuthKeyId (VStruct [] [VBytes authorityKeyId])))) (fun e5 =>
    andThen (unless (some (xe_ocsp t) || some (xe_issuing t))
             (match marshal X tyAia (VSlice (map (accessVal oidAiaOcsp) (xe_ocsp t) ++ map (accessVal oidAiaIssuers) (xe_issuing t))) with
              | Some v => Some [VStruct [] [VOid oidAia; VBool false; VBytes v]] | None => None end)) (fun e6 =>
    andThen (unless (some (xe_dns t) || some (xe_emails t) || some (xe_ips t)) (ext 17 false (marshalSANs (xe_dns t) (xe_emails t) (xe_ips t)))) (fun e7 =>
    andThen (unless (some (xe_policies t)) (ext 32 false (marshal X tyPolicies (VSlice (map (fun p => VStruct [] [VOid p]) (xe_policies t)))))) (fun e8 =>
    andThen (unless (some (xe_permitted t) || some (xe_excluded t))
             (ext 30 (xe_permCritical t) (marshal X tyNameConstraints (VStruct [] [subtreesVal (xe_permitted t); subtreesVal (xe_excluded t)])))) (fun e9 =>
    andThen (unless (some (xe_crl t)) (ext 31 false (marshal X tyDistributionPoints (VSlice (map pointVal (xe_crl t)))))) (fun e10 =>
    Some (e1 ++ e2 ++ e3 ++ e4 ++ e5 ++ e6 ++ e7 ++ e8 ++ e9 ++ e10))))))))))).
End WithEnv.
