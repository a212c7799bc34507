(** /repo/internal/x509andr: keys that are written and read (pkcs1.go, sec1.go, pkcs8.go, x509.go:76-130).
    They use encoding/asn1, of which asn1andr is a copy that also reads lengths and identifiers that are not minimal; what is written
    here has none. *)
From Verif.Model Require Import Bytes Env Asn1 Pkcs7 X509 CertExt.

(** Code outside the repository: rsa.PrivateKey.Validate, the values of Precompute (d mod p-1, d mod q-1, 1/q mod p, and one
    (exponent, coefficient) for each further prime), and ScalarBaseMult. *)
Record keyenv : Set := {
  ke_validate : Z -> Z -> Z -> list Z -> bool;
  ke_precompute : Z -> Z -> list Z -> Z * Z * Z * list (Z * Z);
  ke_base : curve -> bytes -> Z * Z
}.
(** rsa.PrivateKey: modulus, exponents, primes; ecdsa.PrivateKey: curve, scalar, point *)
Inductive privkey : Set := PRsa (n e d : Z) (primes : list Z) | PEcdsa (c : curve) (d x y : Z).

(** pkcs1.go:15-36 pkcs1PrivateKey, pkcs1AdditionalRSAPrime *)
Definition pOptionalOmit : fparams := {| fp_optional := true; fp_explicit := false; fp_application := false; fp_private := false;
  fp_default := None; fp_tag := None; fp_stringType := 0; fp_set := false; fp_omitEmpty := true |}.
Definition tyOtherPrime : gotype := TyStruct false (FCons noParams TyBig (FCons noParams TyBig (FCons noParams TyBig FNil))).
Definition tyPkcs1Private : gotype := TyStruct false
  (FCons noParams TyInt (FCons noParams TyBig (FCons noParams TyInt (FCons noParams TyBig (FCons noParams TyBig (FCons noParams TyBig
  (FCons pOptional TyBig (FCons pOptional TyBig (FCons pOptional TyBig (FCons pOptionalOmit (TySlice false tyOtherPrime) FNil)))))))))).
(** sec1.go:25-30 ecPrivateKey *)
Definition tyEcPrivate : gotype := TyStruct false
  (FCons noParams TyInt (FCons noParams TyBytes (FCons (pExplicitTag 0) TyOid (FCons (pExplicitTag 1) TyBits FNil)))).
(** pkcs8.go:17-22 pkcs8 *)
Definition tyPkcs8 : gotype := TyStruct false (FCons noParams TyInt (FCons noParams tyAlgorithm (FCons noParams TyBytes FNil))).

(** elliptic.CurveParams: the order of the base point, and the octets it takes ((BitLen+7)/8) *)
Definition curveOrder (c : curve) : Z :=
  match c with
  | P224 => 26959946667150639794667015087019625940457807714424391721682722368061
  | P256 => 115792089210356248762697446949407573529996955224135760342422259061068512044369
  | P384 => 39402006196394479212279040100143613805079739270465446667946905279627659399113263569398956308152294913554433653942643
  | P521 => 6864797660130609714981900799081393217269435300143305409394463459185543183397655394245057746333217197532963996371363321113864768612440380340372808892707005449
  end.
Definition orderLen (c : curve) : Z := (bitLen (curveOrder c) + 7) / 8.

(** x509.go:523-536 oidFromNamedCurve *)
Definition oidFromNamedCurve (c : curve) : oid :=
  match c with P224 => [1; 3; 132; 0; 33] | P256 => [1; 2; 840; 10045; 3; 1; 7] | P384 => [1; 3; 132; 0; 34] | P521 => [1; 3; 132; 0; 35] end.
(** crypto/elliptic Marshal (standard library): FillBytes panics when a coordinate needs more octets; here they are reduced *)
Definition ellipticMarshal (c : curve) (x y : Z) : bytes :=
  x04 :: be_enc (Z.to_nat (byteLen c)) x ++ be_enc (Z.to_nat (byteLen c)) y.

Section WithEnv.
  Variable K : xenv.
  Variable V : keyenv.
  Notation X := (k_text K).

  (** x509.go:76-130 marshalPublicKey and MarshalPKIXPublicKey (parameters with FullBytes are written as they are) *)
  Definition marshalPublic (k : gokey) : option bytes :=
    match k with
    | GRsa n e => marshalPKIXPublicKey K n e
    | GEcdsa c x y =>
        match marshal X TyOid (VOid (oidFromNamedCurve c)) with
        | None => None
        | Some p => let b := ellipticMarshal c x y in
            marshal X tyPkixPublicKey (VStruct [] [VStruct [] [VOid oidPublicKeyECDSA; VRaw 0 0 false [] p]; VBits b (8 * zlen b)])
        end
    | _ => None
    end.

  (** pkcs1.go:44-88 ParsePKCS1PrivateKey *)
  Definition parsePKCS1PrivateKey (der : bytes) : option privkey :=
    match unmarshalAll K tyPkcs1Private der with
    | None => None
    | Some v =>
        let n := asInt (field 1 v) in let e := asInt (field 2 v) in let d := asInt (field 3 v) in
        let p := asInt (field 4 v) in let q := asInt (field 5 v) in
        let more := map (fun a => asInt (field 0 a)) (asSlice (field 9 v)) in
        if 1 <? asInt (field 0 v) then None
        else if (n <=? 0) || (d <=? 0) || (p <=? 0) || (q <=? 0) then None
        else if negb (forallb (fun a => 0 <? a) more) then None
        else if ke_validate V n e d (p :: q :: more) then Some (PRsa n e d (p :: q :: more)) else None
    end.
  (** pkcs1.go:91-121 MarshalPKCS1PrivateKey; None = panic (fewer than two primes) or an error, which is ignored there *)
  Definition marshalPKCS1PrivateKey (n e d : Z) (primes : list Z) : option bytes :=
    match primes with
    | p :: q :: more =>
        let '(dp, dq, qinv, crt) := ke_precompute V n d primes in
        marshal X tyPkcs1Private (VStruct [] [VInt (match more with [] => 0 | _ => 1 end); VInt n; VInt e; VInt d; VInt p; VInt q; VInt dp; VInt dq; VInt qinv;
          VSlice (map (fun a => VStruct [] [VInt (fst a); VInt (fst (snd a)); VInt (snd (snd a))]) (combine more crt))])
    | _ => None
    end.

  (** sec1.go:90-97: dropping zero octets from the front of a key that is too long *)
  Fixpoint dropPadding (size : Z) (b : bytes) : option bytes :=
    match b with
    | x :: t => if size <? zlen b then (if b2z x =? 0 then dropPadding size t else None) else Some b
    | [] => Some []
    end.
  (** sec1.go:60-105 parseECPrivateKey; what follows the structure is ignored *)
  Definition parseECPrivateKey (named : option oid) (der : bytes) : option privkey :=
    match unmarshal X tyEcPrivate der with
    | (_, None) => None
    | (v, Some _) =>
        if negb (asInt (field 0 v) =? 1) then None
        else match namedCurveFromOID (match named with Some o => o | None => asOid (field 2 v) end) with
             | None => None
             | Some c =>
                 let b := asBytes (field 1 v) in
                 let k := be_acc 0 b in
                 if curveOrder c <=? k then None
                 else match dropPadding (orderLen c) b with
                      | None => None
                      | Some s => let '(x, y) := ke_base V c (repeat x00 (Z.to_nat (orderLen c - zlen s)) ++ s) in Some (PEcdsa c k x y)
                      end
             end
    end.
  (** sec1.go:38-54 MarshalECPrivateKey; None also if the scalar needs more octets than the order (a panic).  The BitString's BitLength is 0. *)
  Definition marshalECPrivateKey (c : curve) (d x y : Z) : option bytes :=
    let b := bigBytes d in
    if orderLen c <? zlen b then None
    else marshal X tyEcPrivate (VStruct [] [VInt 1; VBytes (repeat x00 (Z.to_nat (orderLen c - zlen b)) ++ b); VOid (oidFromNamedCurve c); VBits (ellipticMarshal c x y) 0]).

  (** pkcs8.go:26-54 ParsePKCS8PrivateKey; what follows the structure is ignored *)
  Definition parsePKCS8PrivateKey (der : bytes) : option privkey :=
    match unmarshal X tyPkcs8 der with
    | (_, None) => None
    | (v, Some _) =>
        let o := asOid (field 0 (field 1 v)) in
        let key := asBytes (field 2 v) in
        if oidEqual o oidPublicKeyRSA then parsePKCS1PrivateKey key
        else if oidEqual o oidPublicKeyECDSA then
          parseECPrivateKey (match unmarshal X TyOid (rawFull (field 1 (field 1 v))) with (n, Some _) => Some (asOid n) | _ => None end) key
        else None
    end.
End WithEnv.
