(** C118: keys, written and read. *)
From Coq Require Import Lia ZifyBool.
From Verif.Model Require Import Bytes Env Asn1 GoTime GoUtf8 Pkcs7 X509 CertExt Keys.
From Verif.Spec Require Import Ber X509.
From Verif.Proofs Require Import BytesFacts BerFacts Pkcs7Facts Asn1Value X509Keys KeyFacts.

(** The numbers of a public key fit: a positive modulus and exponent; a point of the curve. *)
Definition public_fits (K : xenv) (k : gokey) : Prop :=
  match k with
  | GRsa n e => 0 < n /\ 0 < e < 2 ^ 63
  | GEcdsa c x y => 0 <= x < 256 ^ field_size c /\ 0 <= y < 256 ^ field_size c /\ k_point K c x y = true
  | _ => False
  end.
(** C118.  ParsePKIXPublicKey reads the key that MarshalPKIXPublicKey wrote. *)
Theorem C118_public : forall K k b, k_text K = goText -> public_fits K k -> marshalPublic K k = Some b -> zlen b < 2 ^ 31 -> parsePKIXPublicKey K b = Some k.
Proof.
  intros K [n e | y p q g | c x y |] b KX F M L; cbn [public_fits] in F; [| tauto | | tauto].
  - destruct F as [Hn He]. exact (marshal_pkix K n e b Hn He M L).
  - destruct F as (Hx & Hy & P). exact (public_ec K KX c x y b Hx Hy P M L).
Qed.
Print Assumptions C118_public.
(** ParsePKCS1PrivateKey reads the key that MarshalPKCS1PrivateKey wrote, and nothing may follow it: any number of primes, as long as they
    are positive and the key passes Validate (Precompute gives one pair for each prime after the second). *)
Theorem C118_rsa : forall K V n e d primes b rest, k_text K = goText -> 0 < n -> - 2 ^ 63 <= e < 2 ^ 63 -> 0 < d -> Forall (fun p => 0 < p) primes -> (2 <= List.length primes)%nat ->
  List.length (snd (ke_precompute V n d primes)) = (List.length primes - 2)%nat -> ke_validate V n e d primes = true ->
  marshalPKCS1PrivateKey K V n e d primes = Some b -> zlen b < 2 ^ 31 -> parsePKCS1PrivateKey K V (b ++ rest) = match rest with [] => Some (PRsa n e d primes) | _ => None end.
Proof. intros K V n e d primes b rest KX. apply rsa_round_trip. exact KX. Qed.
Print Assumptions C118_rsa.
(** ParseECPrivateKey reads the scalar that MarshalECPrivateKey wrote, and computes the point from its octets (exactly as many as the
    order of the curve has); what follows is ignored.  The point that was written is not read. *)
Theorem C118_ec : forall K V c d x y, k_text K = goText -> 0 <= d < curveOrder c -> exists octets, zlen octets = field_size c /\ be_val octets = d /\
  exists b, marshalECPrivateKey K c d x y = Some b /\ forall rest, parseECPrivateKey K V None (b ++ rest) = Some (PEcdsa c d (fst (ke_base V c octets)) (snd (ke_base V c octets))).
Proof.
  intros K V c d x y KX H. destruct (ec_round_trip K KX V c d x y H) as (octets & L & E & R). exists octets. split; [exact L|]. split; [exact E|].
  assert (W : exists b, marshalECPrivateKey K c d x y = Some b /\ zlen b < 2 ^ 31) by (now apply ec_written).
  destruct W as (b & W & LB). exists b. split; [exact W|]. intros rest. apply R; [exact W | exact LB | now left].
Qed.
Print Assumptions C118_ec.
(** Zero octets before the scalar, or missing there, make no difference: the key is the number, if it is below the order. *)
Theorem C118_ec_octets : forall K V octets c point b rest, k_text K = goText -> point <> [] ->
  marshal (k_text K) tyEcPrivate (VStruct [] [VInt 1; VBytes octets; VOid (oidFromNamedCurve c); VBits point 0]) = Some b -> zlen b < 2 ^ 31 ->
  exists padded, zlen padded = field_size c /\ (be_val octets < curveOrder c -> be_val padded = be_val octets) /\
    parseECPrivateKey K V None (b ++ rest) = if be_val octets <? curveOrder c then Some (PEcdsa c (be_val octets) (fst (ke_base V c padded)) (snd (ke_base V c padded))) else None.
Proof. intros K V octets c point b rest KX N M L. apply (ec_octets K KX V octets c point None b rest N M L). now left. Qed.
Print Assumptions C118_ec_octets.
(** ParsePKCS8PrivateKey reads the key inside, with the curve of the algorithm's parameters; what follows is ignored. *)
Theorem C118_pkcs8 : forall K V version inner b rest, k_text K = goText -> - 2 ^ 63 <= version < 2 ^ 63 -> zlen b < 2 ^ 31 ->
  (marshal (k_text K) tyPkcs8 (VStruct [] [VInt version; VStruct [] [VOid id_rsa; VRaw 0 5 false [] []]; VBytes inner]) = Some b ->
   parsePKCS8PrivateKey K V (b ++ rest) = parsePKCS1PrivateKey K V inner) /\
  (forall c params, marshal (k_text K) TyOid (VOid (curve_id c)) = Some params ->
   marshal (k_text K) tyPkcs8 (VStruct [] [VInt version; VStruct [] [VOid id_ec; VRaw 0 0 false [] params]; VBytes inner]) = Some b ->
   parsePKCS8PrivateKey K V (b ++ rest) = parseECPrivateKey K V (Some (curve_id c)) inner).
Proof.
  intros K V version inner b rest KX Hv L. split.
  - intros M. exact (pkcs8_rsa K KX V version inner b rest Hv M L).
  - intros c params MC M. exact (pkcs8_ec K KX V version c inner b rest params Hv MC M L).
Qed.
Print Assumptions C118_pkcs8.
(** What is accepted, from any bytes: positive numbers and at least two primes that pass Validate; a scalar below the order of the curve. *)
Theorem C118_checked : forall K V der k, parsePKCS1PrivateKey K V der = Some k \/ (exists named, parseECPrivateKey K V named der = Some k) \/ parsePKCS8PrivateKey K V der = Some k ->
  match k with
  | PRsa n e d primes => 0 < n /\ 0 < d /\ (2 <= List.length primes)%nat /\ Forall (fun p => 0 < p) primes /\ ke_validate V n e d primes = true
  | PEcdsa c d x y => 0 <= d < curveOrder c /\ exists octets, zlen octets = field_size c /\ be_val octets = d /\ ke_base V c octets = (x, y)
  end.
Proof.
  intros K V. assert (R : forall der k, parsePKCS1PrivateKey K V der = Some k -> match k with PRsa n e d primes => 0 < n /\ 0 < d /\ (2 <= List.length primes)%nat /\ Forall (fun p => 0 < p) primes /\ ke_validate V n e d primes = true | PEcdsa c d x y => 0 <= d < curveOrder c /\ exists octets, zlen octets = field_size c /\ be_val octets = d /\ ke_base V c octets = (x, y) end).
  { intros der k H. apply rsa_checked in H. destruct H as (n & e & d & p & q & more & -> & Hn & Hd & F & HV). split; [exact Hn|]. split; [exact Hd|]. split; [cbn; lia|]. split; assumption. }
  assert (C : forall der named k, parseECPrivateKey K V named der = Some k -> match k with PRsa n e d primes => 0 < n /\ 0 < d /\ (2 <= List.length primes)%nat /\ Forall (fun p => 0 < p) primes /\ ke_validate V n e d primes = true | PEcdsa c d x y => 0 <= d < curveOrder c /\ exists octets, zlen octets = field_size c /\ be_val octets = d /\ ke_base V c octets = (x, y) end).
  { intros der named k H. apply ec_checked in H. destruct H as (c & d & padded & -> & Hd & L & E). split; [exact Hd|]. exists padded. split; [exact L|]. split; [exact E|]. now destruct (ke_base V c padded). }
  intros der k [H | [[named H] | H]]; [now apply R in H | now apply C in H |].
  unfold parsePKCS8PrivateKey in H. destruct (unmarshal (k_text K) tyPkcs8 der) as [v [r|]]; [|discriminate]. cbv zeta in H.
  destruct (oidEqual (asOid (field 0 (field 1 v))) oidPublicKeyRSA); [now apply R in H|]. destruct (oidEqual (asOid (field 0 (field 1 v))) oidPublicKeyECDSA); [now apply C in H | discriminate].
Qed.
Print Assumptions C118_checked.

(** Not vacuous: an RSA key with three primes, an elliptic-curve key (also in PKCS #8), and a point. *)
Definition toy_text : xenv := {| k_text := goText; k_point := fun _ x y => x <? y; k_print := fun _ => [] |}.
Definition toy_keys : keyenv := {| ke_validate := fun n _ _ ps => n =? fold_left Z.mul ps 1; ke_precompute := fun _ d ps => (d, d, d, map (fun p => (p, p)) (skipn 2 ps)); ke_base := fun _ b => (be_val b, zlen b) |}.
Theorem C118_not_vacuous :
  (exists b, marshalPKCS1PrivateKey toy_text toy_keys 105 5 29 [3; 5; 7] = Some b /\ parsePKCS1PrivateKey toy_text toy_keys b = Some (PRsa 105 5 29 [3; 5; 7])) /\
  (exists b, marshalECPrivateKey toy_text P521 300 1 2 = Some b /\ parseECPrivateKey toy_text toy_keys None (b ++ [x00]) = Some (PEcdsa P521 300 300 66)) /\
  (exists b, marshalPublic toy_text (GEcdsa P256 7 8) = Some b /\ parsePKIXPublicKey toy_text b = Some (GEcdsa P256 7 8)) /\
  (exists b i o, marshal goText TyOid (VOid (curve_id P224)) = Some o /\ marshalECPrivateKey toy_text P224 9 1 2 = Some i /\
     marshal goText tyPkcs8 (VStruct [] [VInt 0; VStruct [] [VOid id_ec; VRaw 0 0 false [] o]; VBytes i]) = Some b /\ parsePKCS8PrivateKey toy_text toy_keys b = Some (PEcdsa P224 9 9 28)).
Proof.
  split; [|split; [|split]].
  - destruct (marshalPKCS1PrivateKey toy_text toy_keys 105 5 29 [3; 5; 7]) as [b|] eqn:E; [|vm_compute in E; discriminate E]. vm_compute in E. injection E as <-. eexists. split; [reflexivity|]. vm_compute. reflexivity.
  - destruct (marshalECPrivateKey toy_text P521 300 1 2) as [b|] eqn:E; [|vm_compute in E; discriminate E]. vm_compute in E. injection E as <-. eexists. split; [reflexivity|]. vm_compute. reflexivity.
  - destruct (marshalPublic toy_text (GEcdsa P256 7 8)) as [b|] eqn:E; [|vm_compute in E; discriminate E]. vm_compute in E. injection E as <-. eexists. split; [reflexivity|]. vm_compute. reflexivity.
  - destruct (marshal goText TyOid (VOid (curve_id P224))) as [o|] eqn:E1; [|vm_compute in E1; discriminate E1]. vm_compute in E1. injection E1 as <-.
    destruct (marshalECPrivateKey toy_text P224 9 1 2) as [i|] eqn:E2; [|vm_compute in E2; discriminate E2]. vm_compute in E2. injection E2 as <-.
    match goal with |- exists b i o, Some ?o0 = Some o /\ Some ?i0 = Some i /\ _ =>
      destruct (marshal goText tyPkcs8 (VStruct [] [VInt 0; VStruct [] [VOid id_ec; VRaw 0 0 false [] o0]; VBytes i0])) as [b|] eqn:E3; [|vm_compute in E3; discriminate E3]; exists b, i0, o0 end.
    split; [reflexivity|]. split; [reflexivity|]. split; [exact E3|]. vm_compute in E3. injection E3 as <-. vm_compute. reflexivity.
Qed.
Print Assumptions C118_not_vacuous.
(** A zero scalar is not refused. *)
Example C118_zero : exists b, marshalECPrivateKey toy_text P256 0 0 0 = Some b /\ parseECPrivateKey toy_text toy_keys None b = Some (PEcdsa P256 0 0 32).
Proof.
  destruct (marshalECPrivateKey toy_text P256 0 0 0) as [b|] eqn:E; [|vm_compute in E; discriminate E]. vm_compute in E. injection E as <-. eexists. split; [reflexivity|]. vm_compute. reflexivity.
Qed.
