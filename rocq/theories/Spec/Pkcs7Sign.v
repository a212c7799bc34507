(** Making a SignedData object and reading it back (C87). *)
From Coq Require Import Permutation.
From Verif.Model Require Import Bytes Env Asn1 X509 Pkcs7Verify Pkcs7Sign.
From Verif.Spec Require Import Ber Asn1 Pkcs7 Pkcs7Verify.

(** The calls a program makes between NewSignedData and Finish.  A signer comes with its key, the encoded time of signing
    and additional attributes, whose values are encoded. *)
Inductive call : Set :=
| CSigner (c : scert) (key : bytes) (now : bytes) (extra : list (oid * bytes))
| CCertificate (c : scert)
| CDetach.
Definition certificates (calls : list call) : list scert :=
  flat_map (fun x => match x with CSigner c _ _ _ => [c] | CCertificate c => [c] | CDetach => [] end) calls.
Definition signers (calls : list call) : list (scert * list (oid * bytes)) :=
  flat_map (fun x => match x with CSigner c _ now extra => [(c, ([1; 2; 840; 113549; 1; 9; 5], now) :: extra)] | _ => [] end) calls.
Definition detached (calls : list call) : bool := existsb (fun x => match x with CDetach => true | _ => false end) calls.

(** Some object tree is encoded by these bytes. *)
Definition tree (b : bytes) : Prop := exists o, der o b.
(** The certificate, issuer name and serial number belong together: they come from parsing one certificate. *)
Definition from_parser (K : xenv) (c : scert) (parsed : p7cert) : Prop :=
  tree (sc_raw c) /\ tree (sc_issuer c) /\ is_element (sc_issuer c) /\
  parseCertsWithIssuer K (sc_raw c) = Some [parsed] /\ sc_issuer c = pc_issuer parsed /\ sc_serial c = c_serial (pc_cert parsed).
Definition call_ok (K : xenv) (x : call) : Prop :=
  match x with
  | CSigner c key now extra => (exists parsed, from_parser K c parsed) /\ tree now /\
      Forall (fun a : oid * bytes => valid_oid (fst a) /\ tree (snd a) /\ fst a <> [1; 2; 840; 113549; 1; 9; 4]) extra
  | CCertificate c => exists parsed, from_parser K c parsed
  | CDetach => True
  end.
(** No two certificates share issuer and serial number. *)
Definition distinct (l : list scert) : Prop :=
  forall c c', In c l -> In c' l -> sc_issuer c = sc_issuer c' -> sc_serial c = sc_serial c' -> c = c'.
(** The keys belong to the certificates: what they sign is accepted (SHA1WithRSA is algorithm 3). *)
Definition keys_fit (K : xenv) (E : env) (rsaSign : bytes -> bytes -> option bytes) (calls : list call) : Prop :=
  forall c key now extra parsed, In (CSigner c key now extra) calls -> from_parser K c parsed ->
    forall m, exists s, rsaSign key (e_hash E HSha1 m) = Some s /\ e_cert_check E (pc_cert parsed) SHA1WithRSA m s = true.

(** What the calls make. *)
Definition make_call (X : textenv) (sha1 : bytes -> bytes) (rsaSign : bytes -> bytes -> option bytes) (st : signing) (x : call) : option signing :=
  match x with
  | CSigner c key now extra => addSigner X sha1 rsaSign st c (PRsa key) (Some now) (map (fun a => (fst a, Some (snd a))) extra)
  | CCertificate c => Some (addCertificate st c)
  | CDetach => Some (detach st)
  end.
Fixpoint make_calls (X : textenv) (sha1 : bytes -> bytes) (rsaSign : bytes -> bytes -> option bytes) (st : signing) (l : list call) : option signing :=
  match l with
  | [] => Some st
  | x :: t => match make_call X sha1 rsaSign st x with Some st' => make_calls X sha1 rsaSign st' t | None => None end
  end.
Definition made (X : textenv) (sha1 : bytes -> bytes) (rsaSign : bytes -> bytes -> option bytes) (data : bytes) (calls : list call) : option bytes :=
  match newSignedData X sha1 data with
  | None => None
  | Some st => match make_calls X sha1 rsaSign st calls with Some st' => finish X st' | None => None end
  end.

(** The SignerInfo of a signer: it names the certificate, and each attribute is in it as a SET with the value. *)
Definition has_attribute (i : sigInfo) (a : oid * bytes) : Prop :=
  exists x, In x (gi_attrs i) /\ pa_type x = fst a /\ pa_value x = snd a.
Definition info_of (s : scert * list (oid * bytes)) (i : sigInfo) : Prop :=
  gi_issuer i = sc_issuer (fst s) /\ gi_serial i = sc_serial (fst s) /\ forall a, In a (snd s) -> has_attribute i a.
