(** C85, C86: PKCS7.Verify *)
From Coq Require Import String Lia Permutation Sorted.
From Verif.Model Require Import Bytes Env Ber Asn1 Pkcs7 X509 Pkcs7Verify.
From Verif.Spec Require Import Ber Asn1 Asn1Value Pkcs7 Pkcs7Verify.
From Verif.Proofs Require Import BytesFacts BerFacts Asn1Codec Asn1Value Asn1Decode DerFacts DerSize Pkcs7Facts Pkcs7VerifyFacts Pkcs7Doc.
From Verif.Examples Require Import Toy ToyPkcs7 ToyX509 ToySigned.
From Verif.Props Require Import Ber Pkcs7.

(** The caller may put other content into a parsed object before calling Verify (detached signatures). *)
Definition with_content (p : pkcs7obj) (content : bytes) : pkcs7obj := {|
  po_content := content; po_certs := po_certs p; po_signers := po_signers p; po_type := po_type p; po_crls := po_crls p; po_envelope := po_envelope p |}.

Lemma parsed_encodable K data p : p7Parse K data = Ret (Some p) -> forall i, In i (po_signers p) -> encodable (gi_attrs i).
Proof.
  intros HP i Hi. destruct (parse_agree K data p HP) as (p' & HP' & _ & _ & _ & HA). destruct (HA i Hi) as (i' & Hi' & E & _).
  destruct (C61_signed_bytes (x509P7 K) data p' i' HP' Hi') as (HF & c & b & H1 & H2 & H3 & _). rewrite E in *. split; [exact HF|]. exists c, b. auto.
Qed.

(** C85.  Verify succeeds exactly for objects with at least one signer, every signer of which has signed the content. *)
Theorem C85_verify_iff : forall K E D data p content, (forall c m s, e_cert_check E c 0 m s = false) -> p7Parse K data = Ret (Some p) ->
  (p7Verify K E D (with_content p content) = None <->
   po_signers p <> [] /\ forall i, In i (po_signers p) -> exists c m, signature_of E D (po_certs p) content i c m).
Proof.
  intros K E D data p content HU HP. apply (verify_iff K E D HU (with_content p content)). apply Forall_forall. exact (parsed_encodable K data p HP).
Qed.
Print Assumptions C85_verify_iff.

(** With one signer, GetOnlySigner is then the certificate whose key has made the signature. *)
Theorem C85_only_signer : forall K E D data p content, (forall c m s, e_cert_check E c 0 m s = false) -> p7Parse K data = Ret (Some p) ->
  p7Verify K E D (with_content p content) = None ->
  (forall i, po_signers p = [i] -> exists c m, getOnlySigner p = Some c /\ signature_of E D (po_certs p) content i c m) /\
  (forall c, getOnlySigner p = Some c -> exists i m, po_signers p = [i] /\ signature_of E D (po_certs p) content i c m).
Proof.
  intros K E D data p content HU HP HV. apply (C85_verify_iff K E D data p content HU HP) in HV as (_ & HV).
  assert (G : forall i, po_signers p = [i] -> exists c m, getOnlySigner p = Some c /\ signature_of E D (po_certs p) content i c m).
  { intros i Hi. destruct (HV i) as (c & m & HS); [rewrite Hi; left; reflexivity|]. exists c, m. split; [|exact HS]. unfold getOnlySigner. rewrite Hi. destruct HS as (h & algo & _ & HC & _). apply getCert_iff. exact HC. }
  split; [exact G|]. intros c Hc. unfold getOnlySigner in Hc. destruct (po_signers p) as [|i [|j l]] eqn:ES; try discriminate. destruct (G i eq_refl) as (c' & m & Hc' & HS).
  exists i, m. split; [reflexivity|]. assert (c' = c) as -> by (unfold getOnlySigner in Hc'; rewrite ES in Hc'; congruence). exact HS.
Qed.
Print Assumptions C85_only_signer.

(** The bytes that are signed are determined by the attributes as a set: their order in the file does not matter. *)
Lemma set_inj l l' m : Forall attribute_ok l -> Forall attribute_ok l' -> zlen m < 2 ^ 31 -> attribute_set (map said l) m -> attribute_set (map said l') m -> Permutation l l'.
Proof.
  intros F F' HL (p & s & H1 & H2 & H3 & H4) (p' & s' & H1' & H2' & H3' & H4').
  assert (Es : concat s = concat s').
  { pose proof (der_element_size _ _ _ _ _ H4) as Z1. pose proof (der_element_size _ _ _ _ _ H4') as Z2. apply der_element_element in H4; [|lia]. apply der_element_element in H4'; [|lia].
    destruct (element_prefix _ _ _ _ _ _ _ _ _ _ [] [] H4 H4' eq_refl) as (_ & _ & _ & EC & _). exact EC. }
  pose proof (der_element_size _ _ _ _ _ H4) as ZS.
  assert (G : forall l p s, Forall attribute_ok l -> Forall2 attribute_der (map said l) p -> Permutation p s -> exists l1, Permutation l l1 /\ Forall attribute_ok l1 /\ attributes_der (map said l1) (concat s)).
  { clear. intros l p s F H1 H2. assert (G : forall s', Permutation p s' -> exists l1, Permutation l l1 /\ Forall2 attribute_der (map said l1) s').
    { assert (HF : Forall2 (fun q a => attribute_der (said a) q) p l). { clear -H1. revert p H1. induction l as [|a l IH]; intros p H; inversion H; subst; constructor; auto. }
      intros s' HP. destruct (Forall2_perm_r _ _ _ HP l HF) as (l1 & HF1 & HP1). exists l1. split; [exact HP1|]. clear -HF1. induction HF1; constructor; assumption. }
    destruct (G s H2) as (l1 & HP1 & HF1). exists l1. split; [exact HP1|]. split; [eapply Permutation_Forall; eassumption|]. apply parts_attributes. exact HF1. }
  destruct (G l p s F H1 H2) as (l1 & P1 & F1 & A1). destruct (G l' p' s' F' H1' H2') as (l2 & P2 & F2 & A2). rewrite <- Es in A2.
  destruct (attributes_der_inj _ _ _ F1 F2 A1 A2 ltac:(lia)) as (E1 & E2).
  assert (l1 = l2) as ->.
  { clear -E1 E2. revert l2 E1 E2. induction l1 as [|x l IH]; intros [|y l'] E1 E2; try discriminate; [reflexivity|].
    cbn [map] in E1, E2. assert (said x = said y /\ map said l = map said l') as (S1 & S2) by (split; congruence).
    assert (pa_value x = pa_value y /\ map pa_value l = map pa_value l') as (S3 & S4) by (split; congruence).
    f_equal; [|apply IH; assumption]. destruct x, y. unfold said in S1. cbn in *. congruence. }
  rewrite P1, P2. reflexivity.
Qed.
Definition is_digest (a : p7_attr) : bool := oidEqual (pa_type a) [1; 2; 840; 113549; 1; 9; 4].
(** One signature - one message - stands for one content, up to collisions of the hash, if the signer's attributes have
    one messageDigest. *)
Theorem C85_one_content_partial : forall K E data p i content h data' p' i' content' m,
  p7Parse K data = Ret (Some p) -> In i (po_signers p) -> p7Parse K data' = Ret (Some p') -> In i' (po_signers p') ->
  signed_bytes E content i h m -> signed_bytes E content' i' h m -> (List.length (filter is_digest (gi_attrs i)) <= 1)%nat ->
  content = content' \/ m = content \/ m = content' \/ e_hash E h content = e_hash E h content'.
Proof.
  intros K E data p i content h data' p' i' content' m HP HI HP' HI' HS HS' HL.
  destruct HS as [_|m HN (l1 & a & l2 & f & r & El & Et & Eb & Ev & HE) HM]; [right; left; reflexivity|].
  destruct HS' as [_|m HN' (l1' & a' & l2' & f' & r' & El' & Et' & Eb' & Ev' & HE') HM']; [right; right; left; reflexivity|]. right. right. right.
  pose proof (parsed_encodable K data p HP i HI) as HC. pose proof (parsed_encodable K data' p' HP' i' HI') as (F' & _).
  assert (ZM : zlen m < 2 ^ 31).
  { destruct HC as (F & c & b & H1 & H2 & H3). destruct (marshalAttributes_set K _ c b F H1 H2 H3) as (m' & _ & HM2 & Z). rewrite (attribute_set_unique _ _ _ HM HM2). exact Z. }
  pose proof (set_inj _ _ m (proj1 HC) F' ZM HM HM') as PP.
  assert (Da : is_digest a = true) by (unfold is_digest; rewrite Et; reflexivity). assert (Da' : is_digest a' = true) by (unfold is_digest; rewrite Et'; reflexivity).
  assert (Ha' : In a' (filter is_digest (gi_attrs i))). { apply filter_In. split; [|exact Da']. apply (Permutation_in _ (Permutation_sym PP)). rewrite El'. apply in_elt. }
  assert (Ha : In a (filter is_digest (gi_attrs i))). { apply filter_In. split; [|exact Da]. rewrite El. apply in_elt. }
  assert (a = a') as <-. { destruct (filter is_digest (gi_attrs i)) as [|x [|y t]]; [contradiction| |cbn in HL; lia]. destruct Ha as [<-|[]]; destruct Ha' as [<-|[]]. reflexivity. }
  rewrite Ev in Ev'. destruct (element_prefix _ _ _ _ _ _ _ _ _ _ _ _ HE HE' Ev') as (_ & _ & _ & EC & _). exact EC.
Qed.
Print Assumptions C85_one_content_partial.

(** Without that condition it is false: with two messageDigest attributes, one signature serves for two contents - the
    first attribute in the file counts, and the signed SET does not tell which one that was. *)
Definition two_digests (swap : bool) : list (list byte * bytes) :=
  let a := s_md (s2b "pay 1") in let b := s_md (s2b "pay 1000") in if swap then [b; a] else [a; b].
Definition two_message : bytes := match p7Parse toy_k (s_file (s2b "pay 1") (two_digests false)) with
  | Ret (Some {| po_signers := [i] |}) => match marshalAttributes toy_k (gi_attrs i) with Some m => m | None => [] end | _ => [] end.
Theorem C85_two_contents_refuted :
  let E := s_env two_message in
  exists p p' i i', p7Parse toy_k (s_file (s2b "pay 1") (two_digests false)) = Ret (Some p) /\ p7Parse toy_k (s_file (s2b "pay 1000") (two_digests true)) = Ret (Some p') /\
    po_certs p = po_certs p' /\ po_signers p = [i] /\ po_signers p' = [i'] /\ gi_sig i = gi_sig i' /\
    p7Verify toy_k E s_decoder p = None /\ p7Verify toy_k E s_decoder p' = None /\
    po_content p = s2b "pay 1" /\ po_content p' = s2b "pay 1000" /\ e_hash E HSha1 (po_content p) <> e_hash E HSha1 (po_content p') /\
    forall c a m m' s, e_cert_check E c a m s = true -> e_cert_check E c a m' s = true -> m = m'.
Proof.
  cbv zeta. eexists _, _, _, _. split; [vm_compute; reflexivity|]. split; [vm_compute; reflexivity|]. split; [reflexivity|]. split; [reflexivity|]. split; [reflexivity|]. split; [reflexivity|].
  split; [vm_compute; reflexivity|]. split; [vm_compute; reflexivity|]. split; [reflexivity|]. split; [reflexivity|]. split; [vm_compute; discriminate|].
  intros c a m m' s H H'. cbn [e_cert_check s_env] in H, H'. rewrite !Bool.andb_true_iff in H, H'. destruct H as ((_ & H) & _), H' as ((_ & H') & _). apply bytes_eqb_eq in H, H'. congruence.
Qed.
Print Assumptions C85_two_contents_refuted.

(** The verifier of JAR signatures reads the same file in the same way. *)
Theorem C85_same_object : forall K data p, p7Parse K data = Ret (Some p) -> exists p', pkcs7Parse (x509P7 K) data = Ret (Some p') /\
  p7_certs p' = map pc_cert (po_certs p) /\ p7_content_type p' = po_type p /\ List.length (p7_signers p') = List.length (po_signers p) /\
  forall i, In i (po_signers p) -> exists i', In i' (p7_signers p') /\ ps_auth_attrs i' = gi_attrs i /\ ps_serial i' = gi_serial i /\
    ps_digest_alg i' = gi_digest i /\ ps_enc_alg i' = gi_enc i /\ ps_enc_digest i' = gi_sig i /\ ps_issuer i' = issuerName (x509P7 K) (gi_issuer i).
Proof. exact parse_agree. Qed.
Print Assumptions C85_same_object.

(** C86.  Parse of a document: content, certificates, revocation lists and signers are those of the document. *)
Theorem C86_parse : forall K d f certs o rest, content_der (k_text K) d f -> Forall valid_oid (doc_oids (c_doc d)) -> der o f -> zlen f < 2 ^ 31 ->
  (match s_certs (c_doc d) with Some c => parseCertsWithIssuer K c = Some certs | None => certs = [] end) ->
  exists p, p7Parse K (f ++ rest) = Ret (Some p) /\ po_certs p = certs /\ content_says d p.
Proof.
  intros K d f certs o rest HS HV HD HL HC. assert (HB : forall rest, ber2der (f ++ rest) = BRet f) by (intros r; exact (C40_der_unchanged o f r HD HL)).
  pose proof (HB []) as HB0. rewrite app_nil_r in HB0. destruct (content_parse K d f certs HS HV HL HC HB0) as (p & HP & H). exists p. split; [|exact H].
  rewrite <- HP. unfold p7Parse. rewrite HB, HB0. destruct f as [|x f0]; [cbn in HB0; discriminate|]. reflexivity.
Qed.
Print Assumptions C86_parse.

(** A file with contentType and messageDigest attributes: the signature over that SET verifies for the content and for
    no other content with another hash; it is not a signature once a signed byte is changed. *)
Definition v_attrs : list (list byte * bytes) := [s_type; s_md (s2b "pay 1")].
Definition v_object : option pkcs7obj := match p7Parse toy_k (s_file (s2b "pay 1") v_attrs) with Ret (Some p) => Some p | _ => None end.
Definition v_message : bytes := match v_object with
  | Some {| po_signers := [i] |} => match marshalAttributes toy_k (gi_attrs i) with Some m => m | None => [] end | _ => [] end.
Example C85_nonvacuous : exists p i c, p7Parse toy_k (s_file (s2b "pay 1") v_attrs) = Ret (Some p) /\ po_signers p = [i] /\ List.length (gi_attrs i) = 2%nat /\
  (List.length (filter is_digest (gi_attrs i)) <= 1)%nat /\ po_content p = s2b "pay 1" /\ getOnlySigner p = Some c /\
  (forall c m s, e_cert_check (s_env v_message) c 0 m s = false) /\
  p7Verify toy_k (s_env v_message) s_decoder (with_content p (s2b "pay 1")) = None /\
  p7Verify toy_k (s_env v_message) s_decoder (with_content p (s2b "pay 1000")) <> None /\
  p7Verify toy_k (s_env (s2b "another message")) s_decoder p <> None.
Proof.
  eexists _, _, _. split; [vm_compute; reflexivity|]. split; [reflexivity|]. split; [reflexivity|]. split; [apply Nat.leb_le; vm_compute; reflexivity|]. split; [reflexivity|].
  split; [vm_compute; reflexivity|]. split; [intros c m s; reflexivity|]. split; [vm_compute; reflexivity|]. split; vm_compute; discriminate.
Qed.
