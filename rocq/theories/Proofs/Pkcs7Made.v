(** What a sequence of calls makes, and how it is read back *)
From Coq Require Import Lia Permutation.
From Verif.Model Require Import Bytes Env Ber Asn1 Pkcs7 X509 Pkcs7Verify Pkcs7Sign.
From Verif.Spec Require Import Ber Asn1 Asn1Value Pkcs7 Pkcs7Verify Pkcs7Sign.
From Verif.Proofs Require Import BytesFacts BerFacts Asn1Codec Asn1Header Asn1Value Asn1Decode DerFacts DerSize Pkcs7Facts Pkcs7Parse Pkcs7Honest Pkcs7VerifyFacts Pkcs7Doc X509Facts X509Honest Pkcs7SignFacts.

Section C.
  Variable K : xenv.
  Notation X := (k_text K).

  (** *** Certificates, one after the other *)
  Lemma certs_iff data l : parseCertsWithIssuer K data = Some l <-> exists fs, data = concat fs /\ Forall2 (fun f c => exists v, unmarshal X tyCertificate f = (v, Some []) /\ certWithIssuer K v = Some c) fs l.
  Proof.
    unfold parseCertsWithIssuer. split.
    - destruct (certificatesLoop K (List.length data) data) as [vs|] eqn:E; [|discriminate]. intros H. apply mapM_forall2 in H. apply certificatesLoop_iff in E as (fs & -> & F); [|lia]. exists fs. split; [reflexivity|].
      clear -F H. revert l H. induction F as [|f v fs vs E F IH]; intros l H; inversion H; subst; constructor; eauto.
    - intros (fs & -> & F). assert (G : exists vs, Forall2 (fun f v => unmarshal X tyCertificate f = (v, Some [])) fs vs /\ Forall2 (fun v c => certWithIssuer K v = Some c) vs l).
      { induction F as [|f c fs l (v & E1 & E2) F (vs & H1 & H2)]; [exists []; split; constructor|]. exists (v :: vs). split; constructor; assumption. }
      destruct G as (vs & H1 & H2). rewrite (proj2 (certificatesLoop_iff K (List.length (concat fs)) (concat fs) vs (le_n _))) by eauto. apply mapM_forall2. exact H2.
  Qed.
  Lemma certs_concat raws ls : Forall2 (fun r l => parseCertsWithIssuer K r = Some l) raws ls -> parseCertsWithIssuer K (concat raws) = Some (concat ls).
  Proof.
    intros F. apply certs_iff. induction F as [|r l raws ls H F (fs & E & G)]; [exists []; split; [reflexivity|constructor]|].
    apply certs_iff in H as (fs1 & -> & G1). exists (fs1 ++ fs). cbn [concat]. rewrite concat_app, E. split; [reflexivity|]. apply Forall2_app; assumption.
  Qed.
  Lemma concat_map_one {A} (l : list A) : concat (map (fun x => [x]) l) = l.
  Proof. induction l as [|x l IH]; [reflexivity|]. cbn [map concat]. rewrite IH. reflexivity. Qed.
  Lemma calls_certs calls : Forall (call_ok K) calls -> exists certs, Forall2 (from_parser K) (certificates calls) certs.
  Proof.
    induction 1 as [|x l H F (certs & G)]; [exists []; constructor|]. unfold certificates. cbn [flat_map]. fold (certificates l).
    destruct x as [c key now extra|c|]; cbn [call_ok] in H.
    - destruct H as ((p & H) & _). exists (p :: certs). constructor; assumption.
    - destruct H as (p & H). exists (p :: certs). constructor; assumption.
    - exists certs. exact G.
  Qed.
  Lemma calls_parse l certs : Forall2 (from_parser K) l certs -> parseCertsWithIssuer K (concat (map sc_raw l)) = Some certs.
  Proof.
    intros H. rewrite <- (concat_map_one certs). apply certs_concat. induction H as [|c p l certs (_ & _ & _ & E & _) F IH]; [constructor|]. constructor; assumption.
  Qed.
  Lemma calls_trees l certs : Forall2 (from_parser K) l certs -> trees (concat (map sc_raw l)).
  Proof. intros H. apply trees_concat. induction H as [|c p l certs (T & _) F IH]; constructor; assumption. Qed.

  (** *** The state after the calls *)
  Variable E : env.
  Variable rsaSign : bytes -> bytes -> option bytes.
  Notation sha1 := (e_hash E HSha1).
  Variable data : bytes.
  Definition attrs_of (now : bytes) (extra : list (oid * bytes)) : list (oid * bytes) :=
    (oidAttrContentType, el 0 6 false oid_data) :: (oidMessageDigest, el 0 4 false (sha1 data)) :: (oidAttrSigningTime, now) :: extra.
  Definition made_signer (s : scert * list (oid * bytes)) (m : mk) : Prop :=
    m_cert m = fst s /\ (exists now extra, snd s = (oidAttrSigningTime, now) :: extra /\ m_attrs m = isort aless (attrs_of now extra) /\ tree now /\ Forall (fun a : oid * bytes => valid_oid (fst a) /\ tree (snd a) /\ fst a <> oidMessageDigest) extra) /\
    exists parsed msg, from_parser K (m_cert m) parsed /\ marshalAttributes K (map anew (m_attrs m)) = Some msg /\ e_cert_check E (pc_cert parsed) SHA1WithRSA msg (m_sig m) = true.
  Lemma valid_contentType : valid_oid oidAttrContentType.
  Proof. exists 1, 2, [840; 113549; 1; 9; 3]. unfold max_int32. repeat split; try lia. repeat constructor; lia. Qed.
  Lemma valid_messageDigest : valid_oid oidMessageDigest.
  Proof. exists 1, 2, [840; 113549; 1; 9; 4]. unfold max_int32. repeat split; try lia. repeat constructor; lia. Qed.
  Lemma valid_signingTime : valid_oid oidAttrSigningTime.
  Proof. exists 1, 2, [840; 113549; 1; 9; 5]. unfold max_int32. repeat split; try lia. repeat constructor; lia. Qed.
  Lemma attrs_good now extra : Forall (fun a : oid * bytes => valid_oid (fst a) /\ tree (snd a) /\ fst a <> oidMessageDigest) extra -> Forall good_attr (attrs_of now extra).
  Proof.
    intros H. constructor; [exact valid_contentType|]. constructor; [exact valid_messageDigest|]. constructor; [exact valid_signingTime|]. eapply Forall_impl; [|exact H]. intros a (V & _). exact V.
  Qed.
  Lemma made_ok s m : made_signer s m -> mk_ok m.
  Proof.
    intros (E1 & (now & extra & E2 & E3 & T & F) & parsed & msg & (_ & _ & HI & _) & _). split; [exact HI|]. rewrite E3. pose proof (isort_perm aless (attrs_of now extra)) as HP. split.
    - intros C. rewrite C in HP. apply Permutation_sym, Permutation_nil in HP. discriminate.
    - eapply Permutation_Forall; [exact HP|]. apply attrs_good. exact F.
  Qed.
  Definition info_val (d : bool) : goval := infoVal oidData (if d then VRaw 0 0 false [] [] else VRaw 2 0 true (el 0 4 false data) []).
  Lemma marshalAttrs_some l : Forall good_attr l -> exists msg, marshalAttributes K (map anew l) = Some msg.
  Proof.
    intros H. rewrite <- marshalAttrVals_eq by exact H. unfold marshalAttrVals. rewrite (sortSet_vals X aval l); [eexists; reflexivity| |reflexivity]. eapply Forall_impl; [|exact H]. intros a Ha. apply (good_key X a Ha).
  Qed.
  Lemma calls_made calls : Forall (call_ok K) calls -> keys_fit K E rsaSign calls ->
    forall d cs ss, exists ms', make_calls X sha1 rsaSign {| sg_info := info_val d; sg_signers := ss; sg_certs := cs; sg_digest := sha1 data |} calls =
      Some {| sg_info := info_val (d || detached calls); sg_signers := ss ++ map mval ms'; sg_certs := cs ++ certificates calls; sg_digest := sha1 data |} /\ Forall2 made_signer (signers calls) ms'.
  Proof.
    intros HF HK. revert HK. induction HF as [|x l H F IH]; intros HK d cs ss.
    { exists []. split; [|constructor]. cbn [make_calls map]. unfold certificates, detached. cbn [flat_map existsb]. rewrite orb_false_r, !app_nil_r. reflexivity. }
    assert (HK' : keys_fit K E rsaSign l) by (intros c key now extra parsed Hin; apply HK with (1 := or_intror Hin)).
    destruct x as [c key now extra|c|]; cbn [call_ok] in H.
    - destruct H as ((parsed & HP) & HT & HX). change ([1; 2; 840; 113549; 1; 9; 4]) with oidMessageDigest in HX.
      set (at_ := isort aless (attrs_of now extra)).
      assert (HG : Forall good_attr at_) by (eapply Permutation_Forall; [apply isort_perm|apply attrs_good; exact HX]).
      destruct (marshalAttrs_some at_ HG) as (msg & EM). destruct (HK c key now extra parsed (or_introl eq_refl) HP msg) as (sig & ES & EC).
      destruct (IH HK' d (cs ++ [c]) (ss ++ [mval {| m_cert := c; m_attrs := at_; m_sig := sig |}])) as (ms' & EQ & G).
      exists ({| m_cert := c; m_attrs := at_; m_sig := sig |} :: ms'). split.
      + cbn [make_calls make_call]. unfold addSigner. cbn [sg_info sg_digest sg_certs sg_signers].
        change (stdMarshal X TyOid (field 0 (info_val d))) with (Some (el 0 6 false oid_data)).
        assert (EB : stdMarshal X TyBytes (VBytes (sha1 data)) = Some (el 0 4 false (sha1 data))) by (unfold stdMarshal, marshal; cbn [sortSets]; apply write_bytes). rewrite EB.
        pose proof (forMarshaling_eq X (attrs_of now extra) (attrs_good now extra HX)) as EFM. cbn [attrs_of map fst snd] in EFM. rewrite EFM. fold at_.
        unfold signAttributes. rewrite (marshalAttrVals_eq K at_ HG), EM, ES. change (signerVal c (map aval at_) sig) with (mval {| m_cert := c; m_attrs := at_; m_sig := sig |}). rewrite EQ. unfold certificates, detached. cbn [flat_map existsb orb map app]. rewrite <- !app_assoc. reflexivity.
      + unfold signers. cbn [flat_map app]. constructor; [|exact G]. split; [reflexivity|]. split; [exists now, extra; cbn [snd m_attrs]; auto|]. exists parsed, msg. auto.
    - destruct (IH HK' d (cs ++ [c]) ss) as (ms' & EQ & G). exists ms'. split; [|exact G]. cbn [make_calls make_call]. unfold addCertificate. cbn [sg_info sg_digest sg_certs sg_signers]. rewrite EQ.
      unfold certificates, detached. cbn [flat_map existsb orb map app]. rewrite <- !app_assoc. reflexivity.
    - destruct (IH HK' true cs ss) as (ms' & EQ & G). exists ms'. split; [|exact G]. cbn [make_calls make_call]. unfold detach. cbn [sg_info sg_digest sg_certs sg_signers].
      change (infoVal oidData (VRaw 0 0 false [] [])) with (info_val true). rewrite EQ. unfold certificates, detached. cbn [flat_map existsb orb map app]. rewrite orb_true_r. reflexivity.
  Qed.
  Definition content_of (calls : list call) : option bytes := if detached calls then None else Some data.
  Lemma made_file calls : Forall (call_ok K) calls -> keys_fit K E rsaSign calls -> small (concat (map sc_raw (certificates calls))) ->
    exists ms, Forall2 made_signer (signers calls) ms /\ made X sha1 rsaSign data calls = Some (file_enc (body_enc true (content_of calls) (concat (map sc_raw (certificates calls))) false ms)).
  Proof.
    intros HF HK HS. destruct (calls_made calls HF HK false [] []) as (ms & EQ & G). exists ms. split; [exact G|].
    unfold made, newSignedData. assert (EB : stdMarshal X TyBytes (VBytes data) = Some (el 0 4 false data)) by (unfold stdMarshal, marshal; cbn [sortSets]; apply write_bytes). rewrite EB.
    change (infoVal oidData (VRaw 2 0 true (el 0 4 false data) [])) with (info_val false). rewrite EQ. unfold finish. cbn [sg_info sg_certs sg_signers orb app].
    assert (EC : marshalCertificates X (certificates calls) = el 2 0 true (concat (map sc_raw (certificates calls)))) by reflexivity. rewrite EC.
    rewrite <- (write_file X true (content_of calls) _ false ms); [|clear -G; induction G; constructor; [eapply made_ok; eassumption|assumption]|exact HS]. unfold body_val, info_val, content_of. destruct (detached calls); reflexivity.
  Qed.
End C.

(** *** Reading it back *)
Lemma oid_dec (a b : oid) : a = b \/ a <> b.
Proof. destruct (oidEqual a b) eqn:E; [left; apply oidEqual_iff; exact E|right; intros ->; rewrite oidEqual_refl in E; discriminate]. Qed.
Lemma find_digest l v : (exists x, In x l /\ pa_type x = oidMessageDigest) -> (forall x, In x l -> pa_type x = oidMessageDigest -> pa_value x = v) ->
  exists l1 a l2, l = l1 ++ a :: l2 /\ pa_type a = oidMessageDigest /\ (forall b, In b l1 -> pa_type b <> oidMessageDigest) /\ pa_value a = v.
Proof.
  intros (x & Hx & Tx) HV. induction l as [|y l IH]; [contradiction|]. destruct (oid_dec (pa_type y) oidMessageDigest) as [T|T].
  - exists [], y, l. split; [reflexivity|]. split; [exact T|]. split; [intros b []|]. apply HV; [left; reflexivity|exact T].
  - destruct Hx as [<-|Hx]; [contradiction|]. destruct IH as (l1 & a & l2 & -> & H1 & H2 & H3); [exact Hx|intros z Hz; apply HV; right; exact Hz|].
    exists (y :: l1), a, l2. split; [reflexivity|]. split; [exact H1|]. split; [|exact H3]. intros b [<-|Hb]; auto.
Qed.
Lemma read_attrs l : forall attrs, map said l = map asaid attrs -> Forall attribute_ok l -> Forall (fun a : oid * bytes => small (snd a)) attrs ->
  Forall2 (fun x (a : oid * bytes) => pa_type x = fst a /\ pa_value x = snd a) l attrs.
Proof.
  induction l as [|x l IH]; intros [|a attrs] EQ HO HS; try discriminate; [constructor|]. cbn [map] in EQ. inversion HO as [|? ? O1 O2]; subst. inversion HS as [|? ? S1 S2]; subst.
  assert (E1 : said x = asaid a) by congruence. assert (E2 : map said l = map asaid attrs) by congruence. constructor; [|apply IH; assumption].
  assert (T1 : pa_type x = fst a) by (change (fst (said x) = fst (asaid a)); rewrite E1; reflexivity). assert (T2 : pa_full x = el 0 17 true (snd a)) by (change (snd (said x) = snd (asaid a)); rewrite E1; reflexivity).
  split; [exact T1|]. destruct O1 as (_ & c & t & k & HE). rewrite T2 in HE.
  assert (HE' : element 0 17 true (snd a) (el 0 17 true (snd a))) by (apply header_element; [lia|unfold max_int32; lia|exact S1]).
  destruct (element_prefix _ _ _ _ _ _ _ _ _ _ [] [] HE HE' eq_refl) as (_ & _ & _ & EC & _). exact EC.
Qed.
Lemma Forall2_In_l {A B} (R : A -> B -> Prop) l l' a : Forall2 R l l' -> In a l -> exists b, In b l' /\ R a b.
Proof. induction 1 as [|x y l l' H F IH]; intros []; [subst; exists y; split; [left; reflexivity|exact H]|]. destruct IH as (b & Hb & HR); [assumption|]. exists b. split; [right; exact Hb|exact HR]. Qed.
Section R.
  Variable K : xenv. Variable E : env. Variable D : stdDecoder. Variable data : bytes.
  Notation X := (k_text K).
  Lemma same_message l attrs : map said l = map asaid attrs -> marshalAttributes K l = marshalAttributes K (map anew attrs).
  Proof.
    intros H. assert (HE : map attributeVal l = map attributeVal (map anew attrs)).
    { revert attrs H. induction l as [|x l IH]; intros [|a attrs] H; try discriminate; [reflexivity|]. cbn [map] in *. f_equal; [|apply IH; congruence].
      assert (H1 : said x = asaid a) by congruence. unfold attributeVal. replace (pa_type x) with (fst (said x)) by reflexivity. replace (pa_full x) with (snd (said x)) by reflexivity. rewrite H1. reflexivity. }
    unfold marshalAttributes. rewrite HE. reflexivity.
  Qed.
  Lemma values_small m : mk_ok m -> small (menc m) -> Forall (fun a : oid * bytes => small (snd a)) (m_attrs m).
  Proof.
    intros (_ & _ & HG) HS. unfold menc in HS. smalls. apply Forall_forall. intros a Ha. rewrite Forall_forall in HG. apply akey_value; [auto|]. eapply small_concat; [eassumption|]. apply in_map. exact Ha.
  Qed.
  Lemma signer_read s m i : made_signer K E data s m -> small (menc m) -> info_says (mdoc m) i ->
    info_of s i /\ first_digest (gi_attrs i) (e_hash E HSha1 data).
  Proof.
    intros HM HS (I1 & I2 & _ & I4 & I5 & _). pose proof (made_ok _ _ _ _ _ HM) as HO. pose proof (values_small m HO HS) as HV.
    destruct HM as (E1 & (now & extra & E2 & E3 & T & F) & _). cbn [mdoc sd_attrs present sd_issuer sd_serial] in *.
    pose proof (read_attrs _ _ I4 I5 HV) as HR. pose proof (isort_perm aless (attrs_of E data now extra)) as HP. rewrite <- E3 in HP.
    split.
    - split; [rewrite I1, E1; reflexivity|]. split; [rewrite I2, E1; reflexivity|]. intros a Ha. rewrite E2 in Ha.
      assert (Ha' : In a (m_attrs m)) by (apply (Permutation_in _ HP); right; right; exact Ha). destruct (Forall2_In_r _ _ _ _ HR Ha') as (x & Hx & R1 & R2). exists x. auto.
    - assert (Hmd : In (oidMessageDigest, el 0 4 false (e_hash E HSha1 data)) (m_attrs m)) by (apply (Permutation_in _ HP); right; left; reflexivity).
      assert (Hsm : small (el 0 4 false (e_hash E HSha1 data))) by (rewrite Forall_forall in HV; exact (HV _ Hmd)). smalls.
      destruct (find_digest (gi_attrs i) (el 0 4 false (e_hash E HSha1 data))) as (l1 & a & l2 & EQ & H1 & H2 & H3).
      + destruct (Forall2_In_r _ _ _ _ HR Hmd) as (x & Hx & R1 & _). exists x. auto.
      + intros x Hx Tx. destruct (Forall2_In_l _ _ _ _ HR Hx) as (a & Ha & R1 & R2). rewrite R2. apply (Permutation_in _ (Permutation_sym HP)) in Ha. destruct Ha as [<-|[<-|[<-|Ha]]].
        * exfalso. rewrite Tx in R1. discriminate R1.
        * reflexivity.
        * exfalso. rewrite Tx in R1. discriminate R1.
        * exfalso. rewrite Forall_forall in F. destruct (F a Ha) as (_ & _ & N). exact (N (eq_trans (eq_sym R1) Tx)).
      + exists l1, a, l2, (el 0 4 false (e_hash E HSha1 data)), []. split; [exact EQ|]. split; [exact H1|]. split; [exact H2|]. split; [rewrite app_nil_r; exact H3|]. apply header_element; [lia|unfold max_int32; lia|assumption].
  Qed.
  Lemma from_unique c p p' : from_parser K c p -> from_parser K c p' -> p = p'.
  Proof. intros (_ & _ & _ & E1 & _) (_ & _ & _ & E2 & _). congruence. Qed.
  Lemma cert_found l certs c i : Forall2 (from_parser K) l certs -> distinct l -> In c l -> gi_issuer i = sc_issuer c -> gi_serial i = sc_serial c ->
    exists p, getCert certs (gi_issuer i) (gi_serial i) = Some p /\ from_parser K c p.
  Proof.
    intros HF HD HC E1 E2. destruct (Forall2_In_l _ _ _ _ HF HC) as (p & Hp & HP). unfold getCert. destruct (find (fun d => isCertMatch d (gi_issuer i) (gi_serial i)) certs) as [q|] eqn:EF.
    - exists q. split; [reflexivity|]. apply find_some in EF as (Hq & EM). unfold isCertMatch in EM. apply andb_true_iff in EM as (M1 & M2). apply Z.eqb_eq in M1. apply bytes_eqb_eq in M2.
      destruct (Forall2_In_r _ _ _ _ HF Hq) as (c' & Hc' & HP'). assert (c' = c) as ->; [|exact HP']. destruct HP' as (_ & _ & _ & _ & Q1 & Q2). apply HD; try assumption; congruence.
    - exfalso. pose proof (find_none _ _ EF p Hp) as C. destruct HP as (_ & _ & _ & _ & Q1 & Q2). cbv beta in C. unfold isCertMatch in C. rewrite E1, E2, Q1, Q2, Z.eqb_refl in C. rewrite (proj2 (bytes_eqb_eq _ _) eq_refl) in C. discriminate.
  Qed.
  Lemma signer_verifies l certs s m i p : made_signer K E data s m -> small (menc m) -> info_says (mdoc m) i -> Forall2 (from_parser K) l certs -> distinct l -> In (fst s) l ->
    po_certs p = certs -> po_content p = data -> verifySignature K E D p i = None.
  Proof.
    intros HM HS HI HF HD HL EC ED. destruct (signer_read s m i HM HS HI) as ((J1 & J2 & _) & FD). apply (digestAttribute_iff K) in FD.
    destruct HI as (I1 & I2 & I3 & I4 & I5 & I6 & I7 & I8). cbn [mdoc sd_attrs present sd_issuer sd_serial sd_digest sd_enc sd_signature fst snd or_empty] in *.
    destruct HM as (E1 & (now & extra & E2 & E3 & T & F) & parsed & msg & HP & EM & HC).
    unfold verifySignature. rewrite I3. change (getHashForOID [1; 3; 14; 3; 2; 26]) with (Some HSha1). cbv iota.
    destruct (gi_attrs i) as [|x t] eqn:EA; [cbn in FD; discriminate|]. rewrite FD, ED, (proj2 (bytes_eqb_eq _ _) eq_refl). cbn [negb].
    rewrite (same_message _ _ I4), EM. unfold checkWith. destruct (cert_found l certs (fst s) i HF HD HL J1 J2) as (q & EG & HQ). rewrite EC, EG.
    rewrite I6, I7, I8. change (p7Algorithm D [1; 2; 840; 113549; 1; 1; 5] []) with 3. change (oidEqual [1; 2; 840; 113549; 1; 1; 5] oidEncryptionRSA) with false. cbn [andb]. 
    rewrite E1 in HP. rewrite (from_unique _ _ _ HQ HP). change 3 with SHA1WithRSA. change (SHA1WithRSA =? 0) with false. cbn [andb]. rewrite HC. reflexivity.
  Qed.
End R.
