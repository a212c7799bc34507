(** C78: an APK signed by honest JAR signers - manifest, signature files, DER PKCS#7 objects, X.509 certificates - verifies. *)
From Coq Require Import String Lia.
From Verif.Model Require Import Bytes Env Asn1 Manifest Pkcs7 X509 SchemeV1.
From Verif.Spec Require Import Ber Asn1 Asn1Value Nondet Pkcs7 X509 JarSigned HonestJar HonestDer.
From Verif.Proofs Require Import BytesFacts DerFacts Pkcs7Honest X509Honest V1HonestFacts.
From Verif.Examples Require Import Toy ToyJar ToyPkcs7 ToyX509 DerToy.
From Verif.Props Require Import Ber Pkcs7 X509 SchemeV1.

Ltac nn := repeat match goal with |- _ => match goal with H : context [zlen ?a] |- _ => lazymatch goal with _ : 0 <= zlen a |- _ => fail | _ => pose proof (zlen_nonneg a) end end end.

(** sizes of the parts of an object *)
Lemma signed_data_certs d f c : signed_data_der d f -> s_certs d = Some c -> zlen c <= zlen f.
Proof.
  intros (ver & digests & digest_set & ctype & cinfo & certs & signers & signer_set & sdata & sd_oid & explicit & _ & _ & _ & _ & _ & _ & HC & _ & _ & HS & _ & HX & HF) Ec.
  rewrite Ec in HC. cbn [optional] in HC. apply der_element_size in HC, HS, HX, HF. cbn [concat] in HS, HF. rewrite !zlen_app in HS. rewrite !zlen_app in HF. nn. lia.
Qed.
Lemma signed_data_signer d f i : signed_data_der d f -> In i (s_signers d) -> zlen (sd_issuer i) <= zlen f /\
  forall l, sd_attrs i = Some l -> exists c, attributes_der l c /\ zlen c <= zlen f.
Proof.
  intros (ver & digests & digest_set & ctype & cinfo & certs & signers & signer_set & sdata & sd_oid & explicit & _ & _ & _ & _ & _ & _ & _ & F & HSS & HS & _ & HX & HF) HI.
  assert (HG : exists g, In g signers /\ signer_der i g). { clear -F HI. induction F as [|y g l es Hy F IH]; [contradiction|]. destruct HI as [-> |HI]; [exists g; split; [left; reflexivity|exact Hy]|]. destruct (IH HI) as (g' & H1 & H2). exists g'. split; [right; exact H1|exact H2]. }
  destruct HG as (g & Hg & (ve & serial & isn & digest & attrs & enc & sig & unauth & _ & _ & _ & _ & HIS & _ & HA & _ & _ & _ & HQ)). apply concat_bound in Hg.
  apply der_element_size in HSS, HS, HX, HF, HQ, HIS. cbn [concat] in HS, HF, HQ, HIS. rewrite !zlen_app in HS. rewrite !zlen_app in HF. rewrite !zlen_app in HQ. rewrite !zlen_app in HIS. nn. split; [lia|].
  intros l El. rewrite El in HA. cbn [optional] in HA. destruct HA as (c & HA & _ & HE). exists c. split; [exact HA|]. apply der_element_size in HE. lia.
Qed.
Lemma attributes_element l c : attributes_der l c -> forall a, In a l -> zlen (snd a) <= zlen c.
Proof.
  induction 1 as [|b f l fs (octets & te & _ & _ & HE) _ IH]; intros a HI; [contradiction|]. rewrite zlen_app. apply der_element_size in HE. rewrite zlen_app in HE. pose proof (zlen_nonneg te). pose proof (zlen_nonneg fs). pose proof (zlen_nonneg f). destruct HI as [<- |HI]; [lia|]. specialize (IH a HI). lia.
Qed.

Section H.
  Variables (K : xenv) (E : env).
  Notation C := (concrete K E).
  Notation Q := (x509P7 K).

  Lemma certificates_read cs : Forall (good_certificate K) cs -> zlen (concat (map snd cs)) < 2 ^ 31 ->
    exists l, q_certs Q (concat (map snd cs)) = Some l /\ Forall2 (fun d c => e_cert_andr C (snd d) = Some c /\ c_raw c = snd d) cs l.
  Proof.
    intros F HL. assert (HG : exists l, Forall2 (fun d c => e_cert_andr C (snd d) = Some c /\ c_raw c = snd d) cs l).
    { revert HL. induction F as [|d cs (HD & HV) F IH]; intros HL; [exists []; constructor|]. cbn [map concat] in HL. rewrite zlen_app in HL. pose proof (zlen_nonneg (snd d)). pose proof (zlen_nonneg (concat (map snd cs))).
      destruct IH as (l & Hl); [lia|]. destruct (C73_certificate_read K E (fst d) (snd d) HD ltac:(lia) HV) as (c & Hc & Hr & _). exists (c :: l). constructor; [split; [exact Hc|exact Hr]|exact Hl]. }
    destruct HG as (l & HG). exists l. split; [|exact HG]. apply (C69_certificate_list K E). clear -HG. split.
    - induction HG as [|d c cs l (_ & Hr) _ IH]; [reflexivity|]. cbn [map concat]. rewrite Hr, IH. reflexivity.
    - induction HG as [|d c cs l (Hc & Hr) _ IH]; constructor; [rewrite Hr; exact Hc|exact IH].
  Qed.

  Lemma issuer_read n f : name_der (k_text K) n f -> zlen f < 2 ^ 31 -> issuerName Q f = Some (goName (name_text n)).
  Proof.
    intros H HL. unfold issuerName. change (X Q) with (k_text K). unfold unmarshal. rewrite <- (app_nil_r f). rewrite (name_field (k_text K) n f H HL). rewrite rdnSequence_val. reflexivity.
  Qed.

  Lemma sole_attribute_read {A} (dec : bytes -> option A) ty l attrs content value v : map said attrs = l -> Forall attribute_ok attrs -> sole_doc ty l value ->
    set_der [content] value -> zlen value < 2 ^ 31 -> dec content = Some v -> sole_attribute dec ty attrs v.
  Proof.
    intros Hl HO (l1 & l2 & El & HS) HV HL HD. rewrite El in Hl. apply map_eq_app in Hl as (a1 & ar & -> & H1 & H2). apply map_eq_cons in H2 as (a & a2 & -> & Ha & H2).
    exists a1, a, a2. split; [reflexivity|]. unfold said in Ha. assert (pa_type a = ty) by congruence. split; [assumption|]. split.
    - apply Forall_app in HO as (_ & HO). apply Forall_cons_iff in HO as ((_ & cl & tg & k & He) & _). assert (Ef : pa_full a = value) by congruence. rewrite Ef in He.
      unfold set_der in HV. cbn [concat] in HV. rewrite app_nil_r in HV. apply der_small in HV; [|exact HL]. destruct (element_unique _ _ _ _ _ _ _ _ _ He HV) as (_ & _ & _ & Eb). rewrite Eb. exact HD.
    - intros b Hb. apply in_app_or in Hb. assert (HB : In (said b) (l1 ++ l2)). { rewrite <- H1, <- H2. apply in_or_app. destruct Hb as [Hb|Hb]; [left|right]; apply in_map; exact Hb. }
      exact (HS _ HB).
  Qed.
End H.

Lemma concrete_spec K E S : (forall sm man a b, binds (concrete K E) sm man a b = binds E sm man a b) /\ (forall man a b sm, main_attributes_ok (concrete K E) man a b sm = main_attributes_ok E man a b sm) /\
  (forall x y, same_name (concrete K E) S x y = same_name E S x y).
Proof. repeat split; reflexivity. Qed.
Definition realises (g : doc_signer) (j : jar_signer) : Prop :=
  jg_name j = ds_name g /\ jg_block j = ds_block g /\ c_raw (jg_cert j) = snd (ds_cert g).
Lemma documents_signer K E S apk man hv minSdk maxSdk g : honest_documents K E S apk man hv minSdk maxSdk g ->
  exists j, honest_signer (concrete K E) S apk man hv minSdk maxSdk j /\ realises g j.
Proof.
  intros [Hname Hext (raw & o & HP & HD & HV & HDer & HL) (Hcs & Hgood) Hone (HIn & Hserial & Hissuer & Hcrit) Huniq Hsf (algo & data & Halgo & Hsigns & Hsig) Hbinds Hmain Hv2 Hlists].
  destruct (concrete_spec K E S) as (CS1 & CS2 & CS3). pose proof (signed_data_certs _ _ _ HD Hcs) as HLc.
  destruct (certificates_read K E (ds_certs g) Hgood ltac:(lia)) as (cs & Hq & Fcs).
  destruct (C64_honest_der (x509P7 K) (ds_doc g) raw cs o [] HD HV HDer HL) as (p & Hp & Hpc & Hct & Fsig). { rewrite Hcs. exact Hq. }
  rewrite app_nil_r in Hp. rewrite Hone in Fsig. inversion Fsig as [|? info ? ? (Hi & Hs & Hda & Hea & Hed & Hat & Hok) Fnil]. subst. inversion Fnil; subst. clear Fsig Fnil. rename H1 into Hinfo. symmetry in Hinfo.
  destruct (signed_data_signer _ _ (ds_info g) HD) as (HLi & HLa); [rewrite Hone; left; reflexivity|].
  assert (HC : exists c, In c (p7_certs p) /\ e_cert_andr (concrete K E) (snd (ds_cert g)) = Some c /\ c_raw c = snd (ds_cert g)).
  { clear -Fcs HIn. induction Fcs as [|d c l cs (H1 & H2) F IH]; [contradiction|]. destruct HIn as [-> |HIn]; [exists c; split; [left; reflexivity|]; split; assumption|]. destruct (IH HIn) as (c' & H3 & H4 & H5). exists c'. split; [right; exact H3|]. split; assumption. }
  destruct HC as (c & Hc & Hce & Hraw).
  assert (HR : forall d, In d (ds_certs g) -> exists c', e_cert_andr (withX509 K E) (snd d) = Some c' /\ c_raw c' = snd d /\ c_serial c' = d_serial (fst d) /\ c_issuer c' = goName (name_text (d_issuer (fst d))) /\ certificate_der K (fst d) (snd d) /\ zlen (snd d) < 2 ^ 31).
  { intros d Hd. pose proof (proj1 (Forall_forall _ _) Hgood d Hd) as (HD1 & HD2). assert (zlen (snd d) < 2 ^ 31). { assert (In (snd d) (map snd (ds_certs g))) as HX by (apply in_map; exact Hd). apply concat_bound in HX. lia. }
    destruct (C73_certificate_read K E (fst d) (snd d) HD1 ltac:(assumption) HD2) as (c' & H1 & H2 & _ & _ & H3 & H4 & _). exists c'. auto 10. }
  destruct (HR _ HIn) as (c0 & Hc0 & _ & Hser & Hiss & HD0 & HL0). change (e_cert_andr (withX509 K E) (snd (ds_cert g))) with (e_cert_andr (concrete K E) (snd (ds_cert g))) in Hc0. assert (c0 = c) as -> by congruence.
  exists {| jg_name := ds_name g; jg_ext := ds_ext g; jg_block := ds_block g; jg_sf := ds_sf g; jg_p7 := p; jg_info := info; jg_cert := c; jg_sm := ds_sm g |}.
  split; [|split; [reflexivity|split; [reflexivity|exact Hraw]]]. constructor; cbn [jg_name jg_ext jg_block jg_sf jg_p7 jg_info jg_cert jg_sm]; rewrite ?CS1, ?CS2; try assumption.
  - exists raw. split; [exact HP|exact Hp].
  - split; [exact Hc|]. split; [congruence|]. split; [|split].
    + eexists. split; [rewrite Hi; apply issuer_read; [exact Hissuer|lia]|]. rewrite Hiss. reflexivity.
    + destruct (c_unhandled_critical c) eqn:Eu; [|reflexivity]. exfalso. apply Hcrit. apply (C72_unhandled_critical K E (fst (ds_cert g)) (snd (ds_cert g)) c HD0 HL0 Hc0). exact Eu.
    + exists algo, data. rewrite Hda, Hea, Hed. split; [exact Halgo|]. split; [|exact (Hsig c Hce)].
      destruct Hsigns as [Hn|l h value digest cc data Hl Hh Hsole Hdig Hval Hctype Hcc Hdata].
      * apply SignsFile. rewrite Hn in Hat. cbn [present] in Hat. destruct (ps_auth_attrs info); [reflexivity|discriminate].
      * rewrite Hl in Hat. cbn [present] in Hat. destruct (HLa l Hl) as (cc' & Hcc' & Hlc). pose proof (attributes_element _ _ Hcc') as Hel.
        assert (Hsl : forall ty v, sole_doc ty l v -> zlen v < 2 ^ 31). { intros ty v (l1 & l2 & El & _). specialize (Hel (ty, v)). cbn [snd] in Hel. assert (zlen v <= zlen cc') by (apply Hel; rewrite El; apply in_or_app; right; left; reflexivity). lia. }
        assert (Hdl : forall x v, set_der [x] v -> zlen v < 2 ^ 31 -> zlen x < 2 ^ 31). { intros x v HX HY. apply der_element_size in HX. cbn [concat] in HX. rewrite app_nil_r in HX. lia. }
        pose proof (Hdl _ _ Hval (Hsl _ _ Hsole)) as Hdd.
        apply SignsAttributes with (h := h).
        -- destruct Hsole as (l1 & l2 & El & _). intros E0. rewrite E0 in Hat. rewrite El in Hat. destruct l1; discriminate.
        -- rewrite Hda. exact Hh.
        -- change (e_hash (concrete K E) h) with (e_hash E h). eapply sole_attribute_read; [exact Hat|exact Hok|exact Hsole|exact Hval|exact (Hsl _ _ Hsole)|].
           change (e_asn1_octets (concrete K E)) with (unmarshalOctets (x509P7 K)). unfold unmarshalOctets, unmarshal. rewrite <- (app_nil_r digest). rewrite (bytes_field _ _ _ digest [] Hdig Hdd). reflexivity.
        -- intros H24. destruct (Hctype H24) as (value' & ct & Hs' & Hct' & Hv'). pose proof (Hdl _ _ Hv' (Hsl _ _ Hs')) as Hdd'. eapply sole_attribute_read; [exact Hat|exact Hok|exact Hs'|exact Hv'|exact (Hsl _ _ Hs')|].
           change (e_asn1_oid (concrete K E)) with (unmarshalOid (x509P7 K)). unfold unmarshalOid, unmarshal. rewrite <- (app_nil_r ct).
           assert (valid_oid (s_content_type (ds_doc g))) as Hvo by (unfold doc_oids in HV; apply Forall_inv in HV; exact HV).
           rewrite (oid_field _ _ _ ct [] Hct' Hvo Hdd'). rewrite Hct. reflexivity.
        -- destruct (C61_signed_bytes (x509P7 K) raw p info Hp) as (_ & c1 & b1 & Hb1 & Hb2 & _ & Hb3); [rewrite Hinfo; left; reflexivity|].
           rewrite Hat in Hb1. rewrite (attributes_der_unique _ _ Hb1 _ Hcc) in Hb2. rewrite (der_element_unique _ _ _ _ _ _ Hdata Hb2). exact Hb3.
  - intros d Hd Hsd Hnd. rewrite CS3 in Hnd. assert (HF : exists dd, In dd (ds_certs g) /\ e_cert_andr (concrete K E) (snd dd) = Some d).
    { clear -Fcs Hd. induction Fcs as [|x y l cs (H1 & H2) F IH]; [contradiction|]. destruct Hd as [-> |Hd]; [exists x; split; [left; reflexivity|assumption]|]. destruct (IH Hd) as (dd & H3 & H4). exists dd. split; [right; exact H3|exact H4]. }
    destruct HF as (dd & Hdd & Hde). destruct (HR _ Hdd) as (c' & Hc' & _ & Hs' & Hi' & _). change (e_cert_andr (withX509 K E) (snd dd)) with (e_cert_andr (concrete K E) (snd dd)) in Hc'. assert (c' = d) as -> by congruence.
    assert (dd = ds_cert g) as ->. { apply Huniq; [exact Hdd|congruence|]. rewrite <- Hi', <- Hiss. exact Hnd. }
    congruence.
Qed.
Lemma realise_all (P : jar_signer -> Prop) l : Forall (fun g => exists j, P j /\ realises g j) l -> exists js, Forall P js /\ Forall2 realises l js.
Proof. induction 1 as [|g l (j & Hj & Hr) _ (js & IH1 & IH2)]; [exists []; split; constructor|]. exists (j :: js). split; constructor; assumption. Qed.
Lemma realises_length l js : Forall2 realises l js -> List.length l = List.length js.
Proof. induction 1 as [|g j l js _ _ IH]; [reflexivity|]. cbn [List.length]. rewrite IH. reflexivity. Qed.
Lemma realises_in l js g : Forall2 realises l js -> In g l -> exists j, In j js /\ realises g j.
Proof. induction 1 as [|x j l js Hx _ IH]; intros HI; [contradiction|]. destruct HI as [-> |HI]; [exists j; split; [left; reflexivity|exact Hx]|]. destruct (IH HI) as (j' & H1 & H2). exists j'. split; [right; exact H1|exact H2]. Qed.
Lemma realises_in_r l js j : Forall2 realises l js -> In j js -> exists g, In g l /\ realises g j.
Proof. induction 1 as [|x y l js Hx _ IH]; intros HI; [contradiction|]. destruct HI as [-> |HI]; [exists x; split; [left; reflexivity|exact Hx]|]. destruct (IH HI) as (g & H1 & H2). exists g. split; [right; exact H1|exact H2]. Qed.

(** With the real PKCS#7 parser, certificate parser and attribute encoder in place. *)
Theorem C78_honest_apk_verifies : forall K E S apk man hasSigningBlock minSdk maxSdk signers, sched_ok S ->
  honest_apk K E S apk man hasSigningBlock minSdk maxSdk signers ->
  exists chains, verifySchemeV1 (concrete K E) S apk hasSigningBlock minSdk maxSdk = Ret (chains, None) /\
    zlen chains = zlen signers /\
    (forall ch, In ch chains -> exists g t, In g signers /\ map c_raw ch = snd (ds_cert g) :: t) /\
    (forall g, In g signers -> exists ch t, In ch chains /\ map c_raw ch = snd (ds_cert g) :: t).
Proof.
  intros K E S apk man hv minSdk maxSdk signers HS [Hs Hd Hz Ha Hb Hm He Hf Hapk].
  destruct (realise_all (honest_signer (concrete K E) S apk man hv minSdk maxSdk) signers) as (js & HJ & HR).
  { apply Forall_forall. intros g Hg. apply documents_signer. exact (proj1 (Forall_forall _ _) Ha g Hg). }
  assert (HL : zlen js = zlen signers) by (unfold zlen; rewrite (realises_length _ _ HR); reflexivity).
  destruct (C54_v1_completeness (concrete K E) S apk man hv minSdk maxSdk js HS) as (chains & H1 & H2 & H3 & H4).
  { constructor; try assumption.
    - split; [|rewrite HL; apply Hs]. intros E0. subst js. apply realises_length in HR. destruct signers; [apply (proj1 Hs); reflexivity|discriminate].
    - replace (map jg_name js) with (map ds_name signers); [exact Hd|]. clear -HR. induction HR as [|g j l js (Hn & _) _ IH]; [reflexivity|]. cbn [map]. rewrite Hn, IH. reflexivity.
    - intros f x ext Hin Hn Hx. destruct (Hb f x ext Hin Hn Hx) as (g & Hg & ->). destruct (realises_in _ _ _ HR Hg) as (j & Hj & (_ & Hbk & _)). exists j. split; [exact Hj|congruence]. }
  exists chains. split; [exact H1|]. split; [congruence|]. split.
  - intros ch Hch. destruct (H3 ch Hch) as (j & t & Hj & Et). destruct (realises_in_r _ _ _ HR Hj) as (g & Hg & (_ & _ & Hr)). exists g, t. split; [exact Hg|]. rewrite <- Et, Hr. reflexivity.
  - intros g Hg. destruct (realises_in _ _ _ HR Hg) as (j & Hj & (_ & _ & Hr)). destruct (H4 j Hj) as (ch & t & Hch & Et). exists ch, t. split; [exact Hch|]. rewrite Et, Hr. reflexivity.
Qed.
Print Assumptions C78_honest_apk_verifies.

(** A self-signed certificate with RSA key, and a PKCS#7 object with signed attributes. *)
Definition d_cert : bytes := x_cert (x_rsa x_modulus) [x_ski].
Definition d_cert_doc : cert_doc := x_doc (x_rsa x_modulus) (GRsa 61731 3) [x_ski_doc].
Definition d_sig : bytes := d_cert ++ toy_hash HSha1 (tlv x31 (e_attrs [] sf)).
Definition d_signer : bytes :=
  ToyPkcs7.seq [tlv x02 [x01]; ToyPkcs7.seq [x_name; tlv x02 [x2a]]; ToyPkcs7.seq [e_sha1; e_null]; tlv xa0 (e_attrs [] sf); ToyPkcs7.seq [pkcs [x01; x01]; e_null]; tlv x04 d_sig].
Definition d_block : bytes :=
  ToyPkcs7.seq [pkcs [x07; x02]; tlv xa0 (ToyPkcs7.seq [tlv x02 [x01]; ToyPkcs7.set [ToyPkcs7.seq [e_sha1; e_null]]; ToyPkcs7.seq [pkcs [x07; x01]]; tlv xa0 d_cert; ToyPkcs7.set [d_signer]])].
Definition d_info : signer_doc := {|
  sd_version := 1; sd_issuer := x_name; sd_serial := 42; sd_digest := ([1; 3; 14; 3; 2; 26], Some e_null);
  sd_attrs := Some [([1; 2; 840; 113549; 1; 9; 3], ToyPkcs7.set [pkcs [x07; x01]]); ([1; 2; 840; 113549; 1; 9; 4], ToyPkcs7.set [tlv x04 (toy_hash HSha1 sf)])];
  sd_enc := ([1; 2; 840; 113549; 1; 1; 1], Some e_null); sd_signature := d_sig; sd_unauth := None |}.
Definition d_doc : signed_doc := {|
  s_version := 1; s_digests := [([1; 3; 14; 3; 2; 26], Some e_null)]; s_content_type := [1; 2; 840; 113549; 1; 7; 1];
  s_certs := Some d_cert; s_signers := [d_info] |}.
Definition d_jar : zip := jar mf sf d_block the_manifest_xml a_txt.
Definition d_honest : doc_signer := {|
  ds_name := s2b "A"; ds_ext := s2b ".RSA"; ds_block := jfile "META-INF/A.RSA" d_block; ds_sf := jfile "META-INF/A.SF" sf;
  ds_doc := d_doc; ds_info := d_info; ds_certs := [(d_cert_doc, d_cert)]; ds_cert := (d_cert_doc, d_cert); ds_sm := jar_sm |}.
Lemma d_cert_good : good_certificate toy_k (d_cert_doc, d_cert).
Proof.
  split; cbn [fst snd].
  - apply x_cert_der; [apply x_rsa_der; [vm_compute; reflexivity|lia|reflexivity]|constructor; [exact x_ski_der|constructor]|vm_compute; reflexivity|vm_compute; reflexivity].
  - intros l x El Hx. assert (l = [x_ski_doc]) as -> by (cbn in El; congruence). destruct Hx as [<-|[]]. apply vo_key_id with (b := s2b "id"). der_tlv 0 4 false.
Qed.
Lemma d_document : signed_data_der d_doc d_block /\ Forall valid_oid (doc_oids d_doc) /\ (exists o, der o d_block) /\ zlen d_block < 2 ^ 31.
Proof.
  assert (HA : algorithm_der ([1; 3; 14; 3; 2; 26], Some e_null) (ToyPkcs7.seq [e_sha1; e_null])).
  { exists e_sha1, e_null. split; [oid_tlv|]. split; [split; [exact null_example|reflexivity]|]. der_tlv 0 16 true. }
  assert (HI : integer_element 42 (tlv x02 [x2a])) by (apply int_tlv; vm_compute; reflexivity).
  split; [|split; [|split]].
  - exists (tlv x02 [x01]), [ToyPkcs7.seq [e_sha1; e_null]]. eexists _, (pkcs [x07; x01]), _, _, [d_signer], _, _, (pkcs [x07; x02]), _.
    split; [cbn; lia|]. split; [exact integer_example|]. split; [constructor; [exact HA|constructor]|]. split; [der_tlv 0 17 true|].
    split; [oid_tlv|]. split; [der_tlv 0 16 true|]. split; [cbn [optional s_certs d_doc]; der_tlv 2 0 true|].
    split; [|split; [der_tlv 0 17 true|split; [der_tlv 0 16 true|split; [oid_tlv|split; [der_tlv 2 0 true|unfold d_block; cbn [concat]; der_tlv 0 16 true]]]]].
    constructor; [|constructor]. exists (tlv x02 [x01]), (tlv x02 [x2a]). eexists _, _, _, (ToyPkcs7.seq [pkcs [x01; x01]; e_null]), _, [].
    split; [cbn; lia|]. split; [exact integer_example|]. split; [exact HI|].
    split; [eexists 0, 16, true, _; apply der_element_element; [der_tlv 0 16 true|reflexivity]|].
    split; [der_tlv 0 16 true|]. split; [exact HA|]. split.
    + exists (e_attrs [] sf). split; [|split; [constructor; [|constructor; [|constructor]]|der_tlv 2 0 true]].
      * unfold e_attrs. rewrite <- (app_nil_r (ToyPkcs7.seq [pkcs [x09; x04]; ToyPkcs7.set [tlv x04 (toy_hash HSha1 sf)]])).
        constructor; [|constructor; [|constructor]].
        -- exists ([x2a; x86; x48; x86; xf7; x0d; x01] ++ [x09; x03]), (pkcs [x09; x03]). split; [apply oid_der_example; [apply valid_example|]; vm_compute; reflexivity|].
           split; [|cbn [snd concat app]]; [der_tlv 0 6 false|der_tlv 0 16 true].
        -- exists ([x2a; x86; x48; x86; xf7; x0d; x01] ++ [x09; x04]), (pkcs [x09; x04]). split; [apply oid_der_example; [apply valid_example|]; vm_compute; reflexivity|].
           split; [der_tlv 0 6 false|]. cbn [snd concat app]. der_tlv 0 16 true.
      * eexists 0, 17, true, _. apply der_element_element; [der_tlv 0 17 true|reflexivity].
      * eexists 0, 17, true, _. apply der_element_element; [der_tlv 0 17 true|reflexivity].
    + split; [|split; [der_tlv 0 4 false|split; [reflexivity|der_tlv 0 16 true]]].
      exists (pkcs [x01; x01]), e_null. split; [oid_tlv|]. split; [split; [exact null_example|reflexivity]|der_tlv 0 16 true].
  - cbn. repeat (constructor; [apply valid_example; vm_compute; reflexivity|]). constructor.
  - apply (C40_output_is_der d_block d_block); [vm_compute; reflexivity|vm_compute; reflexivity].
  - vm_compute. reflexivity.
Qed.

Lemma d_signed_attrs : doc_signs jar_env (s_content_type d_doc) d_info (m_rawData jar_sm) 33 (tlv x31 (e_attrs [] sf)).
Proof.
  assert (m_rawData jar_sm = sf) as -> by (vm_compute; reflexivity).
  eapply (DocAttributes _ _ _ _ _ _ HSha1 (ToyPkcs7.set [tlv x04 (toy_hash HSha1 sf)]) (tlv x04 (toy_hash HSha1 sf)) (e_attrs [] sf)).
  * reflexivity.
  * left. reflexivity.
  * eexists [_], []. split; [reflexivity|]. intros a [<-|[]]. discriminate.
  * der_tlv 0 4 false.
  * der_tlv 0 17 true.
  * intros _. exists (ToyPkcs7.set [pkcs [x07; x01]]), (pkcs [x07; x01]). split; [|split; [oid_tlv|der_tlv 0 17 true]]. eexists [], [_]. split; [reflexivity|]. intros a [<-|[]]. discriminate.
  * unfold e_attrs. rewrite <- (app_nil_r (ToyPkcs7.seq [pkcs [x09; x04]; ToyPkcs7.set [tlv x04 (toy_hash HSha1 sf)]])).
    constructor; [|constructor; [|constructor]].
    -- exists ([x2a; x86; x48; x86; xf7; x0d; x01] ++ [x09; x03]), (pkcs [x09; x03]). split; [apply oid_der_example; [apply valid_example|]; vm_compute; reflexivity|].
       split; [|cbn [snd concat app]]; [der_tlv 0 6 false|der_tlv 0 16 true].
    -- exists ([x2a; x86; x48; x86; xf7; x0d; x01] ++ [x09; x04]), (pkcs [x09; x04]). split; [apply oid_der_example; [apply valid_example|]; vm_compute; reflexivity|].
       split; [der_tlv 0 6 false|]. cbn [snd concat app]. der_tlv 0 16 true.
  * der_tlv 0 17 true.
Qed.
Lemma d_signature_ok c : e_cert_andr (concrete toy_k jar_env) d_cert = Some c -> v1_sig_ok (concrete toy_k jar_env) c (tlv x31 (e_attrs [] sf)) d_sig 3.
Proof.
  intros Hc. assert (HQ : exists c', e_cert_andr (concrete toy_k jar_env) d_cert = Some c' /\ e_cert_check (concrete toy_k jar_env) c' 3 (tlv x31 (e_attrs [] sf)) (padded c' d_sig) = true) by (eexists; split; vm_compute; reflexivity).
  destruct HQ as (c' & Hc' & HQ). assert (c = c') as -> by congruence. apply OkX509; [lia|intros [H|[H|[H|[]]]]; discriminate H|exact HQ].
Qed.
Lemma d_covered path f : covered_file d_jar path f -> covered_file good_jar path f.
Proof.
  intros ((Hg & Hd) & Hx & Hp). split; [|split; assumption]. split; [|exact Hd].
  apply (mget_in _ bytes_eqb_eq) in Hg. repeat (destruct Hg as [Hg|Hg]; [apply pair_equal_spec in Hg as [<- <-]; try (exfalso; eapply Hp; reflexivity); try (vm_compute; reflexivity)|]). destruct Hg.
Qed.
Strategy opaque [jar_sm jar_man sf mf d_block d_sig d_cert].
Lemma d_honest_documents : honest_documents toy_k jar_env toy_sched d_jar jar_man false 10 33 d_honest.
Proof.
  destruct d_document as (H1 & H2 & (o & H3) & H4). destruct good_honest_signer as [_ _ _ _ _ _ _ Hb Hm Hv Hl].
  constructor.
  - cbn [ds_name d_honest]. intros [H|[]]. discriminate H.
  - left. reflexivity.
  - exists d_block, o. split; [|auto]. split; [right; right; left; reflexivity|]. split; [reflexivity|]. split; reflexivity.
  - split; [cbn [ds_doc d_honest s_certs d_doc ds_certs map snd concat]; rewrite app_nil_r; reflexivity|constructor; [exact d_cert_good|constructor]].
  - reflexivity.
  - split; [left; reflexivity|]. split; [reflexivity|]. split; [exact x_name_der|]. intros (l & x & El & Hx & Hc & _). assert (l = [x_ski_doc]) as -> by (cbn in El; congruence). destruct Hx as [<-|[]]. discriminate Hc.
  - intros c [<-|[]] _ _. reflexivity.
  - exists sf. split; [split; [right; left; reflexivity|]; split; [reflexivity|]; split; reflexivity|exact jar_sm_ok].
  - exists 3, (tlv x31 (e_attrs [] sf)). split; [vm_compute; auto 20|]. split.
    + exact d_signed_attrs.
    + exact d_signature_ok.
  - cbn [ds_sm d_honest]. exact good_binds.
  - cbn [ds_sm d_honest]. exact good_main.
  - cbn [ds_sm d_honest]. cbn [jg_sm good_signer] in Hv. exact Hv.
  - cbn [ds_sm d_honest]. cbn [jg_sm good_signer] in Hl. intros path f Hc. exact (Hl path f (d_covered path f Hc)).
Qed.
Example C78_nonvacuous : honest_apk toy_k jar_env toy_sched d_jar jar_man false 10 33 [d_honest].
Proof.
  destruct C54_nonvacuous as [_ _ Hz _ _ Hm He Hf Ha]. constructor.
  - split; [discriminate|vm_compute; discriminate].
  - constructor; [intros []|constructor].
  - split; [exact (proj1 Hz)|reflexivity].
  - constructor; [exact d_honest_documents|constructor].
  - intros f x ext Hin Hn Hx. exists d_honest. split; [left; reflexivity|].
    destruct (block_name_facts f x ext Hn Hx) as [Hb _]. repeat (destruct Hin as [<-|Hin]; [try discriminate Hb; try reflexivity|]). destruct Hin.
  - exists (jfile "META-INF/MANIFEST.MF" mf), mf. split; [split; [left; reflexivity|]; split; [reflexivity|]; split; reflexivity|]. exact jar_man_ok.
  - intros name at_ Hn. apply (mget_in _ bytes_eqb_eq) in Hn. apply (in_map fst) in Hn. cbn [fst] in Hn.
    assert (HE : map fst (m_entries jar_man) = [s2b "AndroidManifest.xml"; s2b "a.txt"]) by (vm_compute; reflexivity). rewrite HE in Hn.
    destruct Hn as [<-|[<-|[]]]; eexists; vm_compute; reflexivity.
  - intros path f Hc. exact (Hf path f (d_covered path f Hc)).
  - exists (jfile "AndroidManifest.xml" the_manifest_xml). split; reflexivity.
Qed.
