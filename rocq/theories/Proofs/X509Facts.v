(** x509andr: what a successful parse says *)
From Coq Require Import Lia.
From Verif.Model Require Import Bytes Env Ber Asn1 Pkcs7 X509.
From Verif.Spec Require Import Ber Asn1 Asn1Value Pkcs7.
From Verif.Proofs Require Import BytesFacts BerFacts Asn1Codec Asn1Header Asn1Value Asn1Decode DerFacts DerSize Pkcs7Facts Pkcs7Parse Pkcs7Honest.

Section F.
  Variable K : xenv.
  Notation X := (k_text K).

  (* a structure is decoded from its own bytes only *)
  Lemma struct_local raw fs old s v r : parseField X (TyStruct raw fs) noParams old s = (v, Some r) ->
    exists full inner, s = full ++ r /\ element 0 16 true inner full /\
      (exists l, v = VStruct (if raw then full else []) l /\ parseFields X fs (fieldsOf old (zeroFields fs)) inner = (l, true)) /\
      forall r', parseField X (TyStruct raw fs) noParams old (full ++ r') = (v, Some r').
  Proof.
    intros H. apply parseField_mandatory in H; [|discriminate|reflexivity|reflexivity]. destruct H as (t & u & inner & _ & HH & HC).
    destruct (parseHeader_universal _ _ _ _ _ _ TagSequence true HH eq_refl) as (full & -> & HE); [discriminate|discriminate|].
    rewrite zlen_app, Z.add_simpl_r, takeZ_app in HC by reflexivity. exists full, inner. split; [reflexivity|]. split; [exact HE|]. cbn [parseContent] in HC.
    destruct (parseFields X fs (fieldsOf old (zeroFields fs)) inner) as [l ok] eqn:EF. destruct ok; [|congruence]. split.
    - exists l. split; [congruence|reflexivity].
    - intros r'. rewrite (field_parse X (TyStruct raw fs) noParams old 0 16 true inner full r' false TagSequence true); try assumption; try reflexivity; try discriminate; try (right; auto; fail).
      cbn [parseContent]. rewrite EF. congruence.
  Qed.
  Lemma fields_inv p t fs olds s l : parseFields X (FCons p t fs) olds s = (l, true) ->
    exists v s1 l', l = v :: l' /\ parseField X t p (match olds with o :: _ => o | [] => zeroVal t end) s = (v, Some s1) /\ parseFields X fs (tl olds) s1 = (l', true).
  Proof.
    rewrite parseFields_cons. destruct (parseField X t p _ s) as [v [s1|]]; [|congruence]. destruct (parseFields X fs (tl olds) s1) as [l' ok] eqn:E.
    intros H. assert (ok = true) as -> by congruence. exists v, s1, l'. repeat split; [congruence|exact E].
  Qed.

  Lemma unmarshalAll_some ty b v : unmarshalAll K ty b = Some v <-> unmarshal X ty b = (v, Some []).
  Proof. unfold unmarshalAll. destruct (unmarshal X ty b) as [w [[|]|]]; split; intros H; congruence. Qed.

  (* the subject public key information of a decoded certificate *)
  Lemma certificate_spki s v r : unmarshal X tyCertificate s = (v, Some r) ->
    exists full, s = full ++ r /\ structRaw v = full /\ (exists inner, element 0 16 true inner full) /\
      (forall r', unmarshal X tyCertificate (full ++ r') = (v, Some r')) /\
      let spki := field 6 (field 0 v) in unmarshal X tySpki (structRaw spki) = (spki, Some []).
  Proof.
    unfold unmarshal. intros H. apply struct_local in H as (full & inner & -> & HE & (l & -> & HF) & HL). exists full. split; [reflexivity|]. split; [reflexivity|]. split; [exists inner; exact HE|]. split; [exact HL|].
    clear HE HL. apply fields_inv in HF as (tbs & s1 & l1 & -> & HT & _). cbn [field nth].
    apply struct_local in HT as (f2 & i2 & _ & _ & (l2 & -> & HF) & _). cbn [field].
    do 6 (apply fields_inv in HF as (? & ? & ? & -> & _ & HF)). apply fields_inv in HF as (spki & s3 & l3 & -> & HS & _). cbn [nth].
    apply struct_local in HS as (f3 & i3 & _ & _ & (l4 & E & _) & HL). pose proof (HL []) as HL0. rewrite app_nil_r in HL0. rewrite E at 1. exact HL0.
  Qed.

  Lemma parse_certificate_iff b c : parseCertificateForGo K b = Some c <-> exists v, unmarshal X tyCertificate b = (v, Some []) /\ parseCertificate K v = Some c.
  Proof.
    unfold parseCertificateForGo. split.
    - destruct (unmarshalAll K tyCertificate b) as [v|] eqn:E; [|discriminate]. apply unmarshalAll_some in E. eauto.
    - intros (v & H & HP). apply unmarshalAll_some in H. rewrite H. exact HP.
  Qed.
  Lemma parseCertificate_raw v c : parseCertificate K v = Some c -> c_raw c = structRaw v.
  Proof.
    unfold parseCertificate. destruct (parsePublicKey K _ _) as [[key re]|]; [|discriminate]. destruct (match key with GRsa _ _ => _ | _ => _ end); [|discriminate].
    destruct (parseName K _); [|discriminate]. destruct (parseName K _); [|discriminate]. destruct (parseExtensions K _); [|discriminate]. intros H.
    match type of H with Some ?x = _ => assert (c = x) as -> by congruence end. reflexivity.
  Qed.
  Lemma mapM_forall2 {A B} (f : A -> option B) l : forall l', mapM f l = Some l' <-> Forall2 (fun x y => f x = Some y) l l'.
  Proof.
    induction l as [|x l IH]; intros l'; cbn [mapM].
    - split; [intros H; assert (l' = []) as -> by congruence; constructor|intros H; inversion H; reflexivity].
    - fold (mapM f). destruct (f x) as [y|] eqn:E.
      + destruct (mapM f l) as [t|] eqn:M.
        * split; [intros H; assert (l' = y :: t) as -> by congruence; constructor; [exact E|apply IH; reflexivity]|].
          intros H. inversion H as [|? ? ? ? Ha Hb]; subst. apply IH in Hb. congruence.
        * split; [discriminate|]. intros H. inversion H as [|? ? ? ? Ha Hb]; subst. apply IH in Hb. congruence.
      + split; [discriminate|]. intros H. inversion H; subst. congruence.
  Qed.
  Lemma certificatesLoop_iff : forall fuel data vs, (List.length data <= fuel)%nat ->
    (certificatesLoop K fuel data = Some vs <-> exists fs, data = concat fs /\ Forall2 (fun f v => unmarshal X tyCertificate f = (v, Some [])) fs vs).
  Proof.
    induction fuel as [|fuel IH]; intros data vs HL.
    - destruct data; [|cbn in HL; lia]. cbn [certificatesLoop]. split.
      + intros H. assert (vs = []) as -> by congruence. exists []. split; [reflexivity|constructor].
      + intros (fs & E & F). destruct F as [|f v fs vs Hf F]; [reflexivity|]. exfalso. cbn [concat] in E. symmetry in E. apply app_eq_nil in E as [-> _].
        apply certificate_spki in Hf as (full & E1 & _ & (inner & HE) & _). apply element_size in HE. pose proof (zlen_nonneg inner). destruct full; [change (zlen ([]:bytes)) with 0 in HE; lia|discriminate].
    - destruct data as [|x data'].
      { cbn [certificatesLoop]. split.
        - intros H. assert (vs = []) as -> by congruence. exists []. split; [reflexivity|constructor].
        - intros (fs & E & F). destruct F as [|f v fs vs Hf F]; [reflexivity|]. exfalso. cbn [concat] in E. symmetry in E. apply app_eq_nil in E as [-> _].
          apply certificate_spki in Hf as (full & E1 & _ & (inner & HE) & _). apply element_size in HE. pose proof (zlen_nonneg inner). destruct full; [change (zlen ([]:bytes)) with 0 in HE; lia|discriminate]. }
      set (data := x :: data') in *. assert (HN : data <> []) by discriminate.
      assert (EL : certificatesLoop K (Datatypes.S fuel) data = match unmarshal X tyCertificate data with (v, Some rest) => option_map (cons v) (certificatesLoop K fuel rest) | (_, None) => None end) by reflexivity.
      rewrite EL. split.
      + destruct (unmarshal X tyCertificate data) as [v [rest|]] eqn:EU; [|discriminate]. destruct (certificatesLoop K fuel rest) as [t|] eqn:ET; [|discriminate]. cbn [option_map]. intros H. assert (vs = v :: t) as -> by congruence.
        apply certificate_spki in EU as (full & -> & _ & (inner & HE) & HLoc & _). pose proof (element_size _ _ _ _ _ HE) as HS. pose proof (zlen_nonneg inner).
        apply IH in ET as (fs & -> & F); [|rewrite app_length in HL; unfold zlen in *; lia].
        exists (full :: fs). split; [reflexivity|]. constructor; [|exact F]. specialize (HLoc []). rewrite app_nil_r in HLoc. exact HLoc.
      + intros (fs & E & F). destruct F as [|f v fs vs' Hf F]; [cbn in E; congruence|]. cbn [concat] in E. rewrite E.
        apply certificate_spki in Hf as (full & E1 & _ & (inner & HE) & HLoc & _). rewrite app_nil_r in E1. subst f. rewrite HLoc. pose proof (element_size _ _ _ _ _ HE) as HS. pose proof (zlen_nonneg inner).
        assert (HI : certificatesLoop K fuel (concat fs) = Some vs'). { apply IH; [rewrite E, app_length in HL; unfold zlen in *; lia|]. exists fs. auto. }
        rewrite HI. reflexivity.
  Qed.
  (* a list of certificates is parsed like each of them *)
  Lemma parse_certificates_iff data cs : parseCertificatesForGo K data = Some cs <->
    exists fs, data = concat fs /\ Forall2 (fun f c => parseCertificateForGo K f = Some c) fs cs.
  Proof.
    unfold parseCertificatesForGo. split.
    - destruct (certificatesLoop K (List.length data) data) as [vs|] eqn:E; [|discriminate]. intros H. apply mapM_forall2 in H. apply certificatesLoop_iff in E as (fs & -> & F); [|lia]. exists fs. split; [reflexivity|].
      revert cs H. induction F as [|f v fs vs Hf F IH]; intros cs H; inversion H; subst; constructor; [|apply IH; assumption]. apply parse_certificate_iff. eauto.
    - intros (fs & -> & F). assert (G : exists vs, Forall2 (fun f v => unmarshal X tyCertificate f = (v, Some [])) fs vs /\ Forall2 (fun v c => parseCertificate K v = Some c) vs cs).
      { induction F as [|f c fs cs Hf F (vs & H1 & H2)]; [exists []; split; constructor|]. apply parse_certificate_iff in Hf as (v & Hv & Hc). exists (v :: vs). split; constructor; assumption. }
      destruct G as (vs & H1 & H2). rewrite (proj2 (certificatesLoop_iff (List.length (concat fs)) (concat fs) vs (le_n _))) by eauto. apply mapM_forall2. exact H2.
  Qed.
  Lemma parse_certificate_raw b c : parseCertificateForGo K b = Some c -> c_raw c = b.
  Proof.
    intros H. apply parse_certificate_iff in H as (v & H & HC). rewrite (parseCertificate_raw _ _ HC). apply certificate_spki in H as (full & -> & E & _). rewrite app_nil_r. exact E.
  Qed.
End F.
