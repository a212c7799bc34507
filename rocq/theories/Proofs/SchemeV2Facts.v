(** Lemmas about Model/SchemeV2.v *)
From Coq Require Import String.
From Coq Require Import Lia.
From Verif.Model Require Import Bytes ApiLevel Env Utils SigBlock Result Signer SchemeV2.
From Verif.Spec Require Import Encoding Algorithms Signer.
From Verif.Proofs Require Import BytesFacts UtilsFacts SignerFacts.

Lemma enc_rec_read_u32 a v : is_uint32 a -> read_u32 (enc_rec (a, v)) = Some (a, v).
Proof. intro. unfold enc_rec, le32. cbn [fst snd]. now apply read_u32_enc. Qed.

Lemma schemeIdToBlockId_spec s : schemeIdToBlockId s = scheme_block_id s.
Proof.
  unfold schemeIdToBlockId, schemeIdV2, schemeIdV3, schemeIdV31, scheme_block_id.
  destruct (Z.eqb_spec s 2); [now subst|]. destruct (Z.eqb_spec s 3); [now subst|].
  destruct (Z.eqb_spec s 31); [now subst|].
  destruct s as [|p|p]; try reflexivity.
  do 5 (destruct p as [p|p|]; try reflexivity; try contradiction); destruct p; try reflexivity; contradiction.
Qed.

(** the block is among those kept for the stripping check *)
Definition has (xb : list (Z * bytes)) (id : Z) : Prop := exists p, zget id xb = Some p.

Definition attr_item_ok (maxSdk : Z) (xb : list (Z * bytes)) (item : bytes) : Prop :=
  exists a, item = enc_rec a /\ is_uint32 (fst a) /\ v2_attribute_ok maxSdk (has xb) a.

Lemma v2Attributes_spec maxSdk xb ok items : forall r,
  let r' := v2Attributes items ok maxSdk xb r in
  ext r r' /\ (errors r' = errors r -> ok = true /\ Forall (attr_item_ok maxSdk xb) items) /\
  (ok = true -> Forall (attr_item_ok maxSdk xb) items -> quiet r r').
Proof.
  induction items as [|item items IH]; intro r; cbn [v2Attributes]; cbn zeta.
  - destruct ok.
    + repeat split; auto; exists []; now rewrite app_nil_r.
    + split; [auto|]. split; [|discriminate]. intro H. exfalso. eapply addError_worse; eassumption.
  - assert (Bad : forall e, (errors (addError r e) = errors r -> False)) by (intros e H; eapply addError_worse; eassumption).
    assert (BadIt : ~ attr_item_ok maxSdk xb item -> forall e,
       ext r (addError r e) /\ (errors (addError r e) = errors r -> ok = true /\ Forall (attr_item_ok maxSdk xb) (item :: items)) /\
       (ok = true -> Forall (attr_item_ok maxSdk xb) (item :: items) -> quiet r (addError r e))).
    { intros N e. split; [auto|]. split; [intro H; exfalso; eapply Bad; eassumption|].
      intros _ F. inversion F; contradiction. }
    assert (Good : attr_item_ok maxSdk xb item -> forall r1, quiet r r1 ->
       let r' := v2Attributes items ok maxSdk xb r1 in
       ext r r' /\ (errors r' = errors r -> ok = true /\ Forall (attr_item_ok maxSdk xb) (item :: items)) /\
       (ok = true -> Forall (attr_item_ok maxSdk xb) (item :: items) -> quiet r r')).
    { intros G r1 Q. destruct (IH r1) as (X & A & B). cbn zeta in *. split; [eapply ext_trans; [apply quiet_ext; exact Q | exact X]|].
      split.
      - intro H. rewrite <- (quiet_errors _ _ Q) in H. destruct (A H) as [-> F]. split; [reflexivity | now constructor].
      - intros Ho F. inversion F; subst. eapply quiet_trans; [exact Q | auto]. }
    destruct (read_u32 item) as [[id v]|] eqn:R.
    2:{ apply BadIt. intros ([a v] & -> & U & _). rewrite enc_rec_read_u32 in R by assumption. discriminate. }
    apply read_u32_inv in R as [Ei U].
    assert (Ei' : item = enc_rec (id, v)) by exact Ei. clear Ei. subst item.
    assert (Only : attr_item_ok maxSdk xb (enc_rec (id, v)) -> v2_attribute_ok maxSdk (has xb) (id, v)).
    { intros ([a' v'] & E & U' & O). pose proof (enc_rec_read_u32 id v U) as D. rewrite E in D.
      rewrite enc_rec_read_u32 in D by assumption. now inversion D; subst. }
    assert (Yes : v2_attribute_ok maxSdk (has xb) (id, v) -> attr_item_ok maxSdk xb (enc_rec (id, v))).
    { intro O. exists (id, v). now repeat split. }
    unfold attrV2StrippingProtection. destruct (Z.eqb_spec id 3203395597) as [->|Nid].
    + unfold SupportsSigV3, V9_0_Pie. destruct (Z.leb_spec 28 maxSdk); cbn [negb].
      * destruct (read_i32 v) as [[s rest]|] eqn:Rv.
        2:{ apply BadIt. intro X. apply Only in X. destruct X as (s & rest & id & E & I & _); [reflexivity | assumption|].
            cbn [snd] in E. rewrite E in Rv. unfold le32 in Rv. rewrite read_i32_enc_id in Rv by exact I. discriminate. }
        apply read_i32_inv in Rv as [-> Rs]. rewrite schemeIdToBlockId_spec.
        assert (Unq : forall s' rest', le_enc 4 s ++ rest = le32 s' ++ rest' -> is_int32 s' -> s' = s).
        { intros s' rest' E I. unfold le32 in E. pose proof (read_i32_enc_id s rest Rs) as D. rewrite E in D.
          rewrite read_i32_enc_id in D by exact I. congruence. }
        destruct (scheme_block_id s) as [b|] eqn:Sb.
        -- destruct (zget b xb) as [p|] eqn:Gb.
           ++ apply Good; [|auto]. apply Yes. intros _ _. exists s, rest, b. repeat split; try assumption; try apply Rs. now exists p.
           ++ apply BadIt. intro X. apply Only in X. destruct X as (s' & rest' & id & E & I & Sid & [p G]); [reflexivity | assumption|].
              cbn [snd] in E. apply Unq in E; [|assumption]. subst s'. congruence.
        -- assert (N : ~ attr_item_ok maxSdk xb (enc_rec (3203395597, le_enc 4 s ++ rest))).
           { intro X. apply Only in X. destruct X as (s' & rest' & id & E & I & Sid & G); [reflexivity | assumption|].
             cbn [snd] in E. apply Unq in E; [|assumption]. subst s'. congruence. }
           destruct (IH (addError r "unknown stripped scheme id")) as (X & _ & _). cbn zeta in X.
           assert (W : worse r (v2Attributes items ok maxSdk xb (addError r "unknown stripped scheme id"))).
           { eapply worse_trans_r; [apply addError_worse | exact X]. }
           split; [apply W|]. split; [intro H'; exfalso; now apply W|]. intros _ F. inversion F; contradiction.
      * apply Good; [|auto]. apply Yes. intros _ H'. lia.
    + apply Good; [|auto]. apply Yes. intros H _. cbn in H. contradiction.
Qed.

Lemma attribute_items maxSdk xb attrs items ok : lpItems attrs = (items, ok) ->
  (ok = true /\ Forall (attr_item_ok maxSdk xb) items) <->
  exists al, attribute_list attrs al /\ Forall (v2_attribute_ok maxSdk (has xb)) al.
Proof.
  intro L. split.
  - intros [-> F]. apply lpItems_inv in L as [-> Fi].
    assert (H : exists al, items = map enc_rec al /\ Forall (fun a => is_uint32 (fst a)) al /\ Forall (v2_attribute_ok maxSdk (has xb)) al).
    { clear Fi. induction F as [|x l (a & -> & U & O) F (al & -> & U' & O')].
      - exists []. repeat split; constructor.
      - exists (a :: al). repeat split; constructor; assumption. }
    destruct H as (al & -> & U & O). exists al. split; [|assumption]. split; [reflexivity|].
    rewrite Forall_map in Fi. apply Forall_forall. intros x Hx. rewrite Forall_forall in U, Fi. split; auto.
  - intros (al & [-> F] & O).
    rewrite lpItems_enc in L.
    2:{ rewrite Forall_map. eapply Forall_impl; [|exact F]. now intros ? []. }
    inversion L; subst. split; [reflexivity|]. rewrite Forall_map.
    apply Forall_forall. intros x Hx. rewrite Forall_forall in F, O. exists x. destruct (F x Hx). auto.
Qed.

(** Effect of an accepted signer on the state. *)
Definition accepted (chain : list cert) (k : digest_kind) (digest : bytes) (cds cds' : digests) (r r' : core) : Prop :=
  digest_agrees cds (kind_id k) digest /\ cds' = zset (kind_id k) digest cds /\
  quiet (mkCore (certs r ++ [chain]) (signingLineage r) (warnings r) (errors r)) r'.

Lemma accepted_errors chain k d cds cds' r r' : accepted chain k d cds cds' r r' ->
  errors r' = errors r /\ certs r' = certs r ++ [chain] /\ signingLineage r' = signingLineage r.
Proof. intros (_ & _ & w & ->). auto. Qed.

Lemma accepted_ext chain k d cds cds' r r' : accepted chain k d cds cds' r r' -> ext r r'.
Proof.
  intros (_ & _ & w & ->). repeat split; cbn; [eexists; reflexivity | eexists; reflexivity | exists []; now rewrite app_nil_r].
Qed.

Ltac done_worse := match goal with
  | |- (worse ?r ?r') \/ _ => left; eauto using worse_trans_l, worse_trans_r, ext_trans, quiet_ext, worse_ext
  end.

Theorem v2VerifySigner_sound E maxSdk xb signer cds r cds' r' :
  v2VerifySigner E maxSdk xb signer cds r = Ret (cds', r') ->
  worse r r' \/
  exists chain algo digest k, v2_signer E maxSdk (has xb) signer chain algo digest /\ has_kind algo k /\
    accepted chain k digest cds cds' r r'.
Proof.
  unfold v2VerifySigner. intro H.
  destruct (getLengthPrefixedSlice signer) as [[sd s1]|] eqn:G1; [|inversion H; subst; left; auto].
  destruct (getLengthPrefixedSlice s1) as [[sigs s2]|] eqn:G2; [|inversion H; subst; left; auto].
  destruct (parseSignatures_spec sigs r) as (c & r1 & b & E1 & X1 & F1 & T1). rewrite E1 in H. cbn [obind] in H.
  destruct b; cbn [negb] in H.
  2:{ inversion H; subst. left. now apply F1. }
  destruct (T1 eq_refl) as (Q1 & SL).
  destruct (getLengthPrefixedSlice s2) as [[pk junk]|] eqn:G3; [|inversion H; subst; done_worse].
  apply obind_ret in H as ([r2 keyOk] & PK & H). apply parsePublicKey_spec in PK as [(-> & W & _)|(-> & -> & key & Ek & SV)].
  { cbn [negb] in H. inversion H; subst. done_worse. }
  cbn [negb] in H.
  destruct (getLengthPrefixedSlice sd) as [[digs sd1]|] eqn:G4; [|inversion H; subst; done_worse].
  destruct (getLengthPrefixedSlice sd1) as [[cs sd2]|] eqn:G5; [|inversion H; subst; done_worse].
  destruct (parseCertificates_spec E cs pk r1) as (r3 & m & PC & [(-> & W & _)|(main & others & -> & CL & Spki & ->)]).
  { rewrite PC in H. inversion H; subst. done_worse. }
  rewrite PC in H. destruct (signature_list_kind _ _ _ _ SL) as ((k & K) & Ik).
  set (r3 := mkCore (certs r1 ++ [main :: others]) (signingLineage r1) (warnings r1) (errors r1)) in *.
  assert (X3 : ext r r3).
  { eapply ext_trans; [exact X1|]. unfold r3. repeat split; cbn; [eexists; reflexivity | exists []; now rewrite app_nil_r | exists []; now rewrite app_nil_r]. }
  destruct (parseDigests_spec digs c cds r3 k K Ik) as (cds1 & r4 & b & PD & [(-> & W & _)|(-> & -> & d & DL & Ag & ->)]).
  { rewrite PD in H. cbn in H. inversion H; subst. done_worse. }
  rewrite PD in H. cbn [obind negb] in H.
  destruct (getLengthPrefixedSlice sd2) as [[attrs junk']|] eqn:G6; [|inversion H; subst; done_worse].
  destruct (lpItems attrs) as [items ok] eqn:L. inversion H; subst cds' r'; clear H.
  destruct (v2Attributes_spec maxSdk xb ok items r3) as (X4 & A & B). cbn zeta in *.
  destruct (list_eq_dec (fun a b : verr => ltac:(decide equality; apply string_dec) : {a = b} + {a <> b})
              (errors (v2Attributes items ok maxSdk xb r3)) (errors r3)) as [Eq|Ne].
  - right. exists (main :: others), (bestAlgo c), d, k.
    apply getLP_inv in G1 as [-> ?], G2 as [-> ?], G3 as [-> ?], G4 as [-> ?], G5 as [-> ?], G6 as [-> ?].
    destruct (A Eq) as (Ho & F). pose proof (proj1 (attribute_items maxSdk xb attrs items ok L) (conj Ho F)) as (al & AL & AO).
    split.
    { exists (lp digs ++ lp cs ++ lp attrs ++ junk'), sigs, pk, junk, digs, cs, attrs, junk', al.
      repeat split; try assumption. 2: now apply AL. 2: now apply AL.
      exists (signaturesAlgos c), (bestAlgoSignature c), key, main, others. repeat split; assumption. }
    split; [assumption|]. split; [assumption|]. split; [reflexivity|].
    eapply quiet_trans; [|apply (B Ho F)]. destruct Q1 as (w & ->). exists w. reflexivity.
  - left. eapply worse_trans_l; [exact X3|]. now split.
Qed.

Theorem v2VerifySigner_complete E maxSdk xb signer cds r chain algo digest k :
  v2_signer E maxSdk (has xb) signer chain algo digest -> has_kind algo k ->
  digest_agrees cds (kind_id k) digest ->
  exists r', v2VerifySigner E maxSdk xb signer cds r = Ret (zset (kind_id k) digest cds, r') /\
             accepted chain k digest cds (zset (kind_id k) digest cds) r r'.
Proof.
  intros (sd & sigs & pk & junk & digs & cs & attrs & junk' & al & -> & F1 & F2 & F3 & Esd & F4 & F5 & F6 &
          (algos & sig & key & main & others & SL & Ek & SV & CL & -> & Spki & DL) & AL & AO) K Ag.
  unfold v2VerifySigner. rewrite !getLP_enc by assumption.
  destruct (parseSignatures_spec sigs r) as (c & r1 & b & -> & X1 & Fb & Tb). cbn [obind].
  destruct b. 2:{ exfalso. eapply (proj2 (Fb eq_refl)). eassumption. }
  destruct (Tb eq_refl) as (Q1 & SL'). destruct (signature_list_det _ _ _ _ _ _ _ SL' SL) as (Ea & Eb & Es).
  cbn [negb]. rewrite ?getLP_enc by assumption.
  rewrite (parsePublicKey_ok E c pk sd r1 key) by (assumption || congruence). cbn [obind negb].
  rewrite Esd. rewrite ?getLP_enc by assumption.
  destruct (parseCertificates_spec E cs pk r1) as (r3 & m & -> & [(-> & _ & N)|(m' & o' & -> & CL' & _ & ->)]).
  { exfalso. apply N. eauto. }
  pose proof (cert_list_det _ _ _ _ CL' CL) as D. inversion D; subst m' o'; clear D.
  assert (K' : has_kind (bestAlgo c) k) by congruence.
  assert (Ik : In (bestAlgo c) (signaturesAlgos c)) by (rewrite Ea, Eb; eapply signature_list_kind; eassumption).
  destruct (parseDigests_spec digs c cds (mkCore (certs r1 ++ [main :: others]) (signingLineage r1) (warnings r1) (errors r1)) k K' Ik)
    as (cds1 & r4 & b & -> & [(-> & _ & N)|(-> & -> & d & DL' & _ & ->)]).
  { exfalso. apply N. exists digest. rewrite Ea, Eb. now split. }
  rewrite Ea, Eb in DL'.
  assert (Ed : d = digest).
  { clear - DL DL'. destruct DL as (rs & bf & fi & af & [Er Fr] & _ & Ers & V & N & _).
    destruct DL' as (rs' & bf' & fi' & af' & [Er' Fr'] & _ & Ers' & V' & N' & _).
    assert (Hrs : rs' = rs).
    { rewrite Er in Er'. apply records_shape in Fr as [Sh Fr], Fr' as [Sh' Fr']. apply lps_inj in Er'; [|assumption|assumption].
      symmetry. apply enc_recs_inj; [| |exact Er']; (eapply Forall_impl; [|eassumption]); now intros ? []. }
    rewrite Hrs in Ers'. assert (X : fi = fi').
    { clear - Ers Ers' N N'. rewrite Ers in Ers'. clear Ers.
      revert bf' Ers'. induction bf as [|x bf IH]; intros [|y bf'] E; inversion E; subst.
      - reflexivity.
      - exfalso. eapply N. apply in_or_app. right. now left.
      - exfalso. eapply N'. apply in_or_app. right. now left.
      - eauto. }
    subst fi'. eapply holds_value_det; eassumption. }
  subst d. cbn [obind negb]. rewrite ?getLP_enc by assumption.
  destruct (lpItems attrs) as [items ok] eqn:L.
  pose proof (proj2 (attribute_items maxSdk xb attrs items ok L) (ex_intro _ al (conj AL AO))) as (Ho & Fa).
  eexists. split; [reflexivity|]. split; [assumption|]. split; [reflexivity|].
  destruct (v2Attributes_spec maxSdk xb ok items (mkCore (certs r1 ++ [main :: others]) (signingLineage r1) (warnings r1) (errors r1))) as (_ & _ & B).
  eapply quiet_trans; [|apply (B Ho Fa)]. destruct Q1 as (w & ->). exists w. reflexivity.
Qed.
