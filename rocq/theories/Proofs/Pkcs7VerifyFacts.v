(** PKCS7.Verify *)
From Coq Require Import Lia Permutation Sorted.
From Verif.Model Require Import Bytes Env Ber Asn1 Pkcs7 X509 Pkcs7Verify.
From Verif.Spec Require Import Ber Asn1 Asn1Value Pkcs7 Pkcs7Verify.
From Verif.Proofs Require Import BytesFacts BerFacts Asn1Codec Asn1Header Asn1Value Asn1Decode DerFacts DerSize Pkcs7Facts Pkcs7Parse X509Honest.

(** *** Order *)
Lemma bytesLess_iff a : forall b, bytesLess a b = false <-> bytes_le b a.
Proof.
  induction a as [|x a IH]; intros [|y b]; cbn [bytesLess].
  - split; [intros _; constructor|reflexivity].
  - split; [discriminate|]. intros H. inversion H.
  - split; [intros _; constructor|reflexivity].
  - destruct (Z.eqb_spec (b2z x) (b2z y)) as [Exy|Nxy].
    + apply b2z_inj in Exy as ->. rewrite IH. split; [intros H; constructor 3; exact H|]. intros H. inversion H; subst; [lia|assumption].
    + split.
      * intros H. apply Z.ltb_ge in H. constructor 2. lia.
      * intros H. inversion H; subst; [apply Z.ltb_ge; lia|congruence].
Qed.
Lemma bytes_le_trans a b c : bytes_le a b -> bytes_le b c -> bytes_le a c.
Proof.
  intros H. revert c. induction H as [b|x y a b H|x a b H IH]; intros c Hc; [constructor| |].
  - inversion Hc; subst; constructor 2; lia.
  - inversion Hc; subst; [constructor 2; assumption|constructor 3; apply IH; assumption].
Qed.
Lemma bytes_le_antisym a b : bytes_le a b -> bytes_le b a -> a = b.
Proof.
  induction 1 as [b|x y a b H|x a b H IH]; intros Hc.
  - inversion Hc. reflexivity.
  - inversion Hc; subst; lia.
  - inversion Hc; subst; [lia|]. f_equal. apply IH. assumption.
Qed.
Lemma bytes_le_total a b : bytesLess a b = true -> bytes_le a b.
Proof.
  revert b. induction a as [|x a IH]; intros [|y b]; cbn [bytesLess]; try discriminate; [constructor|].
  destruct (Z.eqb_spec (b2z x) (b2z y)) as [Exy|Nxy]; [apply b2z_inj in Exy as ->; intros H; constructor 3; auto|]. intros H. apply Z.ltb_lt in H. constructor 2. exact H.
Qed.
Lemma sorted_unique : forall l l' : list bytes, Permutation l l' -> StronglySorted bytes_le l -> StronglySorted bytes_le l' -> l = l'.
Proof.
  induction l as [|x l IH]; intros l' HP HS HS'; [apply Permutation_nil in HP; auto|].
  destruct l' as [|y l']; [apply Permutation_sym, Permutation_nil in HP; discriminate|].
  inversion HS as [|? ? S1 F1]; inversion HS' as [|? ? S2 F2]; subst.
  assert (x = y) as <-.
  { assert (Hx : In x (y :: l')) by (apply (Permutation_in _ HP); left; reflexivity). assert (Hy : In y (x :: l)) by (apply (Permutation_in _ (Permutation_sym HP)); left; reflexivity).
    destruct Hx as [->|Hx]; [reflexivity|]. destruct Hy as [->|Hy]; [reflexivity|]. rewrite Forall_forall in F1, F2. apply bytes_le_antisym; auto. }
  f_equal. apply IH; try assumption. apply Permutation_cons_inv in HP. exact HP.
Qed.

(** *** Insertion sort *)
Lemma insert_map {A B} (f : A -> B) (less : B -> B -> bool) x l : insert_sorted less (f x) (map f l) = map f (insert_sorted (fun a b => less (f a) (f b)) x l).
Proof. induction l as [|y l IH]; [reflexivity|]. cbn [map insert_sorted]. destruct (less (f x) (f y)); [reflexivity|]. cbn [map]. rewrite IH. reflexivity. Qed.
Lemma isort_map {A B} (f : A -> B) (less : B -> B -> bool) l : isort less (map f l) = map f (isort (fun a b => less (f a) (f b)) l).
Proof. induction l as [|y l IH]; [reflexivity|]. cbn [map isort]. rewrite IH, insert_map. reflexivity. Qed.
Lemma insert_perm {A} (less : A -> A -> bool) x l : Permutation (x :: l) (insert_sorted less x l).
Proof. induction l as [|y l IH]; [reflexivity|]. cbn [insert_sorted]. destruct (less x y); [reflexivity|]. rewrite perm_swap. constructor. exact IH. Qed.
Lemma isort_perm {A} (less : A -> A -> bool) l : Permutation l (isort less l).
Proof. induction l as [|y l IH]; [reflexivity|]. cbn [isort]. rewrite <- insert_perm. constructor. exact IH. Qed.
(* sorting by a key *)
Lemma insert_strong {A} (key : A -> bytes) (less : A -> A -> bool) x l : (forall a b, less a b = bytesLess (key a) (key b)) ->
  StronglySorted bytes_le (map key l) -> StronglySorted bytes_le (map key (insert_sorted less x l)).
Proof.
  intros HL. induction l as [|y l IH]; intros HS; [repeat constructor|]. cbn [map insert_sorted] in *. inversion HS as [|? ? S1 F1]; subst.
  destruct (less x y) eqn:E; rewrite HL in E.
  - apply bytes_le_total in E. cbn [map]. constructor; [exact HS|]. constructor; [exact E|]. eapply Forall_impl; [|exact F1]. intros z Hz. eapply bytes_le_trans; eassumption.
  - apply bytesLess_iff in E. cbn [map]. constructor; [apply IH; exact S1|]. apply Forall_forall. intros z Hz. apply in_map_iff in Hz as (w & <- & Hw).
    apply (Permutation_in _ (Permutation_sym (insert_perm less x l))) in Hw as [<-|Hw]; [exact E|]. rewrite Forall_forall in F1. apply F1, in_map, Hw.
Qed.
Lemma isort_strong {A} (key : A -> bytes) (less : A -> A -> bool) l : (forall a b, less a b = bytesLess (key a) (key b)) -> StronglySorted bytes_le (map key (isort less l)).
Proof. intros HL. induction l as [|y l IH]; [constructor|]. cbn [isort]. apply insert_strong; assumption. Qed.
Lemma insert_in {A} (less less' : A -> A -> bool) x l : (forall b, In b l -> less x b = less' x b) -> insert_sorted less x l = insert_sorted less' x l.
Proof. induction l as [|y l IH]; intros H; [reflexivity|]. cbn [insert_sorted]. rewrite (H y (or_introl eq_refl)). rewrite IH; [reflexivity|]. intros b Hb. apply H. right. exact Hb. Qed.
Lemma isort_in {A} (less less' : A -> A -> bool) l : (forall a b, In a l -> In b l -> less a b = less' a b) -> isort less l = isort less' l.
Proof.
  induction l as [|y l IH]; intros H; [reflexivity|]. cbn [isort]. rewrite IH by (intros; apply H; right; assumption). apply insert_in. intros b Hb. apply H; [left; reflexivity|right].
  eapply Permutation_in; [|exact Hb]. symmetry. apply isort_perm.
Qed.

(** *** Sets of attributes *)
Lemma attribute_der_unique a f g : attribute_der a f -> attribute_der a g -> f = g.
Proof.
  intros (oc & te & H1 & H2 & H3) (oc' & te' & H1' & H2' & H3'). rewrite (oid_der_unique _ _ _ H1 H1') in *. rewrite (der_element_unique _ _ _ _ _ _ H2 H2') in *. eapply der_element_unique; eassumption.
Qed.
Lemma parts_unique l : forall p p', Forall2 attribute_der l p -> Forall2 attribute_der l p' -> p = p'.
Proof. induction l as [|a l IH]; intros p p' H H'; inversion H; inversion H'; subst; [reflexivity|]. f_equal; [eapply attribute_der_unique; eassumption|apply IH; assumption]. Qed.
Lemma attribute_set_unique l m m' : attribute_set l m -> attribute_set l m' -> m = m'.
Proof.
  intros (p & s & H1 & H2 & H3 & H4) (p' & s' & H1' & H2' & H3' & H4'). rewrite (parts_unique _ _ _ H1 H1') in *.
  assert (s = s') as ->. { apply sorted_unique; try assumption. rewrite <- H2. exact H2'. } eapply der_element_unique; eassumption.
Qed.
Lemma attributes_parts l : forall c, attributes_der l c -> exists parts, Forall2 attribute_der l parts /\ c = concat parts.
Proof. induction l as [|a l IH]; intros c H; inversion H; subst; [exists []; split; [constructor|reflexivity]|]. destruct (IH _ H4) as (p & H5 & ->). exists (f :: p). split; [constructor; assumption|reflexivity]. Qed.
Lemma parts_attributes l : forall parts, Forall2 attribute_der l parts -> attributes_der l (concat parts).
Proof. induction l as [|a l IH]; intros c H; inversion H; subst; [constructor|]. cbn [concat]. constructor; [assumption|]. apply IH. assumption. Qed.
Lemma concat_perm_len (l l' : list bytes) : Permutation l l' -> zlen (concat l) = zlen (concat l').
Proof. induction 1; cbn [concat]; rewrite ?zlen_app in *; try reflexivity; lia. Qed.

Section M.
  Variables (K : xenv).
  Notation X := (k_text K).

  Definition attr_key (a : p7_attr) : bytes := match makeField X tyAttribute noParams (attributeVal a) with Some f => f | None => [] end.
  Definition attr_less (a b : p7_attr) : bool := bytesLess (attr_key a) (attr_key b).
  Lemma sort_attributes l : Forall attribute_ok l -> sortSets X tyAttributeSet noParams (VStruct [] [VSlice (map attributeVal l)]) = VStruct [] [VSlice (map attributeVal (isort attr_less l))].
  Proof.
    intros HF. transitivity (VStruct [] [VSlice (isort (encodingLess X tyAttribute) (map (sortSets X tyAttribute noParams) (map attributeVal l)))]); [reflexivity|]. f_equal. f_equal. f_equal.
    assert (E : map (sortSets X tyAttribute noParams) (map attributeVal l) = map attributeVal l) by (rewrite map_map; apply map_ext; reflexivity).
    rewrite E, isort_map. f_equal. apply isort_in. intros a b Ha Hb. unfold encodingLess, attr_less, attr_key. rewrite Forall_forall in HF.
    destruct (makeAttribute X a (HF a Ha)) as (_ & f & _ & -> & _). destruct (makeAttribute X b (HF b Hb)) as (_ & g & _ & -> & _). reflexivity.
  Qed.
  Lemma key_der a f : attribute_ok a -> attribute_der (said a) f -> zlen f < 2 ^ 31 -> attr_key a = f.
  Proof.
    intros Ha Hf HL. unfold attr_key. destruct (makeAttribute X a Ha) as (_ & g & _ & HM & _). rewrite HM. exact (makeAttribute_der X a g f Ha HM Hf HL).
  Qed.
  Lemma parts_keys l : Forall attribute_ok l -> forall parts, Forall2 attribute_der (map said l) parts -> zlen (concat parts) < 2 ^ 31 -> parts = map attr_key l.
  Proof.
    induction 1 as [|a l Ha Hl IH]; intros parts H HL; inversion H; subst; [reflexivity|]. cbn [concat] in HL. rewrite zlen_app in HL.
    match goal with |- ?y :: ?l' = _ => pose proof (zlen_nonneg y); pose proof (zlen_nonneg (concat l')) end.
    cbn [map]. f_equal; [symmetry; apply key_der; try assumption; lia|apply IH; [assumption|lia]].
  Qed.
  Lemma Forall2_perm_r {A B} (R : A -> B -> Prop) l l' : Permutation l l' -> forall p, Forall2 R l p -> exists p', Forall2 R l' p' /\ Permutation p p'.
  Proof.
    induction 1 as [|x l l' HP IH|x y l|l l' l'' H1 IH1 H2 IH2]; intros p H.
    - exists p. split; [exact H|reflexivity].
    - inversion H as [|? b ? t Hb Ht]; subst. destruct (IH t Ht) as (t' & H1 & H2). exists (b :: t'). split; [constructor; assumption|constructor; exact H2].
    - inversion H as [|? b ? t Hb Ht]; subst. inversion Ht as [|? c ? t' Hc Ht']; subst. exists (c :: b :: t'). split; [constructor; [assumption|constructor; assumption]|constructor].
    - destruct (IH1 p H) as (p1 & A1 & A2). destruct (IH2 p1 A1) as (p2 & A3 & A4). exists p2. split; [exact A3|]. rewrite A2. exact A4.
  Qed.
  Lemma marshalAttributes_set l c b : Forall attribute_ok l -> attributes_der (map said l) c -> der_element 0 17 true c b -> zlen b < 2 ^ 31 ->
    exists m, marshalAttributes K l = Some m /\ attribute_set (map said l) m /\ zlen m < 2 ^ 31.
  Proof.
    intros HF HA HB HL. pose proof (der_element_size _ _ _ _ _ HB) as HS. destruct (attributes_parts _ _ HA) as (parts & HP & ->).
    set (l' := isort attr_less l). assert (HPerm : Permutation l l') by apply isort_perm.
    destruct (Forall2_perm_r _ _ _ (Permutation_map said HPerm) parts HP) as (parts' & HP' & HPP).
    pose proof (concat_perm_len _ _ HPP) as HCL.
    assert (HF' : Forall attribute_ok l') by (eapply Permutation_Forall; eassumption).
    assert (EK : parts' = map attr_key l') by (apply parts_keys; [exact HF'|exact HP'|lia]).
    assert (HSS : StronglySorted bytes_le parts') by (rewrite EK; apply isort_strong; reflexivity).
    exists (appendTagAndLength (hd 0 17 (zlen (concat parts')) true) ++ concat parts').
    assert (HD : der_element 0 17 true (concat parts') (appendTagAndLength (hd 0 17 (zlen (concat parts')) true) ++ concat parts')) by (apply append_der_element; [lia|unfold max_int32; lia|lia]).
    assert (HL' : zlen (appendTagAndLength (hd 0 17 (zlen (concat parts')) true) ++ concat parts') < 2 ^ 31).
    { rewrite zlen_app, <- HCL. rewrite (der_element_append _ _ _ _ _ HB) in HL by (unfold max_int32; lia). rewrite zlen_app in HL. exact HL. }
    split; [|split; [exists parts, parts'; auto|exact HL']].
    unfold marshalAttributes, stdMarshal. rewrite sort_attributes by exact HF. fold l'.
    apply (marshal_attributes X l' (concat parts')); try assumption. apply parts_attributes. exact HP'.
  Qed.
End M.

(** *** Algorithms *)
Lemma getHash_iff o h : getHashForOID o = Some h <-> In (o, h) digest_algorithms.
Proof.
  unfold getHashForOID, digest_algorithms. destruct (oidEqual o oidDigestSHA1) eqn:E1; [apply oidEqual_iff in E1 as ->|].
  - split; [intros H; left; injection H as <-; reflexivity|]. intros [H|[H|[]]]; [injection H as <-; reflexivity|discriminate H].
  - destruct (oidEqual o oidSHA256) eqn:E2; [apply oidEqual_iff in E2 as ->|].
    + split; [intros H; right; left; injection H as <-; reflexivity|]. intros [H|[H|[]]]; [discriminate H|injection H as <-; reflexivity].
    + split; [discriminate|]. intros [H|[H|[]]]; exfalso.
      * assert (o = oidDigestSHA1) as -> by (injection H as <- _; reflexivity). rewrite (proj2 (oidEqual_iff _ _) eq_refl) in E1. discriminate.
      * assert (o = oidSHA256) as -> by (injection H as <- _; reflexivity). rewrite (proj2 (oidEqual_iff _ _) eq_refl) in E2. discriminate.
Qed.
Lemma getHash_two o h : getHashForOID o = Some h -> h = HSha1 \/ h = HSha256.
Proof. intros H. apply getHash_iff in H as [H|[H|[]]]; [left|right]; congruence. Qed.

Definition named_oids : list oid := map fst signature_algorithms.
Lemma byOid_iff o a : o <> id_rsassaPss -> a <> 0 -> (algorithmByOid algorithmDetails o = a <-> In (o, a) signature_algorithms).
Proof.
  intros HP HA. unfold algorithmDetails. cbn [algorithmByOid].
  repeat match goal with |- context [if oidEqual ?x ?y then _ else _] => let E := fresh "E" in destruct (oidEqual x y) eqn:E; [apply oidEqual_iff in E; subst x|] end;
    try (split; [intros <-; unfold signature_algorithms; cbn [In]; repeat (first [left; reflexivity | right]); fail
      |intros H; unfold signature_algorithms in H; cbn [In] in H; repeat (destruct H as [H|H]; [first [discriminate H | injection H as <-; reflexivity]|]); contradiction]).
  - exfalso. apply HP. reflexivity.
  - split; [intros <-; congruence|]. intros H. exfalso. unfold signature_algorithms in H. cbn [In] in H.
    assert (N : forall y, oidEqual o y = false -> o <> y) by (intros y Hy ->; rewrite (proj2 (oidEqual_iff y y) eq_refl) in Hy; discriminate).
    repeat match goal with H' : oidEqual o ?y = false |- _ => apply N in H' end.
    repeat (destruct H as [H|H]; [congruence|]). contradiction.
Qed.

Section A.
  Variable D : stdDecoder.
  Definition algorithm_of (o : oid) (params : bytes) (h : hash_id) : Z :=
    let algo := p7Algorithm D o params in if (algo =? 0) && oidEqual o oidEncryptionRSA then rsaByHash algorithmDetails h else algo.

  Lemma pss_iff params a : a <> 0 -> (p7Pss D params = a <-> forall h, means_algorithm D id_rsassaPss params h a).
  Proof.
    intros HA. split.
    - unfold p7Pss. destruct (d_pss D params) as [p|] eqn:E1; [|intros <-; congruence]. destruct (d_algorithm D (ps_mgf_params p)) as [[mh mp]|] eqn:E2; [|intros <-; congruence].
      destruct (_ || _) eqn:EC; [intros <-; congruence|]. rewrite !orb_false_iff, !negb_false_iff, !oidEqual_iff, Z.eqb_eq, !bytes_eqb_eq in EC.
      destruct EC as ((((C1 & C2) & C3) & C4) & C5). subst mh mp.
      destruct (oidEqual (ps_hash p) oidSHA256) eqn:H1; [apply oidEqual_iff in H1|];
        [destruct (Z.eqb_spec (ps_salt p) 32) as [Hs|Hs]; [intros <- h; apply (pss D _ _ h p (ps_hash p) 32 13); try assumption; try reflexivity; rewrite H1; left; reflexivity|]|];
        cbn [andb];
        (destruct (oidEqual (ps_hash p) oidSHA384) eqn:H2; [apply oidEqual_iff in H2|];
        [destruct (Z.eqb_spec (ps_salt p) 48) as [Hs'|Hs']; [intros <- h; apply (pss D _ _ h p (ps_hash p) 48 14); try assumption; try reflexivity; rewrite H2; right; left; reflexivity|]|];
        cbn [andb];
        (destruct (oidEqual (ps_hash p) oidSHA512) eqn:H3; [apply oidEqual_iff in H3|];
        [destruct (Z.eqb_spec (ps_salt p) 64) as [Hs''|Hs'']; [intros <- h; apply (pss D _ _ h p (ps_hash p) 64 15); try assumption; try reflexivity; rewrite H3; right; right; left; reflexivity|]|];
        cbn [andb]; intros <-; congruence)).
    - intros H. specialize (H HSha1). inversion H as [h0 a0 HI|C|C|h0 p hash salt a0 _ E1 HI E2 E3 E4 E5 E6 E7]; subst.
      + exfalso. unfold signature_algorithms in HI. cbn [In] in HI. repeat (destruct HI as [HI|HI]; [discriminate HI|]). contradiction.
      + discriminate C.
      + unfold p7Pss. rewrite E1, E5, E3, E4, E7.
        assert (EC : negb (bytes_eqb der_null nullBytes) || negb (oidEqual id_mgf1 oidMGF1) || negb (oidEqual (ps_hash p) (ps_hash p)) || negb (bytes_eqb der_null nullBytes) || negb (1 =? 1) = false).
        { rewrite (proj2 (oidEqual_iff (ps_hash p) _) eq_refl). reflexivity. }
        rewrite EC. unfold pss_algorithms in HI. cbn [In] in HI. destruct HI as [HI|[HI|[HI|[]]]]; injection HI as Eh Es Ea; rewrite <- Eh, <- Es, <- Ea; reflexivity.
  Qed.
  Lemma algorithm_iff o params h a : a <> 0 -> h = HSha1 \/ h = HSha256 -> (algorithm_of o params h = a <-> means_algorithm D o params h a).
  Proof.
    intros HA Hh. unfold algorithm_of, p7Algorithm. destruct (oidEqual o oidRSAPSS) eqn:EP.
    - apply oidEqual_iff in EP as ->. change (oidEqual oidRSAPSS oidEncryptionRSA) with false. rewrite andb_false_r. rewrite (pss_iff params a HA). split; [intros H; apply H|].
      intros H h'. inversion H as [h0 a0 HI|C|C|h0 p hash salt a0 _ E1 HI E2 E3 E4 E5 E6 E7]; subst.
      + exfalso. unfold signature_algorithms in HI. cbn [In] in HI. repeat (destruct HI as [HI|HI]; [discriminate HI|]). contradiction.
      + discriminate C.
      + discriminate C.
      + eapply pss; try eassumption; reflexivity.
    - assert (NP : o <> id_rsassaPss) by (intros ->; discriminate EP).
      destruct (oidEqual o oidEncryptionRSA) eqn:ER.
      + apply oidEqual_iff in ER as ->. change (algorithmByOid algorithmDetails oidEncryptionRSA) with 0. cbn [Z.eqb andb]. split.
        * destruct Hh as [-> | ->]; intros <-; [apply rsa_sha1|apply rsa_sha256]; reflexivity.
        * intros H. inversion H as [h0 a0 HI|C|C|h0 p hash salt a0 C]; subst; [|reflexivity|reflexivity|discriminate C].
          exfalso. unfold signature_algorithms in HI. cbn [In] in HI. repeat (destruct HI as [HI|HI]; [discriminate HI|]). contradiction.
      + rewrite andb_false_r. rewrite (byOid_iff o a NP HA). split; [intros H; apply named; exact H|].
        intros H. inversion H as [h0 a0 HI|C|C|h0 p hash salt a0 C]; subst; [assumption| | |]; exfalso; try discriminate ER; try congruence.
  Qed.
End A.

(** *** Certificates and digests *)
Lemma getCert_iff certs i c : getCert certs (gi_issuer i) (gi_serial i) = Some c <-> means_certificate certs i c.
Proof.
  unfold getCert. assert (HM : forall d, isCertMatch d (gi_issuer i) (gi_serial i) = true <-> c_serial (pc_cert d) = gi_serial i /\ pc_issuer d = gi_issuer i).
  { intros d. unfold isCertMatch. rewrite andb_true_iff, Z.eqb_eq, bytes_eqb_eq. reflexivity. }
  induction certs as [|x certs IH]; cbn [find].
  - split; [discriminate|]. intros (l1 & l2 & C & _). destruct l1; discriminate C.
  - destruct (isCertMatch x (gi_issuer i) (gi_serial i)) eqn:EM.
    + pose proof (proj1 (HM x) EM) as (H1 & H2). split.
      * intros E. assert (c = x) as -> by congruence. exists [], certs. split; [reflexivity|]. split; [exact H1|]. split; [exact H2|]. intros d [].
      * intros (l1 & l2 & E & H3 & H4 & H5). destruct l1 as [|y l1]; [cbn in E; congruence|]. exfalso. assert (y = x) as -> by (cbn in E; congruence). apply (H5 x (or_introl eq_refl)). auto.
    + rewrite IH. split.
      * intros (l1 & l2 & -> & H3 & H4 & H5). exists (x :: l1), l2. split; [reflexivity|]. split; [exact H3|]. split; [exact H4|]. intros d [<-|Hd]; [|apply H5; exact Hd]. intros H. apply HM in H. congruence.
      * intros (l1 & l2 & E & H3 & H4 & H5). destruct l1 as [|y l1].
        -- exfalso. assert (x = c) as -> by (cbn in E; congruence). rewrite (proj2 (HM c) (conj H3 H4)) in EM. discriminate.
        -- exists l1, l2. split; [cbn in E; congruence|]. split; [exact H3|]. split; [exact H4|]. intros d Hd. apply H5. right. exact Hd.
Qed.
Section DG.
  Variable K : xenv.
  Notation X := (k_text K).
  Lemma octets_iff b d : (match unmarshal X TyBytes b with (VBytes l, Some _) => Some l | _ => None end) = Some d <-> exists f r, b = f ++ r /\ element 0 4 false d f.
  Proof.
    split.
    - unfold unmarshal. destruct (parseField X TyBytes noParams (zeroVal TyBytes) b) as [v [r|]] eqn:E; [|destruct v; discriminate].
      intros H. assert (v = VBytes d) as -> by (destruct v; congruence).
      apply parseField_mandatory in E; [|discriminate|reflexivity|reflexivity]. destruct E as (t & u & inner & _ & HH & HC).
      apply (parseHeader_universal _ _ _ _ _ _ TagOctetString false) in HH; [|reflexivity|discriminate|discriminate]. destruct HH as (full & E & HE).
      cbn [parseContent] in HC. assert (d = inner) as -> by congruence. exists full, r. split; assumption.
    - intros (f & r & -> & HE). unfold unmarshal. rewrite (Pkcs7Honest.field_parse X TyBytes noParams (zeroVal TyBytes) 0 4 false d f r false TagOctetString false); try assumption; try reflexivity; try discriminate; right; auto.
  Qed.
  Lemma digestAttribute_iff l d : digestAttribute K l = Some (Some d) <-> first_digest l d.
  Proof.
    induction l as [|a l IH]; cbn [digestAttribute].
    - split; [discriminate|]. intros (l1 & a & l2 & f & r & C & _). destruct l1; discriminate C.
    - destruct (oidEqual (pa_type a) oidMessageDigest) eqn:EO.
      + apply oidEqual_iff in EO. split.
        * intros E. match type of E with Some ?m = _ => assert (E1 : m = Some d) by congruence end. apply octets_iff in E1 as (f & r & Ev & HE). exists [], a, l, f, r. split; [reflexivity|]. split; [exact EO|]. split; [intros b []|]. auto.
        * intros (l1 & b & l2 & f & r & E & H1 & H2 & H3 & H4). destruct l1 as [|y l1].
          -- assert (a = b) as -> by (cbn in E; congruence). f_equal. apply octets_iff. eauto.
          -- exfalso. assert (a = y) as -> by (cbn in E; congruence). apply (H2 y (or_introl eq_refl)). exact EO.
      + rewrite IH. split.
        * intros (l1 & b & l2 & f & r & -> & H1 & H2 & H3 & H4). exists (a :: l1), b, l2, f, r. split; [reflexivity|]. split; [exact H1|]. split; [|auto]. intros c [<-|Hc]; [|apply H2; exact Hc].
          intros C. rewrite C in EO. discriminate EO.
        * intros (l1 & b & l2 & f & r & E & H1 & H2 & H3 & H4). destruct l1 as [|y l1].
          -- exfalso. assert (a = b) as -> by (cbn in E; congruence). rewrite H1 in EO. discriminate EO.
          -- exists l1, b, l2, f, r. split; [cbn in E; congruence|]. split; [exact H1|]. split; [|auto]. intros c Hc. apply H2. right. exact Hc.
  Qed.
End DG.

(** *** Verify *)
Section V.
  Variables (K : xenv) (E : env) (D : stdDecoder).
  Notation X := (k_text K).
  (** Attributes that can be encoded *)
  Definition encodable (l : list p7_attr) : Prop :=
    Forall attribute_ok l /\ exists c b, attributes_der (map said l) c /\ der_element 0 17 true c b /\ zlen b < 2 ^ 31.
  Hypothesis unknown : forall c m s, e_cert_check E c 0 m s = false.

  Lemma checkWith_iff p i h m : h = HSha1 \/ h = HSha256 -> (checkWith E D p i h m = None <-> exists c algo, means_certificate (po_certs p) i c /\
    means_algorithm D (gi_enc i) (gi_enc_params i) h algo /\ e_cert_check E (pc_cert c) algo m (gi_sig i) = true).
  Proof.
    intros Hh. unfold checkWith. destruct (getCert (po_certs p) (gi_issuer i) (gi_serial i)) as [c|] eqn:EG.
    - cbv zeta. fold (algorithm_of D (gi_enc i) (gi_enc_params i) h). destruct (e_cert_check E (pc_cert c) _ m (gi_sig i)) eqn:EC.
      + split; [|reflexivity]. intros _. exists c, (algorithm_of D (gi_enc i) (gi_enc_params i) h). split; [apply getCert_iff; exact EG|]. split; [|exact EC].
        apply algorithm_iff; [|exact Hh|reflexivity]. intros C. rewrite C, unknown in EC. discriminate.
      + split; [discriminate|]. intros (c' & algo & H1 & H2 & H3). exfalso. apply getCert_iff in H1. assert (c' = c) as -> by congruence.
        apply algorithm_iff in H2; [congruence| |exact Hh]. intros ->. rewrite unknown in H3. discriminate.
    - split; [discriminate|]. intros (c' & algo & H1 & _). apply getCert_iff in H1. congruence.
  Qed.
  Lemma verifySignature_iff p i : encodable (gi_attrs i) ->
    (verifySignature K E D p i = None <-> exists c m, signature_of E D (po_certs p) (po_content p) i c m).
  Proof.
    intros (HF & c0 & b0 & HA & HB & HL). unfold verifySignature. destruct (getHashForOID (gi_digest i)) as [h|] eqn:EH.
    - pose proof (getHash_two _ _ EH) as Hh. destruct (gi_attrs i) as [|a0 l0] eqn:EA.
      + rewrite (checkWith_iff p i h (po_content p) Hh). split.
        * intros (c & algo & H1 & H2 & H3). exists c, (po_content p), h, algo. split; [apply getHash_iff; exact EH|]. split; [exact H1|]. split; [exact H2|]. split; [apply the_content; exact EA|exact H3].
        * intros (c & m & h' & algo & H0 & H1 & H2 & H4 & H3). apply getHash_iff in H0. assert (h' = h) as -> by congruence. exists c, algo. split; [exact H1|]. split; [exact H2|].
          destruct H4 as [_|m C]; [exact H3|congruence].
      + rewrite <- EA in *. destruct (marshalAttributes_set K (gi_attrs i) c0 b0 HF HA HB HL) as (m & EM & HM & _).
        assert (G : digestAttribute K (gi_attrs i) = Some (Some (e_hash E h (po_content p))) -> (checkWith E D p i h m = None <-> exists c m, signature_of E D (po_certs p) (po_content p) i c m)).
        { intros ED. rewrite (checkWith_iff p i h m Hh). split.
          - intros (c & algo & H1 & H2 & H3). exists c, m, h, algo. split; [apply getHash_iff; exact EH|]. split; [exact H1|]. split; [exact H2|]. split; [|exact H3].
            apply the_attributes; [congruence|apply (digestAttribute_iff K); exact ED|exact HM].
          - intros (c & m' & h' & algo & H0 & H1 & H2 & H4 & H3). apply getHash_iff in H0. assert (h' = h) as -> by congruence. exists c, algo. split; [exact H1|]. split; [exact H2|].
            destruct H4 as [C|m' _ _ HM']; [congruence|]. rewrite (attribute_set_unique _ _ _ HM HM'). exact H3. }
        assert (N : forall c m', signature_of E D (po_certs p) (po_content p) i c m' -> digestAttribute K (gi_attrs i) = Some (Some (e_hash E h (po_content p)))).
        { intros c m' (h' & algo & H0 & _ & _ & H4 & _). apply getHash_iff in H0. assert (h' = h) as -> by congruence. destruct H4 as [C|m' _ HD _]; [congruence|]. apply digestAttribute_iff. exact HD. }
        destruct (digestAttribute K (gi_attrs i)) as [[d|]|] eqn:ED.
        * destruct (bytes_eqb d (e_hash E h (po_content p))) eqn:EB; cbn [negb].
          -- apply bytes_eqb_eq in EB as ->. rewrite EM. apply G. reflexivity.
          -- split; [discriminate|]. intros (c & m' & H). apply N in H. exfalso. assert (d = e_hash E h (po_content p)) as -> by congruence. rewrite (proj2 (bytes_eqb_eq _ _) eq_refl) in EB. discriminate.
        * split; [discriminate|]. intros (c & m' & H). apply N in H. discriminate.
        * split; [discriminate|]. intros (c & m' & H). apply N in H. discriminate.
    - split; [discriminate|]. intros (c & m & h' & algo & H0 & _). apply getHash_iff in H0. congruence.
  Qed.
  Lemma verifyAll_iff p l : verifyAll K E D p l = None <-> Forall (fun i => verifySignature K E D p i = None) l.
  Proof.
    induction l as [|i l IH]; cbn [verifyAll]; [split; [constructor|reflexivity]|]. destruct (verifySignature K E D p i) eqn:EV.
    - split; [discriminate|]. intros H. inversion H. congruence.
    - rewrite IH. split; [intros H; constructor; assumption|]. intros H. inversion H. assumption.
  Qed.
  Lemma verify_iff p : Forall (fun i => encodable (gi_attrs i)) (po_signers p) ->
    (p7Verify K E D p = None <-> po_signers p <> [] /\ forall i, In i (po_signers p) -> exists c m, signature_of E D (po_certs p) (po_content p) i c m).
  Proof.
    intros HF. unfold p7Verify. destruct (po_signers p) as [|i0 l0] eqn:ES; [split; [discriminate|intros (C & _); congruence]|]. rewrite <- ES in *.
    rewrite verifyAll_iff, Forall_forall. rewrite Forall_forall in HF. split.
    - intros H. split; [congruence|]. intros i Hi. apply verifySignature_iff; auto.
    - intros (_ & H) i Hi. apply verifySignature_iff; auto.
  Qed.
End V.

(** *** Parse *)
Section P.
  Variable K : xenv.
  Notation X := (k_text K).
  Notation Q := (x509P7 K).
  Lemma certs_agree l : forall cs, mapM (certWithIssuer K) l = Some cs -> mapM (parseCertificate K) l = Some (map pc_cert cs).
  Proof.
    induction l as [|v l IH]; intros cs H; [cbn in H; injection H as <-; reflexivity|]. cbn [mapM] in H |- *. fold (mapM (certWithIssuer K)) in H. fold (mapM (parseCertificate K)).
    unfold certWithIssuer at 1 in H. destruct (parseCertificate K v) as [c|]; [|discriminate]. cbn [option_map] in H. destruct (mapM (certWithIssuer K) l) as [r|]; [|discriminate]. rewrite (IH r eq_refl). injection H as <-. reflexivity.
  Qed.
  Lemma rawCerts_agree raw cs : parseRawCerts K raw = Some cs -> parseRawCertificates Q raw = Some (map pc_cert cs).
  Proof.
    unfold parseRawCerts, parseRawCertificates. destruct raw as [|x xs]; [intros H; injection H as <-; reflexivity|]. change (Pkcs7.X Q) with X.
    destruct (unmarshal X TyRaw (x :: xs)) as [v [r|]]; [|discriminate]. cbn [q_certs x509P7]. unfold parseCertsWithIssuer, parseCertificatesForGo. destruct (certificatesLoop K _ _); [|discriminate]. apply certs_agree.
  Qed.
  Lemma content_agree b c : signedContent K b = Some c -> exists compound,
    (match b with [] => Some (zeroVal TyRaw) | _ => match unmarshal X TyRaw b with (v, Some _) => Some v | (_, None) => None end end) = Some compound /\
    rawCompound compound && (match unmarshal X TyBytes (rawBytes compound) with (_, None) => true | _ => false end) = false.
  Proof.
    unfold signedContent. intros H. match type of H with match ?m with _ => _ end = _ => destruct m as [w|]; [|discriminate] end. exists w. split; [reflexivity|].
    destruct (rawCompound w); [|reflexivity]. destruct (unmarshal X TyBytes (rawBytes w)) as [v [r|]]; [reflexivity|discriminate].
  Qed.
  (** The object of the verifier of JAR signatures is part of this one. *)
  Lemma parse_agree data p : p7Parse K data = Ret (Some p) -> exists p', pkcs7Parse Q data = Ret (Some p') /\ p7_certs p' = map pc_cert (po_certs p) /\
    p7_content_type p' = po_type p /\ List.length (p7_signers p') = List.length (po_signers p) /\
    forall i, In i (po_signers p) -> exists i', In i' (p7_signers p') /\ ps_auth_attrs i' = gi_attrs i /\ ps_serial i' = gi_serial i /\ ps_digest_alg i' = gi_digest i /\ ps_enc_alg i' = gi_enc i /\
      ps_enc_digest i' = gi_sig i /\ ps_issuer i' = issuerName Q (gi_issuer i).
  Proof.
    unfold p7Parse, pkcs7Parse. destruct data as [|x xs]; [discriminate|]. destruct (ber2der (x :: xs)) as [der| | |]; try discriminate. change (Pkcs7.X Q) with X.
    destruct (unmarshal X tyContentInfo der) as [info [[|y ys]|]]; try discriminate. destruct (oidEqual _ oidSignedData).
    - intros H. assert (HS : parseSigned K (rawBytes (field 1 info)) = Some p) by congruence. clear H. unfold parseSigned in HS. unfold parseSignedData. change (Pkcs7.X Q) with X. cbv zeta in *.
      set (sd := fst (unmarshal X tySignedData (rawBytes (field 1 info)))) in *. destruct (parseRawCerts K (structRaw (field 3 sd))) as [certs|] eqn:EC; [|discriminate]. rewrite (rawCerts_agree _ _ EC).
      destruct (signedContent K _) as [content|] eqn:EK; [|discriminate]. destruct (content_agree _ _ EK) as (w & Ew1 & Ew2).
      match goal with |- context [match ?m with Some _ => _ | None => None end] => change m with (match rawBytes (field 1 (field 2 sd)) with [] => Some (zeroVal TyRaw) | _ :: _ => match unmarshal X TyRaw (rawBytes (field 1 (field 2 sd))) with (v, Some _) => Some v | (_, None) => None end end) end.
      rewrite Ew1, Ew2. eexists. split; [reflexivity|]. injection HS as <-. cbn [p7_certs po_certs p7_content_type po_type p7_signers po_signers]. split; [reflexivity|]. split; [reflexivity|]. split; [rewrite !map_length; reflexivity|].
      intros i Hi. apply in_map_iff in Hi as (v & <- & Hv). exists (signerInfoOf Q v). split; [apply in_map; exact Hv|]. repeat split.
    - destruct (oidEqual _ oidEnvelopedData); [|discriminate]. intros H. assert (HS : parseEnveloped K (rawBytes (field 1 info)) = Some p) by congruence. clear H. unfold parseEnveloped in HS. unfold parseEnvelopedData. change (Pkcs7.X Q) with X.
      destruct (unmarshal X tyEnvelopedData _) as [v [r|]]; [|discriminate]. injection HS as <-. eexists. split; [reflexivity|]. cbn. repeat split. intros i [].
  Qed.
End P.
