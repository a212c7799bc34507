(** PKCS#7 signatures and certificate chains: verifySignature of Model/SchemeV1.v *)
From Coq Require Import String.
From Coq Require Import Lia.
From Verif.Model Require Import Bytes Env ApiLevel GoStrings Manifest PkixName SchemeV1.
From Verif.Spec Require Import JarSigned.
From Verif.Proofs Require Import BytesFacts ManifestFacts.

Lemma oid_eqb_eq a : forall b, oid_eqb a b = true <-> a = b.
Proof.
  induction a as [|x a IH]; intros [|y b]; cbn [oid_eqb]; try (split; congruence).
  rewrite andb_true_iff, Z.eqb_eq, IH. split; [intros [-> ->]; reflexivity|]. intros H. split; congruence.
Qed.
Lemma oid_eqb_neq a b : oid_eqb a b = false <-> a <> b.
Proof. rewrite <- oid_eqb_eq. destruct (oid_eqb a b); split; congruence. Qed.
Lemma oid_eqb_refl a : oid_eqb a a = true.
Proof. apply oid_eqb_eq. reflexivity. Qed.
Lemma oidpair_eqb_eq a b : oidpair_eqb a b = true <-> a = b.
Proof.
  unfold oidpair_eqb. rewrite andb_true_iff, !oid_eqb_eq. destruct a, b. cbn [fst snd].
  split; [intros [-> ->]; reflexivity|]. intros H. apply pair_equal_spec in H. exact H.
Qed.
Lemma oidToAlgo_spec : oidToAlgo = v1_algorithms.
Proof. reflexivity. Qed.
Lemma v1_algorithms_nodup : NoDup (map fst v1_algorithms).
Proof.
  rewrite <- oidToAlgo_spec.
  assert (G : forall l : list (oid * oid), (fix nd (l : list (oid * oid)) := match l with [] => true | x :: t => negb (existsb (oidpair_eqb x) t) && nd t end) l = true -> NoDup l).
  { induction l as [|x t IH]; intros H; [constructor|]. apply andb_true_iff in H as [H1 H2]. constructor; [|exact (IH H2)].
    intros Hin. apply negb_true_iff in H1. assert (existsb (oidpair_eqb x) t = true); [|congruence].
    apply existsb_exists. exists x. split; [exact Hin|apply oidpair_eqb_eq; reflexivity]. }
  apply G. vm_compute. reflexivity.
Qed.
Lemma algo_lookup d e a : mget oidpair_eqb (d, e) oidToAlgo = Some a <-> In ((d, e), a) v1_algorithms.
Proof.
  rewrite oidToAlgo_spec. split.
  - apply mget_in. exact oidpair_eqb_eq.
  - apply in_mget; [exact oidpair_eqb_eq|exact v1_algorithms_nodup].
Qed.
Lemma v1_algorithm_range d e a : In ((d, e), a) v1_algorithms -> 1 <= a <= 12 \/ 65535 <= a <= 65537.
Proof.
  intros H. assert (G : forallb (fun r => ((1 <=? snd r) && (snd r <=? 12)) || ((65535 <=? snd r) && (snd r <=? 65537))) v1_algorithms = true) by reflexivity.
  rewrite forallb_forall in G. specialize (G _ H). cbn [snd] in G. lia.
Qed.

Section Sig.
  Variable E : env.
  Variable S : sched.

  (** ** checkSignature *)
  Lemma errIf_none b m : errIf b m = None <-> b = true.
  Proof. destruct b; cbn; split; congruence. Qed.
  Lemma padded_eq c sig :
    match c_key c with
    | KRsa _ bitlen => let pubSize := (bitlen + 7) / 8 in
                       if zlen sig <? pubSize then zeros (pubSize - zlen sig) ++ sig else sig
    | _ => sig
    end = padded c sig.
  Proof.
    unfold padded. destruct (c_key c) as [k bits| | |]; try reflexivity. cbv zeta.
    destruct (Z.ltb_spec (zlen sig) ((bits + 7) / 8)) as [H|H]; [reflexivity|].
    unfold zeros. replace (Z.to_nat ((bits + 7) / 8 - zlen sig)) with 0%nat by lia. reflexivity.
  Qed.

  Lemma checkSignature_iff c algo data sig : 1 <= algo <= 12 \/ 65535 <= algo <= 65537 ->
    checkSignature E c algo data sig = Ret None <-> v1_sig_ok E c data sig algo.
  Proof.
    intros Hr. unfold checkSignature. rewrite padded_eq. cbv zeta.
    unfold aMD5WithRSA, aSHA224WithRSA, aDSAWithSHA1, aDSAWithSHA224, aDSAWithSHA256, aECDSAWithSHA224.
    destruct (Z.eqb_spec algo 2) as [->|N2].
    { split.
      - destruct (c_key c) as [k bits| | |] eqn:Ek; [|discriminate..]. intros H.
        apply (OkMd5Rsa E c data sig k bits); [exact Ek|]. apply (errIf_none _ "rsa"). congruence.
      - intros H. inversion H as [k bits Hk Hs| |algo h k q r s Hin| |algo Ha Hn]; subst.
        + rewrite Hk, Hs. reflexivity.
        + exfalso. destruct Hin as [Hi|[Hi|[Hi|[]]]]; apply pair_equal_spec in Hi as [Hi _]; discriminate.
        + exfalso. apply Hn. left. reflexivity. }
    destruct (Z.eqb_spec algo 65535) as [->|N1].
    { split.
      - destruct (c_key c) as [k bits| | |] eqn:Ek; [|discriminate..]. intros H.
        apply (OkSha224Rsa E c data sig k bits); [exact Ek|]. apply (errIf_none _ "rsa"). congruence.
      - intros H. inversion H as [|k bits Hk Hs|algo h k q r s Hin| |algo Ha Hn]; subst.
        + rewrite Hk, Hs. reflexivity.
        + exfalso. destruct Hin as [Hi|[Hi|[Hi|[]]]]; apply pair_equal_spec in Hi as [Hi _]; discriminate.
        + lia. }
    destruct ((algo =? 7) || (algo =? 65536) || (algo =? 8)) eqn:Ed.
    { set (h := if algo =? 7 then HSha1 else if algo =? 8 then HSha256 else HSha224).
      assert (Hih : In (algo, h) [(7, HSha1); (65536, HSha224); (8, HSha256)]).
      { apply orb_true_iff in Ed as [Ed|Ed]; [apply orb_true_iff in Ed as [Ed|Ed]|]; apply Z.eqb_eq in Ed; subst algo h; cbn; auto. }
      assert (Hfun : forall h', In (algo, h') [(7, HSha1); (65536, HSha224); (8, HSha256)] -> h' = h).
      { intros h' Hi. subst h. destruct Hi as [Hi|[Hi|[Hi|[]]]]; apply pair_equal_spec in Hi as [<- <-]; reflexivity. }
      split.
      - destruct (c_key c) as [|k q| |] eqn:Ek; [discriminate| |discriminate..]. intros H.
        destruct (e_asn1_rs_andr E (padded c sig)) as [[[r s] [|]]|] eqn:Ea; [discriminate| |discriminate].
        destruct (Z.leb_spec r 0) as [Hr0|Hr0]; [discriminate|]. destruct (Z.leb_spec s 0) as [Hs0|Hs0]; [discriminate|].
        cbn [orb] in H.
        apply (OkDsa E c data sig algo h k q r s); [exact Hih|exact Ek| |exact Hr0|exact Hs0|].
        + unfold padded in Ea. rewrite Ek in Ea. exact Ea.
        + apply (errIf_none _ "x509: DSA verification failure"). congruence.
      - intros H. inversion H as [| |a' h' k q r s Hin Hk Ha Hr0 Hs0 Hv| |a' Ha Hn]; subst; try discriminate.
        + rewrite Hk. rewrite (Hfun _ Hin) in Hv. unfold padded. rewrite Hk, Ha.
          destruct (Z.leb_spec r 0); [lia|]. destruct (Z.leb_spec s 0); [lia|]. cbn [orb]. rewrite Hv. reflexivity.
        + exfalso. apply Hn. apply orb_true_iff in Ed as [Ed|Ed]; [apply orb_true_iff in Ed as [Ed|Ed]|]; apply Z.eqb_eq in Ed; subst algo.
          * right; left; reflexivity.
          * lia.
          * right; right; left; reflexivity. }
    assert (Hnd : algo <> 7 /\ algo <> 65536 /\ algo <> 8).
    { apply orb_false_iff in Ed as [Ed E3]. apply orb_false_iff in Ed as [E1 E2]. lia. }
    destruct (Z.eqb_spec algo 65537) as [->|N3].
    { split.
      - destruct (c_key c) as [| |k|] eqn:Ek; [discriminate|discriminate| |discriminate]. intros H.
        destruct (e_asn1_rs_andr E (padded c sig)) as [[[r s] [|]]|] eqn:Ea; [discriminate| |discriminate].
        destruct (Z.leb_spec r 0) as [Hr0|Hr0]; [discriminate|]. destruct (Z.leb_spec s 0) as [Hs0|Hs0]; [discriminate|].
        cbn [orb] in H.
        apply (OkSha224Ecdsa E c data sig k r s); [exact Ek| |exact Hr0|exact Hs0|].
        + unfold padded in Ea. rewrite Ek in Ea. exact Ea.
        + apply (errIf_none _ "x509: ECDSA verification failure"). congruence.
      - intros H. inversion H as [| |a' h' k q r s Hin|k r s Hk Ha Hr0 Hs0 Hv|a' Ha Hn]; subst.
        + exfalso. destruct Hin as [Hi|[Hi|[Hi|[]]]]; apply pair_equal_spec in Hi as [Hi _]; discriminate.
        + rewrite Hk. unfold padded. rewrite Hk, Ha.
          destruct (Z.leb_spec r 0); [lia|]. destruct (Z.leb_spec s 0); [lia|]. cbn [orb]. rewrite Hv. reflexivity.
        + lia. }
    split.
    - intros H. apply OkX509; [lia| |].
      + intros [Hi|[Hi|[Hi|[]]]]; lia.
      + apply (errIf_none _ "x509"). congruence.
    - intros H. inversion H as [| |a' h' k q r s Hin| |a' Ha Hn Hv]; subst; try lia.
      + exfalso. destruct Hin as [Hi|[Hi|[Hi|[]]]]; apply pair_equal_spec in Hi as [Hi _]; lia.
      + rewrite Hv. reflexivity.
  Qed.

  (** ** Signed attributes *)
  Lemma unmarshalAttr_iff {A} (dec : bytes -> option A) ty l : forall found v,
    unmarshalAttr dec ty l found = Some v <->
    match found with
    | Some w => w = v /\ forall b, In b l -> pa_type b <> ty
    | None => sole_attribute dec ty l v
    end.
  Proof.
    induction l as [|a t IH]; intros found v.
    - cbn [unmarshalAttr]. destruct found as [w|].
      + split; [intros H; split; [congruence|intros ? []]|intros [-> _]; reflexivity].
      + split; [discriminate|]. intros ([|] & a & l2 & H & _); discriminate.
    - cbn [unmarshalAttr]. destruct (oid_eqb (pa_type a) ty) eqn:Et.
      + apply oid_eqb_eq in Et. destruct found as [w|].
        * split; [discriminate|]. intros [_ H]. exfalso. exact (H a (or_introl eq_refl) Et).
        * destruct (dec (pa_value a)) as [w|] eqn:Ed.
          -- rewrite IH. split.
             ++ intros [-> H]. exists [], a, t. repeat (split; [reflexivity || assumption|]). exact H.
             ++ intros ([|a1 l1] & a2 & l2 & H & Ht & Hd & Hno).
                ** assert (a2 = a /\ l2 = t) as [-> ->] by (cbn [app] in H; split; congruence).
                   split; [congruence|]. intros b Hb. apply Hno. exact Hb.
                ** exfalso. apply (Hno a1); [left; reflexivity|]. cbn [app] in H. congruence.
          -- split; [discriminate|]. intros ([|a1 l1] & a2 & l2 & H & Ht & Hd & Hno).
             ** cbn [app] in H. congruence.
             ** exfalso. apply (Hno a1); [left; reflexivity|]. cbn [app] in H. congruence.
      + apply oid_eqb_neq in Et. rewrite IH. destruct found as [w|].
        * split; intros [-> H]; split; try reflexivity.
          -- intros b [<-|Hb]; [exact Et|exact (H b Hb)].
          -- intros b Hb. apply H. right. exact Hb.
        * split.
          -- intros (l1 & a2 & l2 & -> & Ht & Hd & Hno). exists (a :: l1), a2, l2. repeat (split; [reflexivity || assumption|]).
             intros b [<-|Hb]; [exact Et|exact (Hno b Hb)].
          -- intros ([|a1 l1] & a2 & l2 & H & Ht & Hd & Hno).
             ** exfalso. apply Et. cbn [app] in H. congruence.
             ** cbn [app] in H. exists l1, a2, l2. split; [congruence|]. split; [exact Ht|]. split; [exact Hd|].
                intros b Hb. apply Hno. right. exact Hb.
  Qed.
  Lemma unmarshal_iff {A} (dec : bytes -> option A) ty l v :
    unmarshalSignedAttribute dec ty l = Some v <-> sole_attribute dec ty l v.
  Proof. unfold unmarshalSignedAttribute. rewrite unmarshalAttr_iff. reflexivity. Qed.

  Lemma getHashForOID_iff o h : getHashForOID o = Some h <->
    In (o, h) [([1; 3; 14; 3; 2; 26], HSha1); ([2; 16; 840; 1; 101; 3; 4; 2; 1], HSha256)].
  Proof.
    unfold getHashForOID, oidDigestAlgorithmSHA1, oidDigestAlgorithmSHA256.
    destruct (oid_eqb o [1; 3; 14; 3; 2; 26]) eqn:E1.
    - apply oid_eqb_eq in E1 as ->. split; [intros H; assert (h = HSha1) as -> by congruence; left; reflexivity|].
      intros [H|[H|[]]]; apply pair_equal_spec in H as [H1 H2]; first [discriminate H1 | congruence].
    - apply oid_eqb_neq in E1. destruct (oid_eqb o [2; 16; 840; 1; 101; 3; 4; 2; 1]) eqn:E2.
      + apply oid_eqb_eq in E2 as ->. split; [intros H; assert (h = HSha256) as -> by congruence; right; left; reflexivity|].
        intros [H|[H|[]]]; apply pair_equal_spec in H as [H1 H2]; first [discriminate H1 | congruence].
      + apply oid_eqb_neq in E2. split; [discriminate|]. intros [H|[H|[]]]; apply pair_equal_spec in H as [H1 H2]; first [discriminate H1 | congruence].
  Qed.

  (** ** One SignerInfo *)
  Lemma verifySigner_sound sig info maxSdk c : verifySigner E S sig info maxSdk = Ret (SVerified c) ->
    signer_signed E S (sg_p7 sig) info (m_rawData (sg_sm sig)) maxSdk c.
  Proof.
    unfold verifySigner. intros H.
    destruct (ps_issuer info) as [issuer|] eqn:Ei; [|discriminate].
    destruct (find _ (p7_certs (sg_p7 sig))) as [c'|] eqn:Ef; [|discriminate].
    apply find_some in Ef as [Hin Hp]. apply andb_true_iff in Hp as [Hs Hn]. apply Z.eqb_eq in Hs. apply bytes_eqb_eq in Hn.
    destruct (c_unhandled_critical c') eqn:Eu; [discriminate|].
    destruct (mget _ _ oidToAlgo) as [algo|] eqn:Ea; [|discriminate]. apply algo_lookup in Ea.
    assert (Fin : forall d, (r <- checkSignature E c' algo d (ps_enc_digest info) ;; Ret match r with Some e => SContinue e | None => SVerified c' end)
               = Ret (SVerified c) -> c' = c /\ v1_sig_ok E c d (ps_enc_digest info) algo).
    { intros d Hf. destruct (checkSignature E c' algo d _) as [[e|]|] eqn:Ec; cbn [obind] in Hf; [discriminate| |discriminate].
      assert (c' = c) by congruence. subst c'. split; [reflexivity|]. apply checkSignature_iff; [exact (v1_algorithm_range _ _ _ Ea)|exact Ec]. }
    assert (G : forall d, signs E (sg_p7 sig) info (m_rawData (sg_sm sig)) maxSdk d -> c' = c /\ v1_sig_ok E c d (ps_enc_digest info) algo ->
                signer_signed E S (sg_p7 sig) info (m_rawData (sg_sm sig)) maxSdk c).
    { intros d Hsd [-> Hok]. split; [exact Hin|]. split; [symmetry; exact Hs|].
      split; [exists issuer; split; [exact Ei|exact Hn]|]. split; [exact Eu|]. exists algo, d. auto. }
    destruct (ps_auth_attrs info) as [|at0 att] eqn:Eat.
    { apply (G _ (SignsFile _ _ _ _ _ Eat)). apply Fin. exact H. }
    set (ats := at0 :: att) in *.
    destruct (if V7_0_Nougat <=? maxSdk then _ else None) as [st|] eqn:Ect.
    { destruct (V7_0_Nougat <=? maxSdk); [|discriminate].
      destruct (unmarshalSignedAttribute (e_asn1_oid E) _ _) as [tv|]; [destruct (oid_eqb tv _); [discriminate|]|];
        assert (Hst : st = SVerified c) by congruence; rewrite Hst in Ect; discriminate. }
    assert (Hct : 24 <= maxSdk -> sole_attribute (e_asn1_oid E) [1; 2; 840; 113549; 1; 9; 3] ats (p7_content_type (sg_p7 sig))).
    { intros Hm. apply unmarshal_iff. unfold V7_0_Nougat in Ect. destruct (Z.leb_spec 24 maxSdk) as [Hm'|Hm']; [|lia].
      fold oidAttributeContentType.
      destruct (unmarshalSignedAttribute (e_asn1_oid E) oidAttributeContentType ats) as [tv|]; [|discriminate].
      destruct (oid_eqb tv (p7_content_type (sg_p7 sig))) eqn:Eo; [|discriminate]. apply oid_eqb_eq in Eo. congruence. }
    destruct (unmarshalSignedAttribute (e_asn1_octets E) _ ats) as [dg|] eqn:Emd; [|discriminate].
    destruct (getHashForOID (ps_digest_alg info)) as [h|] eqn:Eh; [|discriminate].
    destruct (bytes_eqb dg (e_hash E h (m_rawData (sg_sm sig)))) eqn:Edg; [|discriminate]. cbn [negb] in H.
    apply bytes_eqb_eq in Edg.
    destruct (e_marshal_attrs E ats) as [d|] eqn:Em; [|discriminate].
    apply (G d); [|apply Fin; exact H].
    apply (SignsAttributes E (sg_p7 sig) info (m_rawData (sg_sm sig)) maxSdk d h).
    - rewrite Eat. discriminate.
    - apply getHashForOID_iff. exact Eh.
    - rewrite Eat. apply unmarshal_iff. rewrite <- Edg. exact Emd.
    - rewrite Eat. exact Hct.
    - rewrite Eat. exact Em.
  Qed.

  Lemma signersLoop_sound sig maxSdk l : forall first c, signersLoop E S sig l maxSdk first = Ret (inr (Some c)) ->
    first = Some c \/ exists info, In info l /\ verifySigner E S sig info maxSdk = Ret (SVerified c).
  Proof.
    induction l as [|info t IH]; intros first c H; cbn [signersLoop] in H.
    - left. congruence.
    - destruct (verifySigner E S sig info maxSdk) as [st|] eqn:Ev; cbn [obind] in H; [|discriminate].
      destruct st as [ch e|e|c'].
      + discriminate.
      + destruct (IH _ _ H) as [Hf|(i & Hi & Hv)]; [left; exact Hf|right; exists i; split; [right; exact Hi|exact Hv]].
      + destruct (IH _ _ H) as [Hf|(i & Hi & Hv)].
        * destruct first as [f|]; [left; exact Hf|]. right. exists info. split; [left; reflexivity|]. congruence.
        * right. exists i. split; [right; exact Hi|exact Hv].
  Qed.

  (** ** Chains *)
  Lemma issuer_chain_snoc ch x y : issuer_chain E S (ch ++ [x]) -> same_name E S (c_issuer x) (c_subject y) ->
    issuer_chain E S ((ch ++ [x]) ++ [y]).
  Proof.
    induction ch as [|a t IH]; intros Hc Hs.
    - cbn. split; [exact Hs|exact I].
    - destruct t as [|b t].
      + cbn [app] in *. destruct Hc as [Hab _]. split; [exact Hab|]. split; [exact Hs|exact I].
      + cbn [app] in *. destruct Hc as [Hab Hc]. split; [exact Hab|]. apply IH; assumption.
  Qed.

  Lemma issuerLoop_spec certs fuel : forall pre x,
    incl (pre ++ [x]) certs -> issuer_chain E S (pre ++ [x]) -> zlen (pre ++ [x]) <= zlen certs ->
    zlen certs + 1 <= Z.of_nat fuel + zlen (pre ++ [x]) ->
    exists t, let r := issuerLoop E S fuel certs (pkixCanonical E S (c_issuer x)) (pre ++ [x]) in
      r = (pre ++ [x]) ++ t /\ incl r certs /\ issuer_chain E S r /\ zlen r <= zlen certs + 1 /\ chain_stops E S certs r.
  Proof.
    induction fuel as [|fuel IH]; intros pre x Hi Hc Hl Hf; [lia|].
    cbn [issuerLoop]. destruct (find _ certs) as [y|] eqn:Ef.
    - apply find_some in Ef as [Hy Hn]. apply bytes_eqb_eq in Hn.
      assert (Hi' : incl ((pre ++ [x]) ++ [y]) certs) by (apply incl_app; [exact Hi|intros z [<-|[]]; exact Hy]).
      assert (Hc' := issuer_chain_snoc pre x y Hc Hn).
      assert (Hl' : zlen ((pre ++ [x]) ++ [y]) = zlen (pre ++ [x]) + 1) by (rewrite (zlen_app (pre ++ [x])); reflexivity).
      destruct (Z.ltb_spec (zlen certs) (zlen ((pre ++ [x]) ++ [y]))) as [Hb|Hb].
      { exists [y]. cbv zeta. repeat (split; [reflexivity || assumption || lia|]). exists (pre ++ [x]), y.
        split; [reflexivity|]. right. right. lia. }
      destruct (bytes_eqb (pkixCanonical E S (c_issuer y)) (pkixCanonical E S (c_subject y))) eqn:Eself.
      { apply bytes_eqb_eq in Eself. exists [y]. cbv zeta. repeat (split; [reflexivity || assumption || lia|]). exists (pre ++ [x]), y.
        split; [reflexivity|]. left. exact Eself. }
      destruct (IH (pre ++ [x]) y Hi' Hc' ltac:(lia) ltac:(lia)) as (t & Hr). cbv zeta in Hr.
      exists (y :: t). cbv zeta. destruct Hr as (-> & Hr). rewrite <- (app_assoc (pre ++ [x]) [y] t) in *. cbn [app] in *.
      split; [reflexivity|exact Hr].
    - exists []. cbv zeta. rewrite app_nil_r. repeat (split; [reflexivity || assumption || lia|]). exists pre, x. split; [reflexivity|].
      right. left. intros d Hd Hs. pose proof (find_none _ _ Ef d Hd) as Hno. cbn beta in Hno. apply bytes_eqb_neq in Hno. exact (Hno Hs).
  Qed.

  Lemma buildChain_spec certs c : In c certs ->
    exists t, buildChain E S certs c = c :: t /\ incl (c :: t) certs /\ issuer_chain E S (c :: t) /\
      zlen (c :: t) <= zlen certs + 1 /\ chain_stops E S certs (c :: t).
  Proof.
    intros Hin. unfold buildChain.
    assert (Hi : incl [c] certs) by (intros z [<-|[]]; exact Hin).
    assert (Hl : 1 <= zlen certs) by (destruct certs as [|a t]; [destruct Hin|rewrite zlen_cons; pose proof (zlen_nonneg t); lia]).
    destruct (bytes_eqb (pkixCanonical E S (c_issuer c)) (pkixCanonical E S (c_subject c))) eqn:Es.
    - exists []. split; [reflexivity|]. split; [exact Hi|]. split; [exact I|].
      split; [change (zlen [c]) with 1; lia|]. exists [], c. split; [reflexivity|]. left. apply bytes_eqb_eq. exact Es.
    - destruct (issuerLoop_spec certs (Datatypes.S (List.length certs)) [] c Hi I Hl) as (t & H).
      { change (zlen ([] ++ [c])) with 1. unfold zlen. lia. }
      cbv zeta in H. cbn [app] in H. destruct H as (-> & H). exists t. split; [reflexivity|exact H].
  Qed.

  (** More fuel does not change the chain. *)
  Lemma issuerLoop_fuel certs fuel : forall k ic ch, zlen certs + 1 <= Z.of_nat fuel + zlen ch -> zlen ch <= zlen certs ->
    issuerLoop E S (fuel + k) certs ic ch = issuerLoop E S fuel certs ic ch.
  Proof.
    induction fuel as [|fuel IH]; intros k ic ch Hf Hl; [lia|]. cbn [Nat.add issuerLoop].
    destruct (find _ certs) as [y|]; [|reflexivity].
    destruct (Z.ltb_spec (zlen certs) (zlen (ch ++ [y]))) as [Hb|Hb]; [reflexivity|].
    destruct (bytes_eqb _ _); [reflexivity|]. rewrite zlen_app in Hb. change (zlen [y]) with 1 in Hb.
    apply IH; rewrite zlen_app; change (zlen [y]) with 1; lia.
  Qed.

  (** ** verifySignature *)
  Lemma verifySignature_sound sig minSdk maxSdk ch : SchemeV1.verifySignature E S sig minSdk maxSdk = Ret (ch, None) ->
    block_verified E S (sg_p7 sig) (m_rawData (sg_sm sig)) minSdk maxSdk ch /\ chain_stops E S (p7_certs (sg_p7 sig)) ch.
  Proof.
    unfold SchemeV1.verifySignature. destruct (p7_signers (sg_p7 sig)) as [|s0 st] eqn:Es; [discriminate|].
    set (l := if minSdk <? V7_0_Nougat then [s0] else s0 :: st). intros H.
    destruct (signersLoop E S sig l maxSdk None) as [r|] eqn:El; cbn [obind] in H; [|discriminate].
    destruct r as [[ch' e]|[c|]].
    - discriminate.
    - assert (Hch : ch = buildChain E S (p7_certs (sg_p7 sig)) c) by congruence. clear H.
      destruct (signersLoop_sound _ _ _ _ _ El) as [Hn|(info & Hi & Hv)]; [discriminate|].
      apply verifySigner_sound in Hv. pose proof Hv as (Hin & _).
      destruct (buildChain_spec _ _ Hin) as (t & Hb & Hincl & Hic & Hlen & Hst). rewrite Hb in Hch. subst ch.
      split; [|exact Hst]. exists c, t, info. split; [reflexivity|]. split; [exact Hv|]. split; [|auto].
      unfold l, V7_0_Nougat in Hi. rewrite Es. destruct (minSdk <? 24); [|exact Hi].
      destruct Hi as [<-|[]]. exists st. reflexivity.
    - discriminate.
  Qed.
End Sig.
