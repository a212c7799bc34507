(** The decoder reads what the specification says (C109). *)
From Coq Require Import Lia ZifyBool.
From Verif.Model Require Import Bytes Env Asn1 GoTime GoUtf8.
From Verif.Spec Require Import Ber Asn1 Asn1Value Time Text Asn1Read.
From Verif.Proofs Require Import BytesFacts BerFacts Asn1Codec Asn1Header Asn1Value Asn1Decode TimeFacts TextFacts AnyFacts.

Lemma begins_iff s t r : parseTagAndLength s = Some (t, r) <-> begins s (tl_class t) (tl_tag t) (tl_compound t) (tl_length t) r.
Proof. apply parseTagAndLength_iff. Qed.
Lemma begins_parse s c tg k n r : begins s c tg k n r -> parseTagAndLength s = Some (hd c tg n k, r).
Proof. intros H. apply begins_iff. exact H. Qed.

Lemma string_tag_iff t : (isStringTag t = true \/ t = 19) <-> In t [12; 18; 19; 20; 22; 27; 30].
Proof.
  unfold isStringTag. rewrite existsb_exists. split.
  - intros [(x & Hx & E)|E]; [apply Z.eqb_eq in E; subst x|subst t]; cbn [In] in *; unfold TagIA5String, TagGeneralString, TagT61String, TagUTF8String, TagNumericString, TagBMPString in *; intuition.
  - intros H. destruct (Z.eq_dec t 19); [right; assumption|left]. exists t. split; [|apply Z.eqb_refl]. cbn [In] in *. unfold TagIA5String, TagGeneralString, TagT61String, TagUTF8String, TagNumericString, TagBMPString. intuition.
Qed.

Lemma matchBody_cases ty p t s1 : ty <> TyAny -> well_described ty p -> 0 <= tl_class t ->
  (exists u, fits ty p (tl_class t) (tl_tag t) (tl_compound t) u /\
     (forall kind, fits ty p (tl_class t) (tl_tag t) (tl_compound t) kind -> ty = TyString \/ ty = TyTime -> kind = u) /\
     matchBody ty p t s1 = (if zlen s1 <? tl_length t then HErr else HMatch t u (takeZ (tl_length t) s1) (dropZ (tl_length t) s1))) \/
  (~ (exists kind, fits ty p (tl_class t) (tl_tag t) (tl_compound t) kind)) /\ matchBody ty p t s1 = HMismatch.
Proof.
  intros Hty Hwd Hc.
  assert (Hset : fp_set p = true -> constructed ty = true) by (destruct ty; apply Hwd). clear Hwd.
  destruct t as [c tg n k]. cbn [tl_class tl_tag tl_length tl_compound] in *.
  destruct (isRaw ty) eqn:ER.
  { destruct ty; try discriminate. unfold matchBody, getUniversalType, expected, fits. cbn [tl_class tl_tag tl_length tl_compound negb andb].
    unfold ClassPrivate, ClassApplication, ClassContextSpecific, ClassUniversal. unfold implicit_class, implied_kind.
    destruct (fp_tag p) as [m|]; [destruct (fp_explicit p)|]; cbn [negb andb orb].
    - left. eexists. split; [left; reflexivity|]. split; [intros ? _ [|]; discriminate|reflexivity].
    - destruct (fp_private p); [|destruct (fp_application p)]; cbn [negb andb orb]; rewrite !orb_false_r;
        destruct (Z.eqb_spec c 3); destruct (Z.eqb_spec c 1); destruct (Z.eqb_spec c 2); try lia; destruct (Z.eqb_spec tg m); cbn [negb orb];
        try (right; split; [intros (? & H & H1 & _); lia|reflexivity]);
        (left; eexists; repeat split; try assumption; try congruence; intros ? _ [H|H]; discriminate H).
    - left. eexists. split; [left; reflexivity|]. split; [intros ? _ [|]; discriminate|reflexivity]. }
  assert (HR : ty <> TyRaw) by (destruct ty; try discriminate; intros C; discriminate C).
  assert (exists ut, getUniversalType ty = Some (false, ut, constructed ty)) as (ut & EU) by (destruct ty; try congruence; try (eexists; reflexivity); destruct setName; eexists; reflexivity).
  unfold matchBody. rewrite EU. cbv zeta.
  set (u := adjustTag p {| tl_class := c; tl_tag := tg; tl_length := n; tl_compound := k |} ut).
  unfold expected, fits. cbn [tl_class tl_tag tl_length tl_compound].
  assert (HU : c = 0 -> (own_tag ty p tg <-> tg = u)).
  { intros ->. unfold own_tag, u, adjustTag. cbn [tl_class tl_tag]. change (0 =? ClassUniversal) with true. destruct (fp_set p) eqn:Es; [reflexivity|].
    destruct ty; try congruence; try (injection EU as <-; reflexivity).
    - injection EU as <-. unfold TagUTCTime, TagGeneralizedTime, TagPrintableString. cbn -[Z.eq]. destruct (Z.eqb_spec tg 24); cbn [andb]; lia.
    - injection EU as <-. unfold TagUTCTime, TagGeneralizedTime. change (TagPrintableString =? TagPrintableString) with true. cbv iota. rewrite <- string_tag_iff.
      destruct (isStringTag tg) eqn:Ei.
      + assert (tg <> 23) by (intros ->; discriminate Ei). destruct (Z.eqb_spec tg 23); [lia|]. cbn [andb]. intuition.
      + unfold TagPrintableString. cbn [Z.eqb andb]. change (19 =? 23) with false. cbn [andb]. intuition discriminate.
    - destruct setName; injection EU as <-; reflexivity. }
  assert (HB : Bool.eqb k (constructed ty) = true <-> k = constructed ty) by (split; [apply Bool.eqb_prop|intros ->; apply Bool.eqb_reflx]).
  assert (HI : c <> 0 -> implied_kind ty p u).
  { intros Nc. unfold implied_kind, u, adjustTag. cbn [tl_class tl_tag]. unfold ClassUniversal. destruct (Z.eqb_spec c 0); [lia|]. rewrite !andb_false_r.
    destruct ty; try exact I; (destruct (fp_set p); [exfalso; specialize (Hset eq_refl); discriminate|]); injection EU as <-; [reflexivity|].
    change (TagPrintableString =? TagPrintableString) with true. cbv iota. destruct (fp_stringType p =? 0); reflexivity. }
  assert (HK : forall kind, implied_kind ty p u -> implied_kind ty p kind -> ty = TyString \/ ty = TyTime -> kind = u) by (intros kind H1 H2 [-> | ->]; cbn in *; congruence).
  assert (HOwn : (exists u0, (ty = TyRaw \/ c = 0 /\ own_tag ty p tg /\ k = constructed ty /\ u0 = tg) /\
     (forall kind, ty = TyRaw \/ c = 0 /\ own_tag ty p tg /\ k = constructed ty /\ kind = tg -> ty = TyString \/ ty = TyTime -> kind = u0) /\
     (if negb false && (negb (c =? ClassUniversal) || negb (tg =? u)) || negb false && negb (Bool.eqb k (constructed ty)) then HMismatch
      else if zlen s1 <? n then HErr else HMatch {| tl_class := c; tl_tag := tg; tl_length := n; tl_compound := k |} u (takeZ n s1) (dropZ n s1)) =
     (if zlen s1 <? n then HErr else HMatch {| tl_class := c; tl_tag := tg; tl_length := n; tl_compound := k |} u0 (takeZ n s1) (dropZ n s1))) \/
    (~ (exists kind, ty = TyRaw \/ c = 0 /\ own_tag ty p tg /\ k = constructed ty /\ kind = tg)) /\
     (if negb false && (negb (c =? ClassUniversal) || negb (tg =? u)) || negb false && negb (Bool.eqb k (constructed ty)) then HMismatch
      else if zlen s1 <? n then HErr else HMatch {| tl_class := c; tl_tag := tg; tl_length := n; tl_compound := k |} u (takeZ n s1) (dropZ n s1)) = HMismatch).
  { unfold ClassUniversal. cbn [negb andb]. destruct (Z.eqb_spec c 0) as [->|Nc].
    2: { right. split; [intros (? & [C|(C & _)]); [congruence|lia]|reflexivity]. }
    cbn [negb orb]. destruct (Z.eqb_spec tg u) as [E|N]; cbn [negb orb].
    2: { right. split; [|reflexivity]. intros (? & [C|(_ & C & _)]); [congruence|]. apply (HU eq_refl) in C. contradiction. }
    destruct (Bool.eqb k (constructed ty)) eqn:Ek; cbn [negb].
    - left. exists tg. clear Ek. pose proof (proj1 HB eq_refl) as Ek. split; [right; repeat split; try assumption; apply (HU eq_refl); exact E|]. split; [intros kind [C|(_ & _ & _ & C)] _; [congruence|exact C]|]. rewrite E. reflexivity.
    - right. split; [|reflexivity]. intros (? & [C|(_ & _ & C & _)]); [congruence|]. apply HB in C. discriminate C. }
  destruct (fp_tag p) as [m|]; [destruct (fp_explicit p)|]; try exact HOwn. clear HOwn.
  assert (HIM : forall ec, (if fp_private p then (ClassPrivate, m, false) else if fp_application p then (ClassApplication, m, false) else (ClassContextSpecific, m, false)) = (ec, m, false) ->
            ec = implicit_class p /\ ec <> 0).
  { intros ec. unfold implicit_class. destruct (fp_private p); [|destruct (fp_application p)]; intros E; injection E as <-; (split; [reflexivity|discriminate]). }
  destruct (if fp_private p then _ else _) as [[ec et] ea] eqn:EE.
  assert (et = m /\ ea = false) as (-> & ->) by (destruct (fp_private p); [|destruct (fp_application p)]; split; congruence).
  destruct (HIM ec eq_refl) as (<- & Hne). cbn [negb andb].
  destruct (Z.eqb_spec c ec) as [->|Nc]; cbn [negb orb]; [|right; split; [intros (? & C & _); contradiction|reflexivity]].
  destruct (Z.eqb_spec tg m) as [->|Nc]; cbn [negb orb]; [|right; split; [intros (? & _ & C & _); contradiction|reflexivity]].
  destruct (Bool.eqb k (constructed ty)) eqn:Ek; cbn [negb].
  - left. exists u. clear Ek. pose proof (proj1 HB eq_refl) as Ek. split; [repeat split; [intros _; exact Ek|apply HI; exact Hne]|]. split; [|reflexivity]. intros kind (_ & _ & _ & H). apply HK; [apply HI; exact Hne|exact H].
  - right. split; [|reflexivity]. intros (? & _ & _ & C & _). specialize (C HR). apply HB in C. discriminate C.
Qed.

Lemma matchBody_noflag ty p t s1 rest : matchBody ty p t s1 <> HFlag rest.
Proof. unfold matchBody. destruct (getUniversalType ty) as [[[? ?] ?]|]; [|discriminate]. destruct (expected _ _ _) as [[? ?] ?]. destruct (_ || _); [discriminate|]. destruct (_ <? _); discriminate. Qed.
Lemma wrapper_iff p t : (tl_class t =? (if fp_application p then ClassApplication else ClassContextSpecific)) && (match fp_tag p with Some tg => tl_tag t =? tg | None => false end) &&
               ((tl_length t =? 0) || tl_compound t) = true <-> wrapper p (tl_class t) (tl_tag t) (tl_compound t) (tl_length t).
Proof.
  unfold wrapper, explicit_class, ClassApplication, ClassContextSpecific. rewrite !andb_true_iff, orb_true_iff, !Z.eqb_eq.
  destruct (fp_tag p) as [m|]; [rewrite Z.eqb_eq|].
  - split; [intros ((H1 & H2) & H3)|intros (H1 & H2 & H3)].
    + split; [destruct (fp_application p); exact H1|]. split; [congruence|exact H3].
    + split; [split; [destruct (fp_application p); exact H1|congruence]|exact H3].
  - split; [intros ((_ & C) & _); discriminate|intros (_ & C & _); discriminate].
Qed.

Section H.
  Variables (ty : gotype) (p : fparams).
  Hypothesis (Hty : ty <> TyAny) (Hwd : well_described ty p).

  Lemma begins_pos s c tg k n r : begins s c tg k n r -> 0 <= c /\ 0 <= n.
  Proof. intros H. apply begins_parse, parseHeader_rest in H as (_ & _ & _ & H1 & H2 & _). cbn in *. lia. Qed.

  Lemma header_match s t u inner rest : parseHeader ty p s = HMatch t u inner rest ->
    present ty p s (tl_class t) (tl_tag t) (tl_compound t) u inner rest.
  Proof.
    unfold parseHeader, present. destruct (parseTagAndLength s) as [[t1 s1]|] eqn:E1; [|discriminate].
    pose proof (parseHeader_rest _ _ _ E1) as (_ & _ & _ & H0 & Hc & _).
    destruct (fp_explicit p) eqn:Ee.
    - destruct s1 as [|x xs] eqn:Es1; [discriminate|]. destruct (_ && _ && _) eqn:Ew; [|discriminate]. apply wrapper_iff in Ew. rewrite <- Es1 in *.
      destruct (isRaw ty) eqn:Er.
      + intros H. left. pose proof (matchBody_inv _ _ _ _ _ _ _ _ H) as (-> & HL & -> & -> & _). destruct (parse_element _ _ _ E1 HL) as (full & E & HE).
        split; [destruct ty; try discriminate; reflexivity|]. rewrite take_drop. split; [congruence|]. split; [|exists full; split; assumption].
        rewrite zlen_takeZ. replace (Z.max 0 (Z.min (tl_length t1) (zlen s1))) with (tl_length t1) by lia. exact Ew.
      + destruct (Z.ltb_spec 0 (tl_length t1)); [|destruct (isFlag ty); discriminate].
        destruct (parseTagAndLength s1) as [[t2 s2]|] eqn:E2; [|discriminate]. intros H'. right. split; [destruct ty; discriminate|].
        pose proof (parseHeader_rest _ _ _ E2) as (_ & _ & _ & H02 & Hc2 & _).
        destruct (matchBody_cases ty p t2 s2 Hty Hwd ltac:(lia)) as [(v & Hf & _ & EM)|(_ & EM)]; rewrite EM in H'; [|discriminate].
        destruct (Z.ltb_spec (zlen s2) (tl_length t2)); [discriminate|]. assert (t2 = t /\ v = u /\ inner = takeZ (tl_length t2) s2 /\ rest = dropZ (tl_length t2) s2) as (-> & -> & -> & ->) by (repeat split; congruence).
        destruct (parse_element _ _ _ E2 ltac:(lia)) as (full & E & HE). exists (tl_class t1), (tl_tag t1), (tl_compound t1), (tl_length t1), full.
        rewrite <- E. split; [apply begins_iff; exact E1|]. split; [exact Ew|]. split; [lia|]. split; [exact HE|exact Hf].
    - intros H'. destruct (matchBody_cases ty p t1 s1 Hty Hwd ltac:(lia)) as [(v & Hf & _ & EM)|(_ & EM)]; rewrite EM in H'; [|discriminate].
      destruct (Z.ltb_spec (zlen s1) (tl_length t1)); [discriminate|]. assert (t1 = t /\ v = u /\ inner = takeZ (tl_length t1) s1 /\ rest = dropZ (tl_length t1) s1) as (-> & -> & -> & ->) by (repeat split; congruence).
      destruct (parse_element _ _ _ E1 ltac:(lia)) as (full & E & HE). exists full. split; [exact E|]. split; [exact HE|exact Hf].
  Qed.

  Lemma element_begins c tg k content full rest : element c tg k content full -> begins (full ++ rest) c tg k (zlen content) (content ++ rest).
  Proof. intros (i & l & -> & HI & HL). exists i, l. rewrite <- !app_assoc. split; [reflexivity|]. split; assumption. Qed.

  Lemma present_header s c tg k kind inner rest : present ty p s c tg k kind inner rest ->
    exists u, parseHeader ty p s = HMatch (hd c tg (zlen inner) k) u inner rest /\ (ty = TyString \/ ty = TyTime -> kind = u).
  Proof.
    assert (HB : forall s1, fits ty p c tg k kind -> 0 <= c -> s1 = inner ++ rest ->
               exists u, matchBody ty p (hd c tg (zlen inner) k) s1 = HMatch (hd c tg (zlen inner) k) u inner rest /\ (ty = TyString \/ ty = TyTime -> kind = u)).
    { intros s1 Hf Hc ->. destruct (matchBody_cases ty p (hd c tg (zlen inner) k) (inner ++ rest) Hty Hwd Hc) as [(v & Hf' & Hk & EM)|(C & _)]; cbn [hd tl_class tl_tag tl_compound tl_length] in *.
      - exists v. rewrite EM, zlen_app. destruct (Z.ltb_spec (zlen inner + zlen rest) (zlen inner)); [pose proof (zlen_nonneg rest); lia|]. rewrite takeZ_app, dropZ_app by reflexivity. split; [reflexivity|]. intros H1. apply Hk; assumption.
      - exfalso. apply C. exists kind. exact Hf. }
    unfold present, parseHeader. destruct (fp_explicit p) eqn:Ee.
    - intros [(-> & Hne & Hw & full & -> & HE)|(Hr & oc & ot & ok & n & full & Hb & Hw & Hn & HE & Hf)].
      + pose proof (element_begins _ _ _ _ _ rest HE) as Hb. pose proof (begins_pos _ _ _ _ _ _ Hb) as (Hc & _). apply begins_parse in Hb. rewrite Hb.
        destruct (HB (inner ++ rest)) as (u & EM & Hu); [unfold fits; rewrite Ee; destruct (fp_tag p); left; reflexivity|exact Hc|reflexivity|].
        destruct (inner ++ rest) as [|x xs] eqn:Es; [contradiction|]. rewrite <- Es in *.
        rewrite (proj2 (wrapper_iff p (hd c tg (zlen inner) k)) Hw). exists u. split; [exact EM|exact Hu].
      + pose proof (element_begins _ _ _ _ _ rest HE) as Hb2. pose proof (begins_pos _ _ _ _ _ _ Hb2) as (Hc & _). apply begins_parse in Hb, Hb2. rewrite Hb.
        destruct (HB (inner ++ rest) Hf Hc eq_refl) as (u & EM & Hu).
        destruct (full ++ rest) as [|x xs] eqn:Es; [discriminate Hb2|]. rewrite <- Es in *.
        rewrite (proj2 (wrapper_iff p (hd oc ot n ok)) Hw). replace (isRaw ty) with false by (destruct ty; try reflexivity; congruence). cbn [hd tl_length]. destruct (Z.ltb_spec 0 n); [|lia]. rewrite Hb2. exists u. split; [exact EM|exact Hu].
    - intros (full & -> & HE & Hf). pose proof (element_begins _ _ _ _ _ rest HE) as Hb. pose proof (begins_pos _ _ _ _ _ _ Hb) as (Hc & _). apply begins_parse in Hb. rewrite Hb. apply HB; [exact Hf|exact Hc|reflexivity].
  Qed.

  Lemma header_flag s rest : parseHeader ty p s = HFlag rest <-> flagged ty p s rest.
  Proof.
    clear Hty Hwd.
    unfold flagged, parseHeader. split.
    - destruct (parseTagAndLength s) as [[t1 s1]|] eqn:E1; [|discriminate]. destruct (fp_explicit p); [|intros H; apply matchBody_noflag in H; contradiction].
      destruct s1 as [|x xs] eqn:Es1; [discriminate|]. rewrite <- Es1 in *. destruct (_ && _ && _) eqn:Ew; [|discriminate]. apply wrapper_iff in Ew.
      destruct (isRaw ty); [intros H; apply matchBody_noflag in H; contradiction|].
      destruct (Z.ltb_spec 0 (tl_length t1)) as [|Hn]; [destruct (parseTagAndLength s1) as [[? ?]|]; [intros H'; apply matchBody_noflag in H'; contradiction|discriminate]|].
      destruct (isFlag ty) eqn:Ef; [|discriminate]. intros E. assert (s1 = rest) as <- by congruence. clear E.
      pose proof (parseHeader_rest _ _ _ E1) as (_ & _ & _ & H0 & _). assert (E0 : tl_length t1 = 0) by lia.
      split; [destruct ty; try discriminate; reflexivity|]. split; [reflexivity|]. split; [congruence|]. exists (tl_class t1), (tl_tag t1), (tl_compound t1). rewrite E0 in Ew. split; [|exact Ew].
      rewrite <- E0. apply begins_iff. exact E1.
    - intros (-> & -> & Hne & c & tg & k & Hb & Hw). apply begins_parse in Hb. rewrite Hb. destruct rest as [|x xs]; [contradiction|].
      rewrite (proj2 (wrapper_iff p (hd c tg 0 k)) Hw). reflexivity.
  Qed.

  Lemma header_absent s : s <> [] -> (parseHeader ty p s = HMismatch <-> absent ty p s).
  Proof.
    intros Hs. unfold absent, parseHeader. split.
    - intros H. right. split; [exact Hty|]. destruct (parseTagAndLength s) as [[t1 s1]|] eqn:E1; [|discriminate]. pose proof (parseHeader_rest _ _ _ E1) as (_ & _ & _ & H0 & Hc & _).
      exists (tl_class t1), (tl_tag t1), (tl_compound t1), (tl_length t1), s1. split; [apply begins_iff; exact E1|].
      destruct (fp_explicit p) eqn:Ee.
      + destruct s1 as [|x xs] eqn:Es1; [discriminate|]. rewrite <- Es1 in *. split; [congruence|]. destruct (_ && _ && _) eqn:Ew.
        * right. destruct (isRaw ty) eqn:Er.
          { exfalso. destruct (matchBody_cases ty p t1 s1 Hty Hwd ltac:(lia)) as [(v & Hf & _ & EM)|(C & _)]; [rewrite EM in H; destruct (_ <? _); discriminate|].
            apply C. exists 0. unfold fits. rewrite Ee. destruct ty; try discriminate. destruct (fp_tag p); left; reflexivity. }
          split; [destruct ty; discriminate|]. destruct (Z.ltb_spec 0 (tl_length t1)) as [Hn|]; [|destruct (isFlag ty); discriminate]. split; [exact Hn|].
          destruct (parseTagAndLength s1) as [[t2 s2]|] eqn:E2; [|discriminate]. pose proof (parseHeader_rest _ _ _ E2) as (_ & _ & _ & _ & Hc2 & _).
          exists (tl_class t2), (tl_tag t2), (tl_compound t2), (tl_length t2), s2. split; [apply begins_iff; exact E2|].
          destruct (matchBody_cases ty p t2 s2 Hty Hwd ltac:(lia)) as [(v & Hf & _ & EM)|(C & _)]; [rewrite EM in H; destruct (_ <? _); discriminate|exact C].
        * left. intros C. apply wrapper_iff in C. congruence.
      + destruct (matchBody_cases ty p t1 s1 Hty Hwd ltac:(lia)) as [(v & Hf & _ & EM)|(C & _)]; [rewrite EM in H; destruct (_ <? _); discriminate|exact C].
    - intros [|(_ & c & tg & k & n & body & Hb & HX)]; [contradiction|]. pose proof (begins_pos _ _ _ _ _ _ Hb) as (Hc & _). apply begins_parse in Hb. rewrite Hb.
      assert (HM : forall c tg k n s1, 0 <= c -> ~ (exists kind, fits ty p c tg k kind) -> matchBody ty p (hd c tg n k) s1 = HMismatch).
      { intros c0 tg0 k0 n0 s0 Hc0 HN. destruct (matchBody_cases ty p (hd c0 tg0 n0 k0) s0 Hty Hwd Hc0) as [(v & Hf & _)|(_ & EM)]; [exfalso; apply HN; exists v; exact Hf|exact EM]. }
      destruct (fp_explicit p) eqn:Ee; [|apply HM; assumption].
      destruct HX as (Hne & HX). destruct body as [|x xs] eqn:Es; [contradiction|]. rewrite <- Es in *.
      destruct (_ && _ && _) eqn:Ew; [|reflexivity]. apply wrapper_iff in Ew. destruct HX as [C|(Hr & Hn & c2 & t2 & k2 & n2 & b2 & Hb2 & HN)]; [contradiction|].
      replace (isRaw ty) with false by (destruct ty; try reflexivity; congruence). cbn [hd tl_length]. destruct (Z.ltb_spec 0 n); [|lia].
      pose proof (begins_pos _ _ _ _ _ _ Hb2) as (Hc2 & _). apply begins_parse in Hb2. rewrite Hb2. apply HM; assumption.
  Qed.
End H.

Lemma present_split ty p s c tg k kind inner rest : present ty p s c tg k kind inner rest -> exists h, s = h ++ rest /\ h <> [].
Proof.
  assert (HN : forall c tg k b f, element c tg k b f -> f <> []).
  { intros c0 t0 k0 b f HE ->. apply element_size in HE. change (zlen ([] : bytes)) with 0 in HE. pose proof (zlen_nonneg b). lia. }
  unfold present. destruct (fp_explicit p).
  - intros [(_ & _ & _ & full & -> & HE)|(_ & oc & ot & ok & n & full & (i & l & -> & _) & _ & _ & HE & _)].
    + exists full. split; [reflexivity|]. eapply HN; exact HE.
    + exists (i ++ l ++ full). rewrite <- !app_assoc. split; [reflexivity|]. intros C. apply app_eq_nil in C as (_ & C). apply app_eq_nil in C as (_ & C). eapply HN; [exact HE|exact C].
  - intros (full & -> & HE & _). exists full. split; [reflexivity|]. eapply HN; exact HE.
Qed.

Lemma default_iff ty p v : setDefaultValue ty p (zeroVal ty) = Some v <-> fp_optional p = true /\ v = default_value ty p.
Proof.
  unfold setDefaultValue, default_value. destruct (fp_optional p); [|split; [discriminate|intros (C & _); discriminate]].
  split; [intros E; injection E as <-; split; [reflexivity|destruct (fp_default p); reflexivity]|intros (_ & ->); destruct (fp_default p); reflexivity].
Qed.

Lemma field_step ty p s v rest (M : Z -> Z -> bool -> Z -> bytes -> Prop) : ty <> TyAny -> well_described ty p ->
  (forall t u content full, present ty p s (tl_class t) (tl_tag t) (tl_compound t) u content rest -> s = full ++ rest ->
     (parseContent goText ty (zeroVal ty) t u full content rest = (v, Some rest) <-> M (tl_class t) (tl_tag t) (tl_compound t) u content)) ->
  (ty <> TyString -> ty <> TyTime -> forall c tg k kind kind' content, M c tg k kind content -> M c tg k kind' content) ->
  (parseField goText ty p (zeroVal ty) s = (v, Some rest) <->
   (absent ty p s /\ fp_optional p = true /\ v = default_value ty p /\ rest = s) \/ (flagged ty p s rest /\ v = VBool true) \/ (ty = TyAny /\ any_read s v rest) \/
   exists c tg k kind content, present ty p s c tg k kind content rest /\ M c tg k kind content).
Proof.
  intros Hty Hwd HC HK. split.
  - intros H. apply parseField_inv in H; [|exact Hty]. destruct H as [(_ & -> & Hd & Ha)|[(-> & _ & HF)|(t & u & inner & Hs & HH & HP)]].
    + left. apply default_iff in Hd as (Ho & ->). split; [|split; [exact Ho|split; reflexivity]].
      destruct Ha as [->|Ha]; [left; reflexivity|]. apply (header_absent ty p Hty Hwd); [intros ->; discriminate Ha|exact Ha].
    + right. left. apply header_flag in HF. split; [exact HF|reflexivity].
    + right. right. right. pose proof (header_match ty p Hty Hwd _ _ _ _ _ HH) as HP'. destruct (present_split _ _ _ _ _ _ _ _ _ HP') as (h & Eh & _).
      assert (EF : takeZ (zlen s - zlen rest) s = h) by (rewrite Eh; apply takeZ_app; rewrite zlen_app; lia). rewrite EF in HP.
      exists (tl_class t), (tl_tag t), (tl_compound t), u, inner. split; [exact HP'|]. apply (HC t u inner h HP' Eh). exact HP.
  - intros [(Ha & Ho & -> & ->)|[(HF & ->)|[(C & _)|(c & tg & k & kind & content & HP & HM)]]]; [| |contradiction|].
    + assert (Hd : setDefaultValue ty p (zeroVal ty) = Some (default_value ty p)) by (apply default_iff; split; [exact Ho|reflexivity]). clear HC HK.
      destruct s as [|x xs]; [destruct ty; [congruence|..]; cbn [parseField]; rewrite Hd; reflexivity|].
      assert (HH : parseHeader ty p (x :: xs) = HMismatch) by (apply (header_absent ty p Hty Hwd); [discriminate|exact Ha]).
      destruct ty; [congruence|..]; cbn [parseField]; rewrite HH, Hd; reflexivity.
    + assert (Hs : s <> []). { destruct HF as (_ & _ & _ & c & tg & k & Hb & _). apply begins_parse in Hb. intros ->. discriminate Hb. }
      apply header_flag in HF. destruct s as [|x xs]; [contradiction|]. clear HC HK. destruct ty; [congruence|..]; cbn [parseField]; rewrite HF; reflexivity.
    + destruct (present_header ty p Hty Hwd _ _ _ _ _ _ _ HP) as (u & HH & Hu). destruct (present_split _ _ _ _ _ _ _ _ _ HP) as (h & Eh & Hne).
      assert (Hs : s <> []) by (rewrite Eh; intros C; apply app_eq_nil in C as (C & _); contradiction).
      assert (EF : takeZ (zlen s - zlen rest) s = h) by (rewrite Eh; apply takeZ_app; rewrite zlen_app; lia).
      rewrite (parseField_match goText ty p _ s _ _ _ _ Hs Hty HH), EF. pose proof (header_match ty p Hty Hwd _ _ _ _ _ HH) as HP'. apply (HC _ _ _ _ HP' Eh).
      cbn [hd tl_class tl_tag tl_compound]. assert (D : (ty = TyString \/ ty = TyTime) \/ (ty <> TyString /\ ty <> TyTime)) by (destruct ty; try (left; left; reflexivity); try (left; right; reflexivity); right; split; discriminate).
      destruct D as [D|(D1 & D2)]; [rewrite <- (Hu D); exact HM|]. apply (HK D1 D2 _ _ _ kind). exact HM.
Qed.

(** Contents *)
Lemma int64_range b z : integer_octets b z -> (zlen b <= 8 <-> - 2 ^ 63 <= z < 2 ^ 63).
Proof.
  intros (HT & HM). split.
  - intros HL. destruct HT as (Hne & HR & _). assert (256 ^ zlen b <= 256 ^ 8) by (apply Z.pow_le_mono_r; lia). change (256 ^ 8) with (2 * 2 ^ 63) in H. lia.
  - intros HR. specialize (HM (be_enc 8 z)). rewrite be_enc_len in HM. apply HM. apply be_enc_twos; [lia|]. change (256 ^ Z.of_nat 8) with (2 * 2 ^ 63). lia.
Qed.
Lemma int64_iff b z : parseInt64 b = Some z <-> integer_octets b z /\ - 2 ^ 63 <= z < 2 ^ 63.
Proof. rewrite parseInt64_iff. split; intros (H1 & H2); (split; [exact H1|]); apply (int64_range b z H1); exact H2. Qed.
Lemma int32_iff b z : parseInt32 b = Some z <-> integer_octets b z /\ - 2 ^ 31 <= z < 2 ^ 31.
Proof.
  unfold parseInt32. split.
  - destruct (parseInt64 b) as [y|] eqn:E; [|discriminate]. destruct (Z.eqb_spec y (wrap32 y)) as [Ew|]; [|discriminate]. intros H. injection H as <-. apply int64_iff in E as (E & _). split; [exact E|].
    rewrite Ew. pose proof (wrap32_range y). unfold min_int32, max_int32 in *. change (2 ^ 31) with 2147483648. lia.
  - intros (HO & HR). assert (E : parseInt64 b = Some z). { apply int64_iff. split; [exact HO|]. change (2 ^ 31) with 2147483648 in HR. change (2 ^ 63) with 9223372036854775808. lia. }
    rewrite E. rewrite wrap32_id; [rewrite Z.eqb_refl; reflexivity|]. change (2 ^ 31) with 2147483648 in HR. unfold min_int32, max_int32. lia.
Qed.
Lemma text_iff u b s : parseString goText u b = Some s <-> text_content u s b.
Proof.
  unfold text_content. destruct (in_dec Z.eq_dec u [19; 18; 22; 20; 12; 30]) as [Hi|Hn].
  - rewrite (parseString_iff u b s Hi). split; [intros H; right; exact H|intros [(-> & _)|H]; [cbn in Hi; lia|exact H]].
  - assert (Hno : ~ string_text u b s). { unfold string_text. cbn [In] in Hn. intros H. lia. }
    unfold parseString, TagPrintableString, TagNumericString, TagIA5String, TagT61String, TagUTF8String, TagGeneralString, TagBMPString. cbn [In] in Hn.
    destruct (Z.eqb_spec u 19); [lia|]. destruct (Z.eqb_spec u 18); [lia|]. destruct (Z.eqb_spec u 22); [lia|]. destruct (Z.eqb_spec u 20); [lia|]. destruct (Z.eqb_spec u 12); [lia|].
    destruct (Z.eqb_spec u 27); [split; [intros H; injection H as <-; left; split; [assumption|reflexivity]|intros [(_ & ->)|H]; [reflexivity|contradiction]]|].
    destruct (Z.eqb_spec u 30); [lia|]. split; [discriminate|intros [(C & _)|C]; [lia|contradiction]].
Qed.
Lemma oid_iff b o : parseObjectIdentifier b = Some o <-> oid_content o b.
Proof.
  rewrite parseOid_iff. unfold oid_content. split; intros (x & y & r & bs & H1 & H2 & H3 & H4 & H5 & H6); exists x, y, r, bs; repeat split; try assumption; try lia; congruence.
Qed.
Lemma bits_iff b u n : parseBitString b = Some (u, n) <-> bits_content u n b.
Proof. apply parseBits_iff. Qed.
Lemma leaf_iff {A} (r : option A) (f : A -> goval) old rest v : (forall a b, f a = f b -> a = b) ->
  (leafValue old rest f r = (v, Some rest) <-> exists a, r = Some a /\ v = f a).
Proof.
  intros Hf. unfold leafValue. destruct r as [a|]; [|split; [discriminate|intros (a & C & _); discriminate]].
  split; [intros E; injection E as <-; exists a; split; reflexivity|intros (b & E & ->); injection E as ->; reflexivity].
Qed.

Lemma any_kinds_dec tag : existsb (Z.eqb tag) any_kinds = true <-> In tag any_kinds.
Proof. rewrite existsb_exists. split; [intros (x & H & E); apply Z.eqb_eq in E; subst x; exact H|intros H; exists tag; split; [exact H|apply Z.eqb_refl]]. Qed.

Definition anyValue (tag : Z) (content : bytes) : option goval :=
  if existsb (Z.eqb tag) [TagPrintableString; TagNumericString; TagIA5String; TagT61String; TagUTF8String; TagBMPString]
  then option_map VString (parseString goText tag content)
  else if tag =? TagInteger then option_map VInt (parseInt64 content)
  else if tag =? TagBitString then option_map (fun p => VBits (fst p) (snd p)) (parseBitString content)
  else if tag =? TagOID then option_map VOid (parseObjectIdentifier content)
  else if tag =? TagUTCTime then option_map VTime (x_utc goText content)
  else if tag =? TagGeneralizedTime then option_map VTime (x_generalized goText content)
  else if tag =? TagOctetString then Some (VBytes content)
  else None.

Lemma anyValue_iff tag content w : anyValue tag content = Some w <-> any_content tag w content.
Proof.
  unfold anyValue, any_content. destruct (existsb _ _) eqn:Ee.
  - apply existsb_exists in Ee as (x & Hi & E). apply Z.eqb_eq in E. subst x.
    assert (Hi' : In tag [19; 18; 22; 20; 12; 30]) by exact Hi.
    assert (HN : tag <> 2 /\ tag <> 3 /\ tag <> 4 /\ tag <> 6 /\ tag <> 23 /\ tag <> 24) by (cbn in Hi'; lia).
    split.
    + destruct (parseString goText tag content) as [s|] eqn:E; [|discriminate]. intros H. injection H as <-. right. right. right. right. right. exists s. split; [reflexivity|]. apply parseString_iff; assumption.
    + intros H. destruct H as [(z & C & _)|[(? & ? & C & _)|[(C & _)|[(o & C & _)|[(t & _ & [(C & _)|(C & _)])|(s & -> & H)]]]]]; try lia. apply parseString_iff in H; [|exact Hi']. rewrite H. reflexivity.
  - assert (Hno : forall s, ~ string_text tag content s).
    { intros s H. assert (In tag [19; 18; 22; 20; 12; 30]) by (unfold string_text in H; cbn [In]; lia). assert (existsb (Z.eqb tag) [19; 18; 22; 20; 12; 30] = true) by (apply existsb_exists; exists tag; split; [assumption|apply Z.eqb_refl]). unfold TagPrintableString, TagNumericString, TagIA5String, TagT61String, TagUTF8String, TagBMPString in Ee. congruence. }
    unfold TagInteger, TagBitString, TagOID, TagUTCTime, TagGeneralizedTime, TagOctetString.
    unfold time_content.
    destruct (Z.eqb_spec tag 2) as [->|]; [|destruct (Z.eqb_spec tag 3) as [->|]; [|destruct (Z.eqb_spec tag 6) as [->|]; [|destruct (Z.eqb_spec tag 23) as [->|]; [|destruct (Z.eqb_spec tag 24) as [->|]; [|destruct (Z.eqb_spec tag 4) as [->|]]]]]].
    + split.
      * destruct (parseInt64 content) as [z|] eqn:E; [|discriminate]. intros H. injection H as <-. left. exists z. split; [reflexivity|]. split; [reflexivity|]. apply int64_iff. exact E.
      * intros [(z & _ & -> & H)|[(? & ? & C & _)|[(C & _)|[(? & C & _)|[(? & _ & [(C & _)|(C & _)])|(s & _ & C)]]]]]; try discriminate; [|destruct (Hno _ C)]. apply int64_iff in H. rewrite H. reflexivity.
    + split.
      * destruct (parseBitString content) as [[bb nn]|] eqn:E; [|discriminate]. intros H. injection H as <-. right. left. exists bb, nn. split; [reflexivity|]. split; [reflexivity|]. apply bits_iff. exact E.
      * intros [(z & C & _)|[(bb & nn & _ & -> & H)|[(C & _)|[(? & C & _)|[(? & _ & [(C & _)|(C & _)])|(s & _ & C)]]]]]; try discriminate; [|destruct (Hno _ C)]. apply bits_iff in H. rewrite H. reflexivity.
    + split.
      * destruct (parseObjectIdentifier content) as [o|] eqn:E; [|discriminate]. intros H. injection H as <-. right. right. right. left. exists o. split; [reflexivity|]. split; [reflexivity|]. apply oid_iff. exact E.
      * intros [(z & C & _)|[(? & ? & C & _)|[(C & _)|[(o & _ & -> & H)|[(? & _ & [(C & _)|(C & _)])|(s & _ & C)]]]]]; try discriminate; [|destruct (Hno _ C)]. apply oid_iff in H. rewrite H. reflexivity.
    + split.
      * destruct (x_utc goText content) as [t|] eqn:E; [|discriminate]. intros H. injection H as <-. right. right. right. right. left. exists t. split; [reflexivity|]. left. split; [reflexivity|]. apply utc_time_iff. exact E.
      * intros [(z & C & _)|[(? & ? & C & _)|[(C & _)|[(o & C & _)|[(t & -> & [(_ & H)|(C & _)])|(s & _ & C)]]]]]; try discriminate; [|destruct (Hno _ C)]. apply utc_time_iff in H. cbn [x_utc goText]. rewrite H. reflexivity.
    + split.
      * destruct (x_generalized goText content) as [t|] eqn:E; [|discriminate]. intros H. injection H as <-. right. right. right. right. left. exists t. split; [reflexivity|]. right. split; [reflexivity|]. apply generalized_time_iff. exact E.
      * intros [(z & C & _)|[(? & ? & C & _)|[(C & _)|[(o & C & _)|[(t & -> & [(C & _)|(_ & H)])|(s & _ & C)]]]]]; try discriminate; [|destruct (Hno _ C)]. apply generalized_time_iff in H. cbn [x_generalized goText]. rewrite H. reflexivity.
    + split; [intros H; injection H as <-; right; right; left; split; reflexivity|].
      intros [(z & C & _)|[(? & ? & C & _)|[(_ & ->)|[(o & C & _)|[(? & _ & [(C & _)|(C & _)])|(s & _ & C)]]]]]; try discriminate; [reflexivity|destruct (Hno _ C)].
    + split; [discriminate|]. intros [(z & C & _)|[(? & ? & C & _)|[(C & _)|[(o & C & _)|[(? & _ & [(C & _)|(C & _)])|(s & _ & C)]]]]]; try lia. destruct (Hno _ C).
Qed.
Lemma any_content_kind tag w b : any_content tag w b -> In tag any_kinds.
Proof.
  unfold any_content, time_content, string_text, any_kinds. cbn [In].
  intros [(z & C & _)|[(? & ? & C & _)|[(C & _)|[(o & C & _)|[(? & _ & C)|(s & _ & C)]]]]]; lia.
Qed.

Lemma any_iff s v rest : parseAny goText VNil s = (v, Some rest) <-> any_read s v rest.
Proof.
  unfold any_read. split.
  - intros H. assert (HV : (exists w, v = VAny w) \/ v = VNil).
    { unfold parseAny in H. destruct (parseTagAndLength s) as [[t s1]|]; [|discriminate]. destruct (_ <? _); [discriminate|]. cbv zeta in H.
      repeat match type of H with context [if ?x then _ else _] => destruct x end; repeat match type of H with context [match ?x with Some _ => _ | None => _ end] => destruct x end; try discriminate; injection H as <- _; first [right; reflexivity|left; eexists; reflexivity]. }
    destruct HV as [(w & ->)| ->].
    + apply parseAny_iff in H as (tag & content & full & E & HE & HW). symmetry in HW. apply anyValue_iff in HW. exists 0, tag, false, content, full. split; [exact E|]. split; [exact HE|]. left. repeat split; [eapply any_content_kind; exact HW|]. exists w. split; [reflexivity|exact HW].
    + unfold parseAny in H. destruct (parseTagAndLength s) as [[t s1]|] eqn:E1; [|discriminate]. destruct (Z.ltb_spec (zlen s1) (tl_length t)) as [|HL]; [discriminate|]. cbv zeta in H.
      destruct (parse_element _ _ _ E1 HL) as (full & E & HE). exists (tl_class t), (tl_tag t), (tl_compound t), (takeZ (tl_length t) s1), full.
      assert (dropZ (tl_length t) s1 = rest) as <-.
      { repeat match type of H with context [if ?x then _ else _] => destruct x end; repeat match type of H with context [match ?x with Some _ => _ | None => _ end] => destruct x end; congruence. }
      split; [exact E|]. split; [exact HE|]. right. split; [|reflexivity]. intros (C1 & C2 & C3). rewrite C1, C2 in H. change (negb false && (0 =? ClassUniversal)) with true in H. cbv iota in H.
      apply any_kinds_dec in C3. revert C3 H. unfold any_kinds. generalize (tl_tag t) as n. intros n C3 H. cbn [existsb] in C3, H.
      unfold TagPrintableString, TagNumericString, TagIA5String, TagT61String, TagUTF8String, TagBMPString, TagInteger, TagBitString, TagOID, TagUTCTime, TagGeneralizedTime, TagOctetString in H.
      rewrite !orb_false_r in *.
      repeat match type of H with context [if ?x then _ else _] => destruct x eqn:? end; repeat match type of H with context [match ?x with Some _ => _ | None => _ end] => destruct x end; try discriminate. lia.
  - intros (c & tag & k & content & full & -> & HE & [(-> & -> & _ & w & -> & HW)|(HN & ->)]).
    + apply parseAny_iff. exists tag, content, full. split; [reflexivity|]. split; [exact HE|]. apply anyValue_iff in HW. symmetry. exact HW.
    + unfold parseAny. rewrite (element_parse _ _ _ _ _ rest HE). cbn [hd tl_length tl_class tl_tag tl_compound]. rewrite zlen_app. destruct (Z.ltb_spec (zlen content + zlen rest) (zlen content)); [pose proof (zlen_nonneg rest); lia|].
      cbv zeta. rewrite takeZ_app, dropZ_app by reflexivity. unfold ClassUniversal. destruct k; cbn [negb andb]; [reflexivity|]. destruct (Z.eqb_spec c 0) as [->|]; [|reflexivity].
      assert (HN' : ~ In tag any_kinds) by (intros C; apply HN; repeat split; exact C). unfold any_kinds in HN'. cbn [In] in HN'. cbn [existsb].
      unfold TagPrintableString, TagNumericString, TagIA5String, TagT61String, TagUTF8String, TagBMPString, TagInteger, TagBitString, TagOID, TagUTCTime, TagGeneralizedTime, TagOctetString.
      repeat match goal with |- context [tag =? ?n] => destruct (Z.eqb_spec tag n); [lia|] end. reflexivity.
Qed.

(** Lists *)
Definition read_all (elem : gotype) := fix each (l : list goval) (b : bytes) : Prop :=
  match l with [] => b = [] | x :: t => exists r, reads elem noParams b x r /\ each t r end.

Lemma present_noParams elem s c tg k kind content rest : present elem noParams s c tg k kind content rest ->
  exists full, s = full ++ rest /\ element c tg k content full /\ (elem = TyRaw \/ (c = 0 /\ own_tag elem noParams tg /\ k = constructed elem)).
Proof. intros (full & E & HE & [H|(H1 & H2 & H3 & _)]); exists full; (split; [exact E|split; [exact HE|]]); [left; exact H|right; split; [exact H1|split; [exact H2|exact H3]]]. Qed.

Lemma count_present f elem s c tg k kind content rest : elem <> TyAny -> present elem noParams s c tg k kind content rest ->
  countElements (Datatypes.S f) elem s = match countElements f elem rest with Some n => Some (Datatypes.S n) | None => None end.
Proof.
  intros Hty HP. apply present_noParams in HP as (full & -> & HE & HF). pose proof (element_parse _ _ _ _ _ rest HE) as EP.
  destruct (full ++ rest) as [|x xs] eqn:Es; [discriminate EP|]. cbn [countElements]. rewrite EP. cbn [hd tl_class tl_tag tl_length tl_compound].
  assert (HG : exists any et ct, getUniversalType elem = Some (any, et, ct) /\
    negb any && (negb (c =? ClassUniversal) || negb (Bool.eqb k ct) ||
      negb ((if isStringTag tg then TagPrintableString else if (tg =? TagGeneralizedTime) || (tg =? TagUTCTime) then TagUTCTime else tg) =? et)) = false).
  { destruct HF as [->|(-> & Ho & ->)]; [do 3 eexists; split; reflexivity|]. unfold own_tag in Ho. cbn [noParams fp_set] in Ho.
    destruct elem; try contradiction; cbn [getUniversalType constructed].
    all: try (subst tg; do 3 eexists; split; [reflexivity|reflexivity]).
    - do 3 eexists. split; [reflexivity|]. destruct Ho as [-> | ->]; reflexivity.
    - do 3 eexists. split; [reflexivity|]. apply string_tag_iff in Ho. destruct Ho as [-> | ->]; reflexivity.
    - destruct setName; subst tg; do 3 eexists; (split; [reflexivity|reflexivity]). }
  destruct HG as (any & et & ct & -> & ->). rewrite zlen_app. destruct (Z.ltb_spec (zlen content + zlen rest) (zlen content)); [pose proof (zlen_nonneg rest); lia|].
  rewrite dropZ_app by reflexivity. reflexivity.
Qed.
Lemma count_head f elem s n : s <> [] -> countElements f elem s = Some n ->
  exists f' m c tg k content full rest, f = Datatypes.S f' /\ n = Datatypes.S m /\ s = full ++ rest /\ element c tg k content full /\ countElements f' elem rest = Some m.
Proof.
  intros Hs H. destruct s as [|x xs] eqn:Es; [contradiction|]. destruct f as [|f]; [discriminate|]. cbn [countElements] in H. rewrite <- Es in *.
  destruct (getUniversalType elem) as [[[any et] ct]|]; [|discriminate]. destruct (parseTagAndLength s) as [[t s1]|] eqn:E1; [|discriminate]. cbv zeta in H. destruct (_ && _); [discriminate|].
  destruct (Z.ltb_spec (zlen s1) (tl_length t)) as [|HL]; [discriminate|]. destruct (countElements f elem (dropZ (tl_length t) s1)) as [m|] eqn:Em; [|discriminate]. injection H as <-.
  destruct (parse_element _ _ _ E1 HL) as (full & E & HE). exists f, m, (tl_class t), (tl_tag t), (tl_compound t), (takeZ (tl_length t) s1), full, (dropZ (tl_length t) s1). repeat split; assumption.
Qed.
Lemma element_unique c tg k b f r c' tg' k' b' f' r' : element c tg k b f -> element c' tg' k' b' f' -> f ++ r = f' ++ r' -> r = r'.
Proof.
  intros H1 H2 E. pose proof (element_parse _ _ _ _ _ r H1) as P1. pose proof (element_parse _ _ _ _ _ r' H2) as P2. rewrite <- E, P1 in P2.
  assert (hd c tg (zlen b) k = hd c' tg' (zlen b') k' /\ b ++ r = b' ++ r') as (EH & EB) by (split; congruence).
  assert (EL : zlen b = zlen b') by (unfold hd in EH; congruence). assert (ED : dropZ (zlen b) (b ++ r) = dropZ (zlen b) (b' ++ r')) by congruence. rewrite (dropZ_app b r (zlen b) eq_refl), (dropZ_app b' r' (zlen b) EL) in ED. exact ED.
Qed.

Section Lists.
  Variable elem : gotype.
  Hypothesis HI : forall s v rest, parseField goText elem noParams (zeroVal elem) s = (v, Some rest) <-> reads elem noParams s v rest.

  Lemma reads_present s v rest : elem <> TyAny -> reads elem noParams s v rest -> exists c tg k kind content, present elem noParams s c tg k kind content rest.
  Proof.
    intros Hty H. destruct elem; try congruence; cbn [reads] in H; (destruct H as [(_ & C & _)|[((_ & C & _) & _)|[(C & _)|(c & tg & k & kind & content & HP & _)]]]; [discriminate C|discriminate C|discriminate C|]; exists c, tg, k, kind, content; exact HP).
  Qed.

  Lemma list_back l : forall f s, (elem = TyAny -> l = []) -> (List.length s <= f)%nat -> read_all elem l s -> exists n, countElements f elem s = Some n /\ parseElems goText elem n s = Some l.
  Proof.
    induction l as [|x l IH]; intros f s Ha Hf H; cbn [read_all] in H.
    - subst s. exists O. split; [destruct f; reflexivity|reflexivity].
    - assert (Hty : elem <> TyAny) by (intros C; specialize (Ha C); discriminate). destruct H as (r & HR & HL). destruct (reads_present _ _ _ Hty HR) as (c & tg & k & kind & content & HP).
      apply HI in HR. destruct (present_split _ _ _ _ _ _ _ _ _ HP) as (h & Eh & Hne).
      destruct f as [|f]; [exfalso; subst s; destruct h; [contradiction|cbn in Hf; lia]|].
      destruct (IH f r) as (n & EC & EP); [congruence| |exact HL|]. { subst s. rewrite app_length in Hf. destruct h; [contradiction|cbn in Hf; lia]. }
      exists (Datatypes.S n). rewrite (count_present _ _ _ _ _ _ _ _ _ Hty HP), EC. split; [reflexivity|]. cbn [parseElems]. rewrite HR, EP. reflexivity.
  Qed.
  Lemma list_fwd l : forall f s n, countElements f elem s = Some n -> parseElems goText elem n s = Some l -> read_all elem l s /\ (elem = TyAny -> l = []).
  Proof.
    induction l as [|x l IH]; intros f s n EC EP.
    - split; [|reflexivity]. cbn [read_all]. destruct s as [|y ys] eqn:Es; [reflexivity|]. exfalso. destruct (count_head f elem (y :: ys) n ltac:(discriminate) EC) as (f' & m & c & tg & k & content & full & rest & -> & -> & _).
      cbn [parseElems] in EP. destruct (parseField _ _ _ _ _) as [v [r|]]; [|discriminate]. destruct (parseElems goText elem m r); discriminate.
    - assert (Hs : s <> []). { intros ->. assert (n = O) by (destruct f; cbn in EC; congruence). subst n. discriminate EP. }
      assert (Hty : elem <> TyAny). { intros ->. destruct s; [contradiction|]. destruct f; discriminate EC. }
      destruct (count_head f elem s n Hs EC) as (f' & m & c & tg & k & content & full & rest & -> & -> & Es & HE & EC').
      cbn [parseElems] in EP. destruct (parseField goText elem noParams (zeroVal elem) s) as [v [r|]] eqn:EF; [|discriminate]. destruct (parseElems goText elem m r) as [l'|] eqn:EP'; [|discriminate].
      assert (v = x /\ l' = l) as (-> & ->) by (split; congruence). apply HI in EF. destruct (reads_present _ _ _ Hty EF) as (c2 & tg2 & k2 & kind & content2 & HP).
      apply present_noParams in HP as (full2 & Es2 & HE2 & _). assert (r = rest) as -> by (eapply element_unique; [exact HE2|exact HE|congruence]).
      split; [|intros C; contradiction]. cbn [read_all]. exists rest. split; [exact EF|]. apply (IH f' rest m EC' EP').
  Qed.
End Lists.

Scheme gotype_mind := Induction for gotype Sort Prop with tfields_mind := Induction for tfields Sort Prop.
Combined Scheme types_mind from gotype_mind, tfields_mind.

Lemma read_iff :
  (forall ty p s v rest, well_described ty p -> (parseField goText ty p (zeroVal ty) s = (v, Some rest) <-> reads ty p s v rest)) /\
  (forall fs s vs, well_described_fields fs -> (parseFields goText fs (zeroFields fs) s = (vs, true) <-> exists left, reads_fields fs s vs left)).
Proof.
  apply types_mind.
  - (* TyAny *) intros p s v rest Hwd. destruct s as [|x xs].
    + cbn [parseField]. split.
      * destruct (setDefaultValue TyAny p (zeroVal TyAny)) as [w|] eqn:Ed; [|discriminate]. intros E. apply default_iff in Ed as (Ho & ->). left. split; [left; reflexivity|]. split; [exact Ho|]. split; congruence.
      * intros [(_ & Ho & -> & ->)|[((C & _) & _)|[(_ & c & tg & k & b & f & C & HE & _)|(c & tg & k & kind & content & HP & C)]]].
        -- rewrite (proj2 (default_iff TyAny p (default_value TyAny p)) (conj Ho eq_refl)). reflexivity.
        -- discriminate C.
        -- symmetry in C. apply app_eq_nil in C as (-> & _). apply element_size in HE. change (zlen ([] : bytes)) with 0 in HE. pose proof (zlen_nonneg b). lia.
        -- destruct v; contradiction.
    + change (parseField goText TyAny p (zeroVal TyAny) (x :: xs)) with (parseAny goText VNil (x :: xs)). rewrite any_iff. split.
      * intros H. right. right. left. split; [reflexivity|exact H].
      * intros [([C|(C & _)] & _)|[((C & _) & _)|[(_ & H)|(c & tg & k & kind & content & HP & C)]]]; [discriminate C|congruence|discriminate C|exact H|destruct v; contradiction].
  - (* TyRaw *) intros p s v rest Hwd. apply (field_step TyRaw p s v rest _ ltac:(discriminate) Hwd); [|intros _ _; auto].
    intros t u content full _ Es. cbn [parseContent]. split.
    + intros E. assert (v = VRaw (tl_class t) (tl_tag t) (tl_compound t) content full) as -> by congruence. repeat split; assumption.
    + destruct v; try contradiction. intros (-> & -> & -> & -> & E). assert (full = full0) as -> by (apply (app_inv_tail rest); congruence). reflexivity.
  - (* TyOid *) intros p s v rest Hwd. apply (field_step TyOid p s v rest _ ltac:(discriminate) Hwd); [|intros _ _; auto].
    intros t u content full _ Es. cbn [parseContent]. split.
    + destruct (parseObjectIdentifier content) as [o|] eqn:E; [|discriminate]. intros H. assert (v = VOid o) as -> by congruence. apply oid_iff. exact E.
    + destruct v; try contradiction. intros H. apply oid_iff in H. rewrite H. reflexivity.
  - (* TyBits *) intros p s v rest Hwd. apply (field_step TyBits p s v rest _ ltac:(discriminate) Hwd); [|intros _ _; auto].
    intros t u content full _ Es. cbn [parseContent]. unfold leafValue. split.
    + destruct (parseBitString content) as [[b n]|] eqn:E; [|discriminate]. intros H. assert (v = VBits b n) as -> by (cbn in H; congruence). apply bits_iff. exact E.
    + destruct v; try contradiction. intros H. apply bits_iff in H. rewrite H. reflexivity.
  - (* TyTime *) intros p s v rest Hwd. apply (field_step TyTime p s v rest _ ltac:(discriminate) Hwd); [|intros _ C; congruence].
    intros t u content full HP Es. cbn [parseContent]. unfold leafValue.
    assert (HK : u = 23 \/ u = 24).
    { assert (G : forall c tg k, fits TyTime p c tg k u -> u = 23 \/ u = 24).
      { intros c tg k. unfold fits, implied_kind, own_tag. assert (fp_set p = false) as -> by (destruct (fp_set p) eqn:Es'; [exfalso; apply Hwd in Es'; discriminate|reflexivity]).
        destruct (fp_tag p); [destruct (fp_explicit p)|]; [intros [C|(_ & C & _ & ->)]; [discriminate|exact C]|intros (_ & _ & _ & ->); left; reflexivity|intros [C|(_ & C & _ & ->)]; [discriminate|exact C]]. }
      unfold present in HP. destruct (fp_explicit p); [destruct HP as [(C & _)|(_ & ? & ? & ? & ? & ? & _ & _ & _ & _ & HF)]; [discriminate|]|destruct HP as (? & _ & _ & HF)]; eapply G; exact HF. }
    unfold time_content, TagUTCTime. destruct (Z.eqb_spec u 23) as [->|Nu]; split.
    + destruct (x_utc goText content) as [w|] eqn:E; [|discriminate]. intros H. assert (v = VTime w) as -> by congruence. left. split; [reflexivity|]. apply utc_time_iff. exact E.
    + destruct v; try contradiction. intros [(_ & H)|(C & _)]; [|lia]. apply utc_time_iff in H. cbn [x_utc goText]. rewrite H. reflexivity.
    + destruct (x_generalized goText content) as [w|] eqn:E; [|discriminate]. intros H. assert (v = VTime w) as -> by congruence. right. split; [lia|]. apply generalized_time_iff. exact E.
    + destruct v; try contradiction. intros [(C & _)|(_ & H)]; [lia|]. apply generalized_time_iff in H. cbn [x_generalized goText]. rewrite H. reflexivity.
  - (* TyEnum *) intros p s v rest Hwd. apply (field_step TyEnum p s v rest _ ltac:(discriminate) Hwd); [|intros _ _; auto].
    intros t u content full _ Es. cbn [parseContent]. unfold leafValue. split.
    + destruct (parseInt32 content) as [o|] eqn:E; [|discriminate]. intros H. assert (v = VInt o) as -> by congruence. apply int32_iff. exact E.
    + destruct v; try contradiction. intros H. apply int32_iff in H. rewrite H. reflexivity.
  - (* TyFlag *) intros p s v rest Hwd. apply (field_step TyFlag p s v rest _ ltac:(discriminate) Hwd); [|intros _ _; auto].
    intros t u content full _ Es. cbn [parseContent]. split.
    + intros H. assert (v = VBool true) as -> by congruence. reflexivity.
    + destruct v; try contradiction. intros ->. reflexivity.
  - (* TyBig *) intros p s v rest Hwd. apply (field_step TyBig p s v rest _ ltac:(discriminate) Hwd); [|intros _ _; auto].
    intros t u content full _ Es. cbn [parseContent]. unfold leafValue. split.
    + destruct (parseBigInt content) as [o|] eqn:E; [|discriminate]. intros H. assert (v = VInt o) as -> by congruence. apply parseBigInt_iff. exact E.
    + destruct v; try contradiction. intros H. apply parseBigInt_iff in H. rewrite H. reflexivity.
  - (* TyBool *) intros p s v rest Hwd. apply (field_step TyBool p s v rest _ ltac:(discriminate) Hwd); [|intros _ _; auto].
    intros t u content full _ Es. cbn [parseContent]. unfold leafValue. split.
    + destruct (parseBool content) as [o|] eqn:E; [|discriminate]. intros H. assert (v = VBool o) as -> by congruence. apply parseBool_iff. exact E.
    + destruct v; try contradiction. intros H. apply parseBool_iff in H. rewrite H. reflexivity.
  - (* TyInt *) intros p s v rest Hwd. apply (field_step TyInt p s v rest _ ltac:(discriminate) Hwd); [|intros _ _; auto].
    intros t u content full _ Es. cbn [parseContent]. unfold leafValue. split.
    + destruct (parseInt64 content) as [o|] eqn:E; [|discriminate]. intros H. assert (v = VInt o) as -> by congruence. apply int64_iff. exact E.
    + destruct v; try contradiction. intros H. apply int64_iff in H. rewrite H. reflexivity.
  - (* TyInt32 *) intros p s v rest Hwd. apply (field_step TyInt32 p s v rest _ ltac:(discriminate) Hwd); [|intros _ _; auto].
    intros t u content full _ Es. cbn [parseContent]. unfold leafValue. split.
    + destruct (parseInt32 content) as [o|] eqn:E; [|discriminate]. intros H. assert (v = VInt o) as -> by congruence. apply int32_iff. exact E.
    + destruct v; try contradiction. intros H. apply int32_iff in H. rewrite H. reflexivity.
  - (* TyBytes *) intros p s v rest Hwd. apply (field_step TyBytes p s v rest _ ltac:(discriminate) Hwd); [|intros _ _; auto].
    intros t u content full _ Es. cbn [parseContent]. split.
    + intros H. assert (v = VBytes content) as -> by congruence. reflexivity.
    + destruct v; try contradiction. intros ->. reflexivity.
  - (* TyString *) intros p s v rest Hwd. apply (field_step TyString p s v rest _ ltac:(discriminate) Hwd); [|intros C; congruence].
    intros t u content full _ Es. cbn [parseContent]. unfold leafValue. split.
    + destruct (parseString goText u content) as [o|] eqn:E; [|discriminate]. intros H. assert (v = VString o) as -> by congruence. apply text_iff. exact E.
    + destruct v; try contradiction. intros H. apply text_iff in H. rewrite H. reflexivity.
  - (* TySlice *) intros setName elem IH p s v rest Hwd. apply (field_step (TySlice setName elem) p s v rest _ ltac:(discriminate) Hwd); [|intros _ _; auto].
    assert (HI : forall s v rest, parseField goText elem noParams (zeroVal elem) s = (v, Some rest) <-> reads elem noParams s v rest) by (intros; apply IH; apply Hwd).
    intros t u content full _ Es. cbn [parseContent]. unfold leafValue. split.
    + destruct (countElements (List.length content) elem content) as [n|] eqn:EC; [|discriminate]. destruct (parseElems goText elem n content) as [l|] eqn:EP; [|discriminate].
      intros H. assert (v = VSlice l) as -> by congruence. destruct (list_fwd elem HI l _ _ _ EC EP) as (H1 & H2). split; [exact H2|exact H1].
    + destruct v; try contradiction. intros (H2 & H1). destruct (list_back elem HI l (List.length content) content H2 (le_n _) H1) as (n & EC & EP). rewrite EC, EP. reflexivity.
  - (* TyStruct *) intros raw fs IH p s v rest Hwd. apply (field_step (TyStruct raw fs) p s v rest _ ltac:(discriminate) Hwd); [|intros _ _; auto].
    assert (Hwf : well_described_fields fs) by apply Hwd.
    intros t u content full _ Es. cbn [parseContent zeroVal fieldsOf]. split.
    + destruct (parseFields goText fs (zeroFields fs) content) as [l ok] eqn:EP. destruct ok; [|discriminate]. intros H. assert (v = VStruct (if raw then full else []) l) as -> by congruence.
      split; [destruct raw; [exact Es|reflexivity]|]. apply IH; assumption.
    + destruct v as [| | | | | | | | | |raw' vs|]; try contradiction. intros (HR & HF). apply IH in HF; [|exact Hwf]. rewrite HF.
      destruct raw; [assert (full = raw') as -> by (apply (app_inv_tail rest); congruence)|subst raw']; reflexivity.
  - (* FNil *) intros s vs _. cbn [parseFields zeroFields reads_fields]. split; [intros E; assert (vs = []) as -> by congruence; exists s; reflexivity|intros (left & H); destruct vs; [reflexivity|contradiction]].
  - (* FCons *) intros p t IHt r IHr s vs (Hw1 & Hw2). cbn [reads_fields].
    change (parseFields goText (FCons p t r) (zeroFields (FCons p t r)) s) with
      (match parseField goText t p (zeroVal t) s with
       | (v, Some s1) => let '(l, ok) := parseFields goText r (zeroFields r) s1 in (v :: l, ok)
       | (v, None) => (v :: zeroFields r, false)
       end). split.
    + destruct (parseField goText t p (zeroVal t) s) as [v [s1|]] eqn:E; [|discriminate]. destruct (parseFields goText r (zeroFields r) s1) as [l ok] eqn:EF. intros H. assert (vs = v :: l /\ ok = true) as (-> & ->) by (split; congruence).
      apply IHt in E; [|exact Hw1]. apply IHr in EF; [|exact Hw2]. destruct EF as (left & HF). exists left, s1. split; assumption.
    + intros (left & H). destruct vs as [|v l]; [contradiction|]. destruct H as (mid & HR & HF). apply IHt in HR; [|exact Hw1]. rewrite HR. assert (EF : parseFields goText r (zeroFields r) mid = (l, true)) by (apply IHr; [exact Hw2|exists left; exact HF]). rewrite EF. reflexivity.
Qed.
