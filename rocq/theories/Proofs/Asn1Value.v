(** Decoding what the encoder wrote, for whole values *)
From Coq Require Import Lia.
From Verif.Model Require Import Bytes Env Ber Asn1.
From Verif.Spec Require Import Ber Asn1 Asn1Value.
From Verif.Proofs Require Import BytesFacts BerFacts Asn1Codec Asn1Header.

Scheme gotype_mut := Induction for gotype Sort Prop with tfields_mut := Induction for tfields Sort Prop.
Combined Scheme gotype_tfields_ind from gotype_mut, tfields_mut.

Definition hd (c tg n : Z) (k : bool) : tagAndLength := {| tl_class := c; tl_tag := tg; tl_length := n; tl_compound := k |}.

Lemma element_parse c tg k b full r : element c tg k b full -> parseTagAndLength (full ++ r) = Some (hd c tg (zlen b) k, b ++ r).
Proof. intros (id & len & -> & HI & HL). apply parseTagAndLength_iff. exists id, len. rewrite <- !app_assoc. auto. Qed.
Lemma header_element c tg k b : 0 <= c < 4 -> 0 <= tg <= max_int32 -> zlen b < 2 ^ 31 -> element c tg k b (appendTagAndLength (hd c tg (zlen b) k) ++ b).
Proof.
  intros Hc Ht Hb. assert (HV : valid_header (hd c tg (zlen b) k)). { pose proof (zlen_nonneg b). unfold valid_header, hd. cbn. lia. }
  pose proof (parse_append_header _ b HV) as HP. apply parseTagAndLength_iff in HP as (id & l & HE & HI & HL). exists id, l. auto.
Qed.

Section V.
  Variable X : textenv.

  (* the tag that is written *)
  Definition goodTag (ty : gotype) (p : fparams) (tag : Z) : Prop :=
    match ty with
    | TyString => fp_set p = false /\ fp_stringType p = 0 /\ (tag = TagPrintableString \/ tag = TagUTF8String)
    | _ => match getUniversalType ty with Some (_, u, _) => tag = if fp_set p then TagSet else u | None => False end
    end.
  Definition plainType (ty : gotype) : Prop := match ty with TyAny | TyRaw | TyTime => False | _ => True end.

  Lemma adjust_universal ty p tag n k any u comp : plainType ty -> getUniversalType ty = Some (any, u, comp) -> goodTag ty p tag ->
    adjustTag p (hd ClassUniversal tag n k) u = tag.
  Proof.
    intros HP HU HG. unfold adjustTag, hd. cbn [tl_class tl_tag].
    assert (HS : ty = TyString \/ ((u =? TagPrintableString) = false /\ (u =? TagUTCTime) = false /\ tag = if fp_set p then TagSet else u)).
    { unfold goodTag in HG. destruct ty; try (cbn in HP; contradiction); try (left; reflexivity); right;
        try (destruct setName); rewrite HU in HG; (split; [|split; [|exact HG]]); cbn in HU; assert (E : Some u = Some u) by reflexivity; injection HU; intros; subst; reflexivity. }
    destruct HS as [-> |(E1 & E2 & E3)].
    - assert (u = TagPrintableString) as -> by (cbn in HU; congruence). unfold goodTag in HG. destruct HG as (-> & -> & [-> | ->]); reflexivity.
    - rewrite E1, E2. cbn [andb]. rewrite E3. destruct (fp_set p); reflexivity.
  Qed.

  Lemma parseHeader_wrap ty p tag comp body r any u : plainType ty -> mandatory p -> getUniversalType ty = Some (any, u, comp) -> goodTag ty p tag ->
    0 <= tag <= max_int32 -> zlen (wrapTags p tag comp body) < 2 ^ 31 ->
    exists t u', parseHeader ty p (wrapTags p tag comp body ++ r) = HMatch t u' body r /\
      (ty = TyString -> u' = TagPrintableString \/ (u' = TagUTF8String /\ tag = TagUTF8String)).
  Proof.
    intros HP (_ & _ & Hap & Hex & Htg) HU HG Htag HL. unfold wrapTags in *. pose proof (zlen_nonneg body) as HB.
    assert (Hany : any = false). { destruct ty; cbn in HP; try contradiction; cbn in HU; try (injection HU; auto; fail). destruct setName; injection HU; auto. }
    subst any.
    assert (HC : forall t s1, Bool.eqb (tl_compound t) comp = true -> zlen s1 >= tl_length t ->
      let '(ec, et, _) := expected p false (adjustTag p t u) in tl_class t = ec -> tl_tag t = et ->
      matchBody ty p t s1 = HMatch t (adjustTag p t u) (takeZ (tl_length t) s1) (dropZ (tl_length t) s1)).
    { intros t s1 Hk Hs. destruct (expected p false (adjustTag p t u)) as [[ec et] ea] eqn:EX. intros Hc Ht. unfold matchBody. rewrite HU, EX.
      assert (ea = false) as ->. { unfold expected in EX. destruct (fp_tag p); [destruct (fp_explicit p); [congruence|destruct (fp_private p); [congruence|destruct (fp_application p); congruence]]|congruence]. }
      rewrite Hc, Ht, !Z.eqb_refl, Hk. cbn [negb andb orb]. destruct (Z.ltb_spec (zlen s1) (tl_length t)); [lia|reflexivity]. }
    assert (HTD : takeZ (zlen body) (body ++ r) = body /\ dropZ (zlen body) (body ++ r) = r).
    { split; [apply takeZ_app; reflexivity|apply dropZ_app; reflexivity]. }
    destruct HTD as [HT HD].
    assert (HSZ : zlen (body ++ r) >= zlen body) by (rewrite zlen_app; pose proof (zlen_nonneg r); lia).
    assert (HSTR : ty = TyString -> forall c tg n k, adjustTag p (hd c tg n k) u = TagPrintableString \/ (adjustTag p (hd c tg n k) u = TagUTF8String /\ (c = ClassUniversal -> tg = tag -> tag = TagUTF8String)) \/ c = ClassUniversal).
    { intros -> c tg n k. unfold goodTag in HG. destruct HG as (Hset & Hst & _). assert (u = TagPrintableString) as -> by (cbn in HU; congruence).
      destruct (Z.eq_dec c ClassUniversal) as [|N]; [auto|]. left. unfold adjustTag, hd. cbn [tl_class tl_tag]. rewrite Hset, Hst. change (TagPrintableString =? TagPrintableString) with true. cbv iota.
      destruct (Z.eqb_spec c ClassUniversal); [contradiction|]. reflexivity. }
    destruct (fp_tag p) as [tg|] eqn:Et.
    - specialize (Htg tg eq_refl). destruct (fp_explicit p) eqn:Ee.
      + specialize (Hex eq_refl) as (Hpr & _).
        set (inner := appendTagAndLength {| tl_class := ClassUniversal; tl_tag := tag; tl_length := zlen body; tl_compound := comp |} ++ body) in *.
        set (cl := if fp_application p then ClassApplication else if fp_private p then ClassPrivate else ClassContextSpecific) in *.
        rewrite zlen_app in HL. pose proof (zlen_nonneg (appendTagAndLength {| tl_class := cl; tl_tag := tg; tl_length := zlen inner; tl_compound := true |})) as H1.
        assert (Hin : zlen inner < 2 ^ 31) by lia. assert (Hbody : zlen body < 2 ^ 31). { unfold inner in Hin. rewrite zlen_app in Hin. pose proof (zlen_nonneg (appendTagAndLength {| tl_class := ClassUniversal; tl_tag := tag; tl_length := zlen body; tl_compound := comp |})). lia. }
        assert (Hcl : 0 <= cl < 4) by (unfold cl; destruct (fp_application p), (fp_private p); unfold ClassApplication, ClassPrivate, ClassContextSpecific; lia).
        unfold parseHeader. rewrite <- app_assoc, parse_append_header by (unfold valid_header; cbn; pose proof (zlen_nonneg inner); lia). rewrite Ee. cbn [tl_class tl_tag tl_compound tl_length].
        assert (Hne : inner ++ r <> []). { unfold inner. intros C. apply app_eq_nil in C as [C _]. apply app_eq_nil in C as [C _]. exact (appendTagAndLength_nonempty _ C). }
        destruct (inner ++ r) as [|x xs] eqn:Ei; [congruence|]. rewrite Et. unfold cl. rewrite Hpr. rewrite !Z.eqb_refl, orb_true_r. cbn [andb].
        assert (Hraw : isRaw ty = false) by (destruct ty; cbn in HP; try contradiction; reflexivity). rewrite Hraw.
        assert (Hpos : 0 < zlen inner). { unfold inner. rewrite zlen_app. pose proof (appendTagAndLength_nonempty {| tl_class := ClassUniversal; tl_tag := tag; tl_length := zlen body; tl_compound := comp |}) as N.
          destruct (appendTagAndLength _) as [|z zs]; [congruence|]. rewrite zlen_cons. pose proof (zlen_nonneg zs). lia. }
        destruct (Z.ltb_spec 0 (zlen inner)); [|lia]. rewrite <- Ei. unfold inner. rewrite <- app_assoc.
        rewrite parse_append_header by (unfold valid_header, ClassUniversal; cbn; lia).
        pose proof (HC (hd ClassUniversal tag (zlen body) comp) (body ++ r)) as HC'. cbn [hd tl_compound tl_length tl_class tl_tag] in HC'. rewrite Bool.eqb_reflx in HC'. specialize (HC' eq_refl HSZ).
        unfold expected in HC'. rewrite Et, Ee in HC'. change {| tl_class := ClassUniversal; tl_tag := tag; tl_length := zlen body; tl_compound := comp |} with (hd ClassUniversal tag (zlen body) comp) in *.
        rewrite (adjust_universal ty p tag _ _ _ _ _ HP HU HG) in HC'. rewrite HC' by reflexivity. rewrite HT, HD. exists (hd ClassUniversal tag (zlen body) comp), tag. split; [reflexivity|].
        intros ->. unfold goodTag in HG. destruct HG as (_ & _ & [-> | ->]); auto.
      + set (cl := if fp_application p then ClassApplication else if fp_private p then ClassPrivate else ClassContextSpecific) in *.
        rewrite zlen_app in HL. pose proof (zlen_nonneg (appendTagAndLength {| tl_class := cl; tl_tag := tg; tl_length := zlen body; tl_compound := comp |})) as H1.
        assert (Hcl : 0 <= cl < 4 /\ cl <> ClassUniversal) by (unfold cl; destruct (fp_application p), (fp_private p); unfold ClassApplication, ClassPrivate, ClassContextSpecific, ClassUniversal; lia).
        unfold parseHeader. rewrite <- app_assoc, parse_append_header by (unfold valid_header; cbn; lia). rewrite Ee.
        pose proof (HC (hd cl tg (zlen body) comp) (body ++ r)) as HC'. cbn [hd tl_compound tl_length tl_class tl_tag] in HC'. rewrite Bool.eqb_reflx in HC'. specialize (HC' eq_refl HSZ).
        unfold expected in HC'. rewrite Et, Ee in HC'. change {| tl_class := cl; tl_tag := tg; tl_length := zlen body; tl_compound := comp |} with (hd cl tg (zlen body) comp) in *.
        assert (HM : matchBody ty p (hd cl tg (zlen body) comp) (body ++ r) = HMatch (hd cl tg (zlen body) comp) (adjustTag p (hd cl tg (zlen body) comp) u) body r).
        { rewrite HT, HD in HC'. unfold cl in *. destruct (fp_private p), (fp_application p); cbn in Hap; try discriminate; apply HC'; reflexivity. }
        rewrite HM. do 2 eexists. split; [reflexivity|]. intros Hs. destruct (HSTR Hs cl tg (zlen body) comp) as [H|[(H & _)|H]]; [left; exact H| |tauto].
        exfalso. subst ty. unfold goodTag in HG. destruct HG as (Hset & Hst & _). assert (u = TagPrintableString) as -> by (cbn in HU; congruence).
        unfold adjustTag, hd in H. cbn [tl_class tl_tag] in H. rewrite Hset, Hst in H. change (TagPrintableString =? TagPrintableString) with true in H. cbv iota in H.
        destruct (Z.eqb_spec cl ClassUniversal); [tauto|]. cbn in H. discriminate H.
    - assert (Ee : fp_explicit p = false). { destruct (fp_explicit p); [destruct (Hex eq_refl) as (_ & N); congruence|reflexivity]. }
      rewrite zlen_app in HL. pose proof (zlen_nonneg (appendTagAndLength {| tl_class := ClassUniversal; tl_tag := tag; tl_length := zlen body; tl_compound := comp |})) as H1.
      unfold parseHeader. rewrite <- app_assoc, parse_append_header by (unfold valid_header, ClassUniversal; cbn; lia). rewrite Ee.
      pose proof (HC (hd ClassUniversal tag (zlen body) comp) (body ++ r)) as HC'. cbn [hd tl_compound tl_length tl_class tl_tag] in HC'. rewrite Bool.eqb_reflx in HC'. specialize (HC' eq_refl HSZ).
      unfold expected in HC'. rewrite Et in HC'. change {| tl_class := ClassUniversal; tl_tag := tag; tl_length := zlen body; tl_compound := comp |} with (hd ClassUniversal tag (zlen body) comp) in *.
      rewrite (adjust_universal ty p tag _ _ _ _ _ HP HU HG) in HC'. rewrite HC' by reflexivity. rewrite HT, HD. exists (hd ClassUniversal tag (zlen body) comp), tag. split; [reflexivity|].
      intros ->. unfold goodTag in HG. destruct HG as (_ & _ & [-> | ->]); auto.
  Qed.

  Lemma wrapTags_nonempty p tag comp body r : wrapTags p tag comp body ++ r <> [].
  Proof.
    assert (G : forall t b, (appendTagAndLength t ++ b) ++ r <> []). { intros t b C. apply app_eq_nil in C as [C _]. apply app_eq_nil in C as [C _]. exact (appendTagAndLength_nonempty _ C). }
    unfold wrapTags. destruct (fp_tag p); [destruct (fp_explicit p)|]; apply G.
  Qed.

  (* marshal.go:447-545 makeBody *)
  Definition makeBody (ty : gotype) (p : fparams) (v : goval) : option bytes :=
    match ty, v with
    | TyFlag, VBool _ => Some []
    | TyBits, VBits b n => Some (encodeBitString b n)
    | TyOid, VOid l => encodeOid l
    | TyBig, VInt z => Some (encodeBigInt z)
    | TyBool, VBool b => Some [if b then xff else x00]
    | (TyInt | TyInt32 | TyEnum), VInt z => Some (encodeInt64 z)
    | TyBytes, VBytes b => Some b
    | TyString, VString s => stringBody p s
    | TySlice _ elem, VSlice l => option_map (@concat byte) (mapM (makeField X elem noParams) l)
    | TyStruct false fs, VStruct _ l => makeFields X fs l
    | _, _ => None
    end.

  Lemma small_tag (b : bool) u : 0 <= u <= 30 -> 0 <= (if b then TagSet else u) <= max_int32.
  Proof. unfold TagSet, max_int32. destruct b; lia. Qed.

  Lemma fin (p : fparams) (u : Z) (comp : bool) (ob : option bytes) b :
    match (if fp_stringType p =? 0 then Some u else None) with
    | Some tag1 => if fp_set p && negb (tag1 =? TagSequence) then None
                   else match ob with Some body => Some (wrapTags p (if fp_set p then TagSet else tag1) comp body) | None => None end
    | None => None
    end = Some b -> exists body, ob = Some body /\ b = wrapTags p (if fp_set p then TagSet else u) comp body.
  Proof.
    destruct (fp_stringType p =? 0); [|discriminate]. destruct (fp_set p && negb (u =? TagSequence)); [discriminate|].
    destruct ob as [body|]; [|discriminate]. intros E. exists body. split; congruence.
  Qed.

  Lemma fin2 (p : fparams) (u : Z) (comp : bool) (body b : bytes) :
    match (if fp_stringType p =? 0 then Some u else None) with
    | Some tag1 => if fp_set p && negb (tag1 =? TagSequence) then None
                   else Some (wrapTags p (if fp_set p then TagSet else tag1) comp body)
    | None => None
    end = Some b -> exists body', Some body = Some body' /\ b = wrapTags p (if fp_set p then TagSet else u) comp body'.
  Proof. intros H. apply (fin p u comp (Some body) b H). Qed.

  Lemma makeField_plain ty p v b : plainType ty -> storable ty p v -> makeField X ty p v = Some b ->
    exists tag any u comp body, getUniversalType ty = Some (any, u, comp) /\ goodTag ty p tag /\ 0 <= tag <= max_int32 /\
      makeBody ty p v = Some body /\ b = wrapTags p tag comp body /\ (ty = TyString -> tag = TagUTF8String -> x_utf8 X body = true).
  Proof.
    intros HP HS HM.
    assert (Hm : fp_optional p = false /\ fp_omitEmpty p = false) by (destruct ty; cbn in HS; destruct HS as ((H1 & H2 & _) & _); auto).
    destruct Hm as [Ho Hoe].
    destruct ty; try (cbn in HP; contradiction);
      (destruct HS as (_ & HS); destruct v; cbn [storable] in HS; try contradiction; try (destruct rawContent; contradiction);
       unfold makeField in HM; fold (makeField X) in HM; fold (makeFields X) in HM;
       rewrite Ho, Hoe in HM; rewrite ?andb_false_r, ?andb_false_l in HM; cbn [getUniversalType negb andb orb] in HM).
    10: {
      unfold stringTag in HM. rewrite HS in HM. change (0 =? 0) with true in HM. cbv iota in HM. unfold stringBody in *.
      assert (Hb0 : makeBody TyString p (VString s) = Some s). { unfold makeBody, stringBody. rewrite HS. reflexivity. }
      rewrite HS in HM. change (0 =? TagIA5String) with false in HM. change (0 =? TagPrintableString) with false in HM. change (0 =? TagNumericString) with false in HM. cbv iota in HM.
      destruct (forallb (isPrintable false false) s) eqn:EP.
      - destruct (fp_set p) eqn:Eset; [discriminate|]. cbn [andb] in HM. exists TagPrintableString, false, TagPrintableString, false, s.
        split; [reflexivity|]. split; [split; [exact Eset|split; [exact HS|left; reflexivity]]|]. split; [unfold TagPrintableString, max_int32; lia|]. split; [exact Hb0|]. split; [congruence|].
        intros _ C. discriminate C.
      - destruct (x_utf8 X s) eqn:EU; [|discriminate]. destruct (fp_set p) eqn:Eset; [discriminate|]. cbn [andb] in HM. exists TagUTF8String, false, TagPrintableString, false, s.
        split; [reflexivity|]. split; [split; [exact Eset|split; [exact HS|right; reflexivity]]|]. split; [unfold TagUTF8String, max_int32; lia|]. split; [exact Hb0|]. split; [congruence|].
        intros _ _. exact EU. }
    all: try (destruct setName); try (destruct rawContent; [contradiction|]);
      first [apply fin in HM as (body & Hb & ->) | apply fin2 in HM as (body & Hb & ->)];
      do 5 eexists; (split; [reflexivity|]); (split; [reflexivity|]); (split; [apply small_tag; unfold TagOID, TagBitString, TagEnum, TagInteger, TagBoolean, TagSequence, TagOctetString, TagSet; lia|]);
      (split; [exact Hb|]); (split; [reflexivity|]); discriminate.
  Qed.

  Lemma wrapTags_len p tag comp body : zlen body <= zlen (wrapTags p tag comp body).
  Proof.
    assert (G : forall t b, zlen b <= zlen (appendTagAndLength t ++ b)) by (intros t b; rewrite zlen_app; pose proof (zlen_nonneg (appendTagAndLength t)); lia).
    unfold wrapTags. destruct (fp_tag p); [destruct (fp_explicit p)|]; try apply G. eapply Z.le_trans; [|apply G]. apply G.
  Qed.

  Definition parseElems (elem : gotype) := fix elems (n : nat) (s : bytes) : option (list goval) :=
    match n with
    | O => Some []
    | Datatypes.S m =>
        match parseField X elem noParams (zeroVal elem) s with
        | (v, Some r) => match elems m r with Some l => Some (v :: l) | None => None end
        | (_, None) => None
        end
    end.

  (* parseField after the header, for everything but RawValue and interface{} *)
  Definition parseContent (ty : gotype) (old : goval) (t : tagAndLength) (u : Z) (full inner rest : bytes) : goval * option bytes :=
    match ty with
    | TyAny => (old, None)
    | TyRaw => (VRaw (tl_class t) (tl_tag t) (tl_compound t) inner full, Some rest)
    | TyOid => match parseObjectIdentifier inner with
               | Some l => (VOid l, Some rest)
               | None => (VOid (match inner with [] => [] | _ => map (fun _ => 0) inner ++ [0] end), None)
               end
    | TyBits => leafValue old rest (fun q => VBits (fst q) (snd q)) (parseBitString inner)
    | TyTime => leafValue old rest VTime (if u =? TagUTCTime then x_utc X inner else x_generalized X inner)
    | TyEnum | TyInt32 => leafValue old rest VInt (parseInt32 inner)
    | TyInt => leafValue old rest VInt (parseInt64 inner)
    | TyFlag => (VBool true, Some rest)
    | TyBig => leafValue old rest VInt (parseBigInt inner)
    | TyBool => leafValue old rest VBool (parseBool inner)
    | TyBytes => (VBytes inner, Some rest)
    | TyString => leafValue old rest VString (parseString X u inner)
    | TySlice _ elem =>
        match countElements (List.length inner) elem inner with
        | None => (old, None)
        | Some n => leafValue old rest VSlice (parseElems elem n inner)
        end
    | TyStruct raw fs =>
        match parseFields X fs (fieldsOf old (zeroFields fs)) inner with
        | (l, ok) => (VStruct (if raw then full else []) l, if ok then Some rest else None)
        end
    end.
  Lemma parseField_match ty p old s t u inner rest : s <> [] -> ty <> TyAny -> parseHeader ty p s = HMatch t u inner rest ->
    parseField X ty p old s = parseContent ty old t u (takeZ (zlen s - zlen rest) s) inner rest.
  Proof.
    intros Hs Hty HH. destruct s as [|x xs]; [congruence|]. destruct ty; try congruence; cbn [parseField]; rewrite HH; reflexivity.
  Qed.

  Definition elem_ok (elem : gotype) : Prop := forall v b old r, storable elem noParams v -> makeField X elem noParams v = Some b -> zlen b < 2 ^ 31 ->
    parseField X elem noParams old (b ++ r) = (v, Some r).

  (* an encoded element starts with a header that countElements accepts *)
  Lemma elem_header elem v b : storable elem noParams v -> makeField X elem noParams v = Some b -> zlen b < 2 ^ 31 ->
    exists t body any u comp, getUniversalType elem = Some (any, u, comp) /\ b <> [] /\
      (forall r, parseTagAndLength (b ++ r) = Some (t, body ++ r)) /\ tl_length t = zlen body /\
      (any = true \/ (tl_class t = ClassUniversal /\ tl_compound t = comp /\
         (tl_tag t = u \/ (u = TagPrintableString /\ isStringTag (tl_tag t) = true)) /\ isStringTag u = false /\ u <> TagGeneralizedTime /\ u <> TagUTCTime)).
  Proof.
    intros HS HM HL. destruct (match elem with TyAny | TyRaw | TyTime => true | _ => false end) eqn:Ek.
    - destruct elem; try discriminate; cbn in HS; destruct HS as (_ & HS); destruct v as [|class tag compound content full| | | | | | | | | |]; try contradiction.
      destruct HS as (_ & _ & HE). cbn in HM.
      assert (Hfull : full <> []). { destruct HE as (id & len & -> & (_ & [(_ & ->)|(c & _ & _ & _ & ->)]) & _); discriminate. }
      assert (Hz : (zlen full =? 0) = false). { apply Z.eqb_neq. destruct full; [congruence|]. rewrite zlen_cons. pose proof (zlen_nonneg full). lia. }
      rewrite Hz in HM. cbn [negb] in HM. assert (b = full) as -> by congruence. exists (hd class tag (zlen content) compound), content. do 3 eexists. split; [reflexivity|]. split; [exact Hfull|].
      split; [|split; [reflexivity|left; reflexivity]]. intros r. apply element_parse. exact HE.
    - assert (HP : plainType elem) by (destruct elem; try discriminate; exact I).
      destruct (makeField_plain elem noParams v b HP HS HM) as (tag & any & u & comp & body & HU & HG & Ht & _ & -> & _).
      change (wrapTags noParams tag comp body) with (appendTagAndLength (hd ClassUniversal tag (zlen body) comp) ++ body) in *.
      pose proof HL as HL'. rewrite zlen_app in HL'. pose proof (zlen_nonneg (appendTagAndLength (hd ClassUniversal tag (zlen body) comp))) as H0. pose proof (zlen_nonneg body) as H1.
      exists (hd ClassUniversal tag (zlen body) comp), body, any, u, comp. split; [exact HU|]. split.
      { intros C. apply app_eq_nil in C as [C _]. exact (appendTagAndLength_nonempty _ C). }
      split; [intros r; rewrite <- app_assoc; apply parse_append_header; unfold valid_header, ClassUniversal; cbn; lia|]. split; [reflexivity|]. right. cbn [hd tl_class tl_tag tl_compound].
      split; [reflexivity|]. split; [reflexivity|].
      assert (HS2 : elem = TyString \/ (tag = u /\ isStringTag u = false /\ u <> TagGeneralizedTime /\ u <> TagUTCTime)).
      { unfold goodTag in HG. destruct elem; try (cbn in HP; contradiction); try (left; reflexivity); right; try (destruct setName); rewrite HU in HG; cbn [fp_set noParams] in HG;
          (split; [exact HG|]); clear HG HM HL HL' H0; cbn in HU; injection HU as _ HU _; rewrite <- HU; (split; [reflexivity|split; discriminate]). }
      destruct HS2 as [-> |(-> & H2 & H3 & H4)].
      + assert (u = TagPrintableString) as -> by (cbn in HU; congruence). destruct HG as (_ & _ & HT). split; [|split; [reflexivity|split; discriminate]].
        destruct HT as [-> | ->]; [left; reflexivity|right; split; reflexivity].
      + auto 10.
  Qed.

  Lemma count_elems elem : forall l bs fuel, Forall (storable elem noParams) l -> mapM (makeField X elem noParams) l = Some bs -> zlen (concat bs) < 2 ^ 31 ->
    (List.length (concat bs) <= fuel)%nat -> countElements fuel elem (concat bs) = Some (List.length l).
  Proof.
    induction l as [|v l IH]; intros bs fuel HF HM HL Hf.
    - assert (bs = []) as -> by (cbn in HM; congruence). destruct fuel; reflexivity.
    - inversion HF as [|? ? H1 H2]; subst. cbn [mapM] in HM. destruct (makeField X elem noParams v) as [b|] eqn:Eb; [|discriminate].
      destruct (mapM (makeField X elem noParams) l) as [bs'|] eqn:Em; [|discriminate]. assert (bs = b :: bs') as -> by congruence. cbn [concat] in *.
      rewrite zlen_app in HL. pose proof (zlen_nonneg b) as Z1. pose proof (zlen_nonneg (concat bs')) as Z2.
      destruct (elem_header elem v b H1 Eb ltac:(lia)) as (t & body & any & u & comp & HU & Hb & HP & Hlen & HX).
      rewrite app_length in Hf. destruct b as [|x xs]; [congruence|]. cbn [List.length app] in Hf. destruct fuel as [|fuel]; [lia|].
      change ((x :: xs) ++ concat bs') with (x :: xs ++ concat bs'). cbn [countElements]. rewrite HU. specialize (HP (concat bs')). cbn [app] in HP. rewrite HP. cbv zeta.
      assert (HC : negb any && (negb (tl_class t =? ClassUniversal) || negb (Bool.eqb (tl_compound t) comp) ||
         negb ((if isStringTag (tl_tag t) then TagPrintableString else if (tl_tag t =? TagGeneralizedTime) || (tl_tag t =? TagUTCTime) then TagUTCTime else tl_tag t) =? u)) = false).
      { destruct HX as [-> |(-> & -> & HT & Hs & Hg & Hu)]; [reflexivity|]. rewrite Bool.eqb_reflx, Z.eqb_refl. cbn [negb orb]. apply andb_false_iff. right. apply negb_false_iff. apply Z.eqb_eq.
        destruct HT as [HT|(HT & HT2)].
        - rewrite HT, Hs. destruct (Z.eqb_spec u TagGeneralizedTime); [contradiction|]. destruct (Z.eqb_spec u TagUTCTime); [contradiction|]. reflexivity.
        - rewrite HT2. congruence. }
      rewrite HC. rewrite Hlen. destruct (Z.ltb_spec (zlen (body ++ concat bs')) (zlen body)) as [C|C]; [rewrite zlen_app in C; lia|].
      rewrite dropZ_app by reflexivity. rewrite (IH bs' fuel H2 eq_refl); [reflexivity|lia|lia].
  Qed.

  Lemma parse_elems elem : elem_ok elem -> forall l bs r, Forall (storable elem noParams) l -> mapM (makeField X elem noParams) l = Some bs -> zlen (concat bs) < 2 ^ 31 ->
    parseElems elem (List.length l) (concat bs ++ r) = Some l.
  Proof.
    intros HE. induction l as [|v l IH]; intros bs r HF HM HL; [reflexivity|].
    inversion HF as [|? ? H1 H2]; subst. cbn [mapM] in HM. destruct (makeField X elem noParams v) as [b|] eqn:Eb; [|discriminate].
    destruct (mapM (makeField X elem noParams) l) as [bs'|] eqn:Em; [|discriminate]. assert (bs = b :: bs') as -> by congruence. cbn [concat] in *.
    rewrite zlen_app in HL. pose proof (zlen_nonneg b) as Z1. pose proof (zlen_nonneg (concat bs')) as Z2. cbn [List.length parseElems]. rewrite <- app_assoc.
    rewrite (HE v b _ _ H1 Eb) by lia. fold (parseElems elem). rewrite (IH bs' r H2 eq_refl) by lia. reflexivity.
  Qed.

  Lemma storable_slice n elem p l : storable (TySlice n elem) p (VSlice l) -> mandatory p /\ Forall (storable elem noParams) l.
  Proof. cbn [storable]. intros (H & HL). split; [exact H|]. induction l as [|x l IH]; constructor; [apply HL|apply IH; apply HL]. Qed.

  Lemma int31 z : - 2 ^ 31 <= z < 2 ^ 31 -> min_int32 <= z <= max_int32.
  Proof. change (2 ^ 31) with 2147483648. unfold min_int32, max_int32. lia. Qed.

  Lemma makeFields_cons p t fs v vs : makeFields X (FCons p t fs) (v :: vs) =
    match makeField X t p v, makeFields X fs vs with Some a, Some b => Some (a ++ b) | _, _ => None end.
  Proof. reflexivity. Qed.
  Lemma parseFields_cons p t fs olds s : parseFields X (FCons p t fs) olds s =
    match parseField X t p (match olds with o :: _ => o | [] => zeroVal t end) s with
    | (v, Some s1) => let '(l, ok) := parseFields X fs (tl olds) s1 in (v :: l, ok)
    | (v, None) => (v :: tl olds, false)
    end.
  Proof. reflexivity. Qed.

  Lemma value_round_trip :
    (forall ty p v b old r, storable ty p v -> makeField X ty p v = Some b -> zlen b < 2 ^ 31 -> parseField X ty p old (b ++ r) = (v, Some r)) /\
    (forall fs vs b olds r, storable_fields fs vs -> makeFields X fs vs = Some b -> zlen b < 2 ^ 31 -> parseFields X fs olds (b ++ r) = (vs, true)).
  Proof.
    assert (G : forall ty p v b old r, plainType ty -> storable ty p v -> makeField X ty p v = Some b -> zlen b < 2 ^ 31 ->
      (forall body t u full, makeBody ty p v = Some body -> zlen body < 2 ^ 31 ->
         (ty = TyString -> u = TagPrintableString \/ (u = TagUTF8String /\ x_utf8 X body = true)) -> parseContent ty old t u full body r = (v, Some r)) ->
      parseField X ty p old (b ++ r) = (v, Some r)).
    { intros ty p v b old r HP HS HM HL HB. destruct (makeField_plain ty p v b HP HS HM) as (tag & any & u & comp & body & HU & HG & Ht & Hb & -> & Hutf).
      assert (Hmand : mandatory p) by (destruct ty; cbn in HS; apply HS).
      destruct (parseHeader_wrap ty p tag comp body r any u HP Hmand HU HG Ht HL) as (t & u' & HH & Hstr).
      rewrite (parseField_match ty p old _ t u' body r (wrapTags_nonempty _ _ _ _ _) ltac:(destruct ty; cbn in HP; try contradiction; discriminate) HH).
      apply HB; [exact Hb|pose proof (wrapTags_len p tag comp body); lia|]. intros Hs. destruct (Hstr Hs) as [H|(H1 & H2)]; [left; exact H|right; split; [exact H1|apply Hutf; assumption]]. }
    apply gotype_tfields_ind.
    - intros p v b old r HS. cbn in HS. destruct HS as (_ & HS). destruct v; contradiction.
    - intros p v b old r HS HM HL. cbn in HS. destruct HS as ((Ho & Hoe & _) & HS). destruct v as [|class tag compound content full| | | | | | | | | |]; try contradiction. destruct HS as (Htag & Hex & HE).
      cbn in HM. rewrite Ho in HM. rewrite ?andb_false_r in HM. cbn [andb] in HM.
      assert (Hfull : full <> []). { destruct HE as (id & len & -> & (_ & [(_ & ->)|(c & _ & _ & _ & ->)]) & _); discriminate. }
      assert (Hz : (zlen full =? 0) = false). { apply Z.eqb_neq. destruct full; [congruence|]. rewrite zlen_cons. pose proof (zlen_nonneg full). lia. }
      rewrite Hz in HM. cbn [negb] in HM. assert (b = full) as -> by congruence.
      assert (HH : parseHeader TyRaw p (full ++ r) = HMatch (hd class tag (zlen content) compound) (adjustTag p (hd class tag (zlen content) compound) (-1)) content r).
      { unfold parseHeader. rewrite (element_parse _ _ _ _ _ r HE), Hex. unfold matchBody. cbn [getUniversalType hd tl_length tl_class tl_tag tl_compound].
        unfold expected. rewrite Htag. cbn [negb andb orb]. destruct (Z.ltb_spec (zlen (content ++ r)) (zlen content)) as [C|C]; [rewrite zlen_app in C; pose proof (zlen_nonneg r); lia|].
        rewrite takeZ_app, dropZ_app by reflexivity. reflexivity. }
      rewrite (parseField_match TyRaw p old (full ++ r) _ _ _ _ ltac:(intros C; apply app_eq_nil in C as [C _]; congruence) ltac:(discriminate) HH).
      cbn [parseContent hd tl_class tl_tag tl_compound]. rewrite zlen_app, Z.add_simpl_r, takeZ_app by reflexivity. reflexivity.
    - intros p v b old r HS HM HL. eapply G; [exact I|exact HS|exact HM|exact HL|]. intros body t u full Hb HLb _. destruct HS as (_ & HS). destruct v; try contradiction.
      cbn [makeBody parseContent] in *. rewrite (parse_encode_oid l body HS Hb). reflexivity.
    - intros p v b old r HS HM HL. eapply G; [exact I|exact HS|exact HM|exact HL|]. intros body t u full Hb HLb _. destruct HS as (_ & HS). destruct v; try contradiction.
      cbn [makeBody parseContent] in *. destruct HS as (pad & Hp & -> & H0 & H1).
      assert (HPB : parseBitString body = Some (b0, 8 * zlen b0 - pad)); [|rewrite HPB; reflexivity].
      apply parseBits_iff. exists pad. split; [|auto]. assert (body = encodeBitString b0 (8 * zlen b0 - pad)) as -> by congruence. unfold encodeBitString. f_equal. f_equal.
      replace (8 * zlen b0 - pad) with (- pad + zlen b0 * 8) by lia. rewrite Z.mod_add by lia.
      destruct (Z.eq_dec pad 0) as [->|N]; [reflexivity|]. replace ((- pad) mod 8) with (8 - pad) by (apply Z.mod_unique with (-1); lia).
      replace (8 - (8 - pad)) with pad by lia. apply Z.mod_small. lia.
    - intros p v b old r HS. cbn in HS. destruct HS as (_ & HS). destruct v; contradiction.
    - intros p v b old r HS HM HL. eapply G; [exact I|exact HS|exact HM|exact HL|]. intros body t u full Hb HLb _. destruct HS as (_ & HS). destruct v; try contradiction.
      cbn [makeBody parseContent] in *. assert (body = encodeInt64 z) as -> by congruence. rewrite (parse_encode_int32 z (int31 z HS)). reflexivity.
    - intros p v b old r HS HM HL. eapply G; [exact I|exact HS|exact HM|exact HL|]. intros body t u full Hb HLb _. destruct HS as (_ & HS). destruct v; try contradiction.
      cbn [parseContent]. rewrite HS. reflexivity.
    - intros p v b old r HS HM HL. eapply G; [exact I|exact HS|exact HM|exact HL|]. intros body t u full Hb HLb _. destruct HS as (_ & HS). destruct v; try contradiction.
      cbn [makeBody parseContent] in *. assert (body = encodeBigInt z) as -> by congruence. rewrite parse_encode_big. reflexivity.
    - intros p v b old r HS HM HL. eapply G; [exact I|exact HS|exact HM|exact HL|]. intros body t u full Hb HLb _. destruct HS as (_ & HS). destruct v; try contradiction.
      cbn [makeBody parseContent] in *. assert (body = [if b0 then xff else x00]) as -> by congruence. destruct b0; reflexivity.
    - intros p v b old r HS HM HL. eapply G; [exact I|exact HS|exact HM|exact HL|]. intros body t u full Hb HLb _. destruct HS as (_ & HS). destruct v; try contradiction.
      cbn [makeBody parseContent] in *. assert (body = encodeInt64 z) as -> by congruence. rewrite parse_encode_int64 by exact HS. reflexivity.
    - intros p v b old r HS HM HL. eapply G; [exact I|exact HS|exact HM|exact HL|]. intros body t u full Hb HLb _. destruct HS as (_ & HS). destruct v; try contradiction.
      cbn [makeBody parseContent] in *. assert (body = encodeInt64 z) as -> by congruence. rewrite (parse_encode_int32 z (int31 z HS)). reflexivity.
    - intros p v b old r HS HM HL. eapply G; [exact I|exact HS|exact HM|exact HL|]. intros body t u full Hb HLb _. destruct HS as (_ & HS). destruct v; try contradiction.
      cbn [makeBody parseContent] in *. congruence.
    - intros p v b old r HS HM HL. eapply G; [exact I|exact HS|exact HM|exact HL|]. intros body t u full Hb HLb Hu. destruct HS as (_ & HS). destruct v; try contradiction.
      cbn [makeBody parseContent] in *. assert (body = s) as -> by (unfold stringBody in Hb; rewrite HS in Hb; change (Some s = Some body) in Hb; congruence).
      destruct (Hu eq_refl) as [-> |(-> & HU)]; [reflexivity|]. unfold parseString. cbn [Z.eqb]. cbn. rewrite HU. reflexivity.
    - intros n elem IH p v b old r HS HM HL. eapply G; [exact I|exact HS|exact HM|exact HL|]. intros body t u full Hb HLb _. destruct v; try (destruct HS as (_ & HS); contradiction).
      apply storable_slice in HS as (_ & HF). cbn [makeBody parseContent] in *. destruct (mapM (makeField X elem noParams) l) as [bs|] eqn:Em; [|discriminate].
      assert (body = concat bs) as -> by (cbn in Hb; congruence). rewrite (count_elems elem l bs _ HF Em HLb) by lia.
      rewrite <- (app_nil_r (concat bs)). rewrite (parse_elems elem) with (l := l); [reflexivity| |exact HF|exact Em|exact HLb]. intros w c o q Hw Hc Hz. apply IH; assumption.
    - intros raw fs IH p v b old r HS HM HL. eapply G; [exact I|exact HS|exact HM|exact HL|]. intros body t u full Hb HLb _. destruct HS as (_ & HS). destruct raw; [destruct v; cbn in HS; contradiction|]. destruct v; try contradiction.
      destruct HS as (-> & HF). cbn [makeBody parseContent] in *. rewrite <- (app_nil_r body). rewrite (IH _ _ _ _ HF Hb HLb). reflexivity.
    - intros vs b olds r HS HM HL. destruct vs; [reflexivity|cbn in HS; contradiction].
    - intros p t IHt fs IHf vs b olds r HS HM HL. destruct vs as [|v vs]; [contradiction|]. destruct HS as (HS1 & HS2). rewrite makeFields_cons in HM.
      destruct (makeField X t p v) as [a|] eqn:Ea; [|discriminate]. destruct (makeFields X fs vs) as [c|] eqn:Ec; [|discriminate]. assert (b = a ++ c) as -> by congruence.
      rewrite zlen_app in HL. pose proof (zlen_nonneg a). pose proof (zlen_nonneg c). rewrite parseFields_cons, <- app_assoc. rewrite (IHt p v a _ _ HS1 Ea) by lia.
      rewrite (IHf vs c _ r HS2 Ec) by lia. reflexivity.
  Qed.
End V.
