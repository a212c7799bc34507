(** Marshal writes the Distinguished Encoding *)
From Coq Require Import Lia ZifyBool.
From Verif.Model Require Import Bytes Env Ber Asn1 GoUtf8.
From Verif.Spec Require Import Ber Asn1 Asn1Value Pkcs7 Text Asn1Der.
From Verif.Proofs Require Import BytesFacts BerFacts Asn1Codec Asn1Header Asn1Value DerFacts TextFacts.

Lemma zlen0 {A} (l : list A) : (zlen l =? 0) = true <-> l = [].
Proof. destruct l; [split; reflexivity|]. unfold zlen. cbn [length]. split; [lia|discriminate]. Qed.

Lemma go_slice n elem p l : go_value (TySlice n elem) p (VSlice l) -> tags_fit p /\ Forall (go_value elem noParams) l.
Proof. cbn [go_value]. intros (H & HL). split; [exact H|]. induction l as [|x l IH]; constructor; [apply HL|apply IH; apply HL]. Qed.

Lemma isZero_iff :
  (forall ty p v, go_value ty p v -> (isZero ty v = true <-> v = zeroVal ty)) /\
  (forall fs vs, go_fields fs vs -> (areZero fs vs = true <-> vs = zeroFields fs)).
Proof.
  apply gotype_tfields_ind.
  1-13: intros p v H; cbn [go_value] in H; destruct H as (_ & H); destruct v; try contradiction; cbn [isZero zeroVal];
    rewrite ?andb_true_iff, ?zlen0, ?negb_true_iff, ?Z.eqb_eq; try (split; congruence).
  - split; [intros ((((-> & ->) & ->) & ->) & ->); reflexivity|intros E; injection E; auto].
  - split; [intros (-> & ->); reflexivity|intros E; injection E; auto].
  - intros n elem IH p v H. cbn [go_value] in H. destruct H as (_ & H). destruct v; try contradiction; cbn; split; congruence.
  - intros keeps fs IH p v H. cbn [go_value] in H. destruct H as (_ & H). destruct v as [| | | | | | | | | |raw vs|]; try contradiction. destruct H as (_ & H).
    cbn [isZero zeroVal]. rewrite andb_true_iff, zlen0, (IH vs H). split; [intros (-> & ->); reflexivity|intros E; injection E; auto].
  - intros vs H. destruct vs; [|contradiction]. split; reflexivity.
  - intros p ty IH fs IHf vs H. destruct vs as [|v vs]; [contradiction|]. destruct H as (H & Hf). cbn [zeroFields areZero].
    rewrite andb_true_iff, (IH p v H), (IHf vs Hf). split; [intros (-> & ->); reflexivity|intros E; injection E; auto].
Qed.

(* the condition in the model *)
Definition leftOut (ty : gotype) (p : fparams) (v : goval) : bool :=
  ((match v with VSlice [] | VBytes [] | VNil | VOid [] => true | _ => false end) && fp_omitEmpty p &&
       (match ty with TyBytes | TySlice _ _ | TyOid => true | _ => false end)) ||
  (fp_optional p && (match fp_default p, ty, v with
                              | Some d, (TyInt | TyInt32 | TyEnum), VInt z => z =? d
                              | None, _, _ => isZero ty v
                              | _, _, _ => false
                              end)).
Lemma leftOut_iff ty p v : go_value ty p v -> (leftOut ty p v = true <-> left_out ty p v).
Proof.
  intros H. pose proof (proj1 isZero_iff ty p v H) as HZ. unfold leftOut, left_out. rewrite orb_true_iff, !andb_true_iff.
  assert (E : (match v with VSlice [] | VBytes [] | VNil | VOid [] => true | _ => false end) = true <-> v = VNil \/ v = VBytes [] \/ v = VOid [] \/ v = VSlice []).
  { destruct v as [|c t k b f|l|b n|t|z|b|b|s|l|raw l|w]; try (split; [discriminate|intros [C|[C|[C|C]]]; discriminate]).
    - split; auto.
    - destruct l; split; try discriminate; auto. intros [C|[C|[C|C]]]; discriminate.
    - destruct b; split; try discriminate; auto. intros [C|[C|[C|C]]]; discriminate.
    - destruct l; split; try discriminate; auto. intros [C|[C|[C|C]]]; discriminate. }
  assert (E2 : (match ty with TyBytes | TySlice _ _ | TyOid => true | _ => false end) = true <-> (match ty with TyBytes | TyOid | TySlice _ _ => True | _ => False end)).
  { destruct ty; split; try discriminate; try contradiction; auto. }
  assert (E3 : match fp_default p, ty, v with | Some d, (TyInt | TyInt32 | TyEnum), VInt z => z =? d | None, _, _ => isZero ty v | _, _, _ => false end = true <->
     (exists d, fp_default p = Some d /\ (ty = TyInt \/ ty = TyInt32 \/ ty = TyEnum) /\ v = VInt d) \/ (fp_default p = None /\ v = zeroVal ty)).
  { destruct (fp_default p) as [d|].
    - split.
      + intros HD. left. exists d. split; [reflexivity|]. destruct ty; try discriminate; destruct v; try discriminate; apply Z.eqb_eq in HD; subst; auto.
      + intros [(d' & E' & Ht & ->)|(C & _)]; [|discriminate]. injection E' as ->. destruct Ht as [-> |[-> | ->]]; apply Z.eqb_refl.
    - rewrite HZ. split; [auto|]. intros [(d' & C & _)|(_ & C)]; [discriminate|exact C]. }
  rewrite E, E2, E3. tauto.
Qed.

Lemma tail_le (h i : bytes) : zlen i <= zlen (h ++ i).
Proof. rewrite zlen_app. pose proof (zlen_nonneg h). lia. Qed.
Lemma wrapTags_tagged p tag k body : tags_fit p -> 0 <= tag <= max_int32 -> zlen (wrapTags p tag k body) < 2 ^ 31 -> tagged p tag k body (wrapTags p tag k body).
Proof.
  intros (_ & _ & HT) Ht HL. pose proof (wrapTags_len p tag k body) as HB. unfold wrapTags, tagged in *. destruct (fp_tag p) as [n|].
  - pose proof (HT n eq_refl) as Hn. assert (Hc : 0 <= tag_class p < 4) by (unfold tag_class; destruct (fp_application p), (fp_private p); lia).
    change (if fp_application p then ClassApplication else if fp_private p then ClassPrivate else ClassContextSpecific) with (tag_class p) in *.
    destruct (fp_explicit p).
    + eexists. split; [apply append_der_element; [lia|exact Ht|lia]|]. apply append_der_element; [exact Hc|exact Hn|]. eapply Z.le_lt_trans; [|exact HL]. apply tail_le.
    + apply append_der_element; [exact Hc|exact Hn|lia].
  - apply (append_der_element 0); [lia|exact Ht|eapply Z.le_lt_trans; [exact HB|exact HL]].
Qed.
Lemma tagged_unique p tag k body x y : tagged p tag k body x -> tagged p tag k body y -> x = y.
Proof.
  unfold tagged. destruct (fp_tag p); [|apply der_element_unique]. destruct (fp_explicit p); [|apply der_element_unique].
  intros (i & Hi & Hx) (j & Hj & Hy). rewrite (der_element_unique _ _ _ _ _ _ Hj Hi) in Hy. eapply der_element_unique; eassumption.
Qed.
Lemma tagged_size p tag k body x : tagged p tag k body x -> zlen body < zlen x.
Proof.
  unfold tagged. destruct (fp_tag p); [|intros H; apply der_element_size in H; lia]. destruct (fp_explicit p); [|intros H; apply der_element_size in H; lia].
  intros (i & Hi & Hx). apply der_element_size in Hi. apply der_element_size in Hx. lia.
Qed.
Lemma tagged_wrap p tag k body x : tags_fit p -> 0 <= tag <= max_int32 -> zlen x < 2 ^ 31 -> tagged p tag k body x -> x = wrapTags p tag k body.
Proof.
  intros (_ & _ & HT) Ht HL H. pose proof (tagged_size _ _ _ _ _ H) as HB. unfold wrapTags, tagged in *. destruct (fp_tag p) as [n|].
  - pose proof (HT n eq_refl) as Hn.
    change (if fp_application p then ClassApplication else if fp_private p then ClassPrivate else ClassContextSpecific) with (tag_class p) in *.
    destruct (fp_explicit p).
    + destruct H as (i & Hi & Hx). pose proof (der_element_size _ _ _ _ _ Hx). apply der_element_append in Hi; [|exact Ht|lia].
      apply der_element_append in Hx; [|exact Hn|lia]. subst i. exact Hx.
    + apply der_element_append in H; [exact H|exact Hn|lia].
  - apply der_element_append in H; [exact H|exact Ht|lia].
Qed.

(* the tags and the body of a value that is not a string or a raw value *)
Definition finish (p : fparams) (u : Z) (comp : bool) (ob : option bytes) : option bytes :=
  match (if fp_stringType p =? 0 then Some u else None) with
  | Some tag1 => if fp_set p && negb (tag1 =? TagSequence) then None
                 else match ob with Some body => Some (wrapTags p (if fp_set p then TagSet else tag1) comp body) | None => None end
  | None => None
  end.
Lemma finish_iff p u comp ob b : tags_fit p -> 0 <= u <= 30 -> zlen b < 2 ^ 31 ->
  (finish p u comp ob = Some b <-> fp_stringType p = 0 /\ (fp_set p = true -> u = 16) /\ exists body, ob = Some body /\ tagged p (if fp_set p then 17 else u) comp body b).
Proof.
  intros HF Hu HL. unfold finish. change TagSequence with 16. change TagSet with 17.
  assert (Hu2 : 0 <= (if fp_set p then 17 else u) <= max_int32) by (unfold max_int32; destruct (fp_set p); lia). split.
  - destruct (Z.eqb_spec (fp_stringType p) 0) as [E0|]; [|discriminate]. destruct (fp_set p && negb (u =? 16)) eqn:Es; [discriminate|].
    destruct ob as [body|]; [|discriminate]. intros E. assert (b = wrapTags p (if fp_set p then 17 else u) comp body) as -> by congruence.
    split; [exact E0|]. split; [intros E1; rewrite E1 in Es; lia|]. exists body. split; [reflexivity|]. apply wrapTags_tagged; assumption.
  - intros (-> & Hs & body & -> & HT). change (0 =? 0) with true. cbv iota. apply tagged_wrap in HT; try assumption. subst b.
    destruct (fp_set p); [rewrite (Hs eq_refl); reflexivity|reflexivity].
Qed.
Lemma finish_plain p u comp ob b : tags_fit p -> 0 <= u <= 30 -> u <> 16 -> zlen b < 2 ^ 31 ->
  (finish p u comp ob = Some b <-> plain p /\ exists body, ob = Some body /\ tagged p u comp body b).
Proof.
  intros HF Hu Hn HL. rewrite finish_iff by assumption. unfold plain. split.
  - intros (H0 & Hs & body & Hb & HT). destruct (fp_set p); [exfalso; auto|]. eauto.
  - intros ((H0 & Hs) & body & Hb & HT). rewrite Hs. split; [exact H0|]. split; [discriminate|]. eauto.
Qed.

Lemma unused_iff n u : 0 <= n -> 0 <= u < 8 -> (u = (8 - n mod 8) mod 8 <-> (n + u) mod 8 = 0).
Proof.
  intros Hn Hu. rewrite Zplus_mod. pose proof (Z.mod_pos_bound n 8 ltac:(lia)) as H. rewrite (Z.mod_small u 8 Hu). set (r := n mod 8) in *. clearbody r.
  assert (C : r = 0 \/ 0 < r) by lia. destruct C as [-> |C].
  - change ((8 - 0) mod 8) with 0. rewrite Z.add_0_l, (Z.mod_small u 8 Hu). lia.
  - rewrite (Z.mod_small (8 - r) 8) by lia. split; [intros ->; replace (r + (8 - r)) with 8 by lia; reflexivity|]. intros HM.
    assert (r + u = 8 * ((r + u) / 8)) by (pose proof (Z.div_mod (r + u) 8 ltac:(lia)); lia). lia.
Qed.

Lemma encodeOid_iff o b : Forall (fun n => 0 <= n <= max_int32) o -> (forall a c r, o = a :: c :: r -> a * 40 + c <= max_int32) ->
  (encodeOid o = Some b <-> oid_der o b).
Proof.
  intros HF HM. assert (V : (exists a c r, o = a :: c :: r /\ 0 <= a <= 2 /\ 0 <= c /\ (a < 2 -> c < 40)) -> valid_oid o).
  { intros (a & c & r & -> & Ha & Hc & Hac). exists a, c, r. inversion HF as [|? ? _ HF1]; subst. inversion HF1 as [|? ? _ HF2]; subst. repeat split; auto; try lia. exact (HM a c r eq_refl). }
  split.
  - intros HE. assert (HV : valid_oid o).
    { apply V. destruct o as [|a [|c r]]; [discriminate|discriminate|]. exists a, c, r. cbn [encodeOid] in HE. inversion HF as [|? ? H1 HF1]; subst. inversion HF1 as [|? ? H2 HF2]; subst.
      destruct ((2 <? a) || ((a <? 2) && (40 <=? c))) eqn:EB; [discriminate|]. split; [reflexivity|]. lia. }
    destruct (encodeOid_der o HV) as (b' & HE' & HD). congruence.
  - intros HD. apply oid_der_encode; [|exact HD]. apply V. destruct HD as (a & c & r & -> & Ha & Hc & Hac & _). exists a, c, r. auto.
Qed.

Lemma printable_iff c : isPrintable false false c = true <-> printable_char c.
Proof. unfold isPrintable, printable_char. cbn [In]. cbn [andb]. lia. Qed.
Lemma printable_iff2 c : isPrintable true false c = true <-> printable_char c \/ b2z c = 42.
Proof. unfold isPrintable, printable_char. cbn [In]. cbn [andb]. lia. Qed.
Lemma forallb_iff {A} (f : A -> bool) (P : A -> Prop) l : (forall x, f x = true <-> P x) -> (forallb f l = true <-> Forall P l).
Proof. intros H. rewrite forallb_forall, Forall_forall. split; intros G x Hx; apply H; auto. Qed.

(* strings *)
Lemma string_iff p s : tags_fit p -> forall tag, (stringTag goText p s = Some tag /\ stringBody p s = Some s) <-> string_kind p s tag.
Proof.
  intros _ tag. unfold stringTag, stringBody, string_kind. change TagIA5String with 22. change TagPrintableString with 19. change TagNumericString with 18. change TagUTF8String with 12.
  pose proof (forallb_iff _ _ s printable_iff) as H1. pose proof (forallb_iff _ _ s printable_iff2) as H2.
  assert (H3 : forallb (fun c => b2z c <? 128) s = true <-> Forall (fun c => b2z c < 128) s) by (apply forallb_iff; intros; lia).
  assert (H4 : forallb isNumeric s = true <-> Forall (fun c => 48 <= b2z c <= 57 \/ b2z c = 32) s) by (apply forallb_iff; intros; unfold isNumeric; lia).
  change (x_utf8 goText s) with (utf8Valid s). pose proof (utf8Valid_iff s) as H5.
  destruct (Z.eqb_spec (fp_stringType p) 0) as [-> |N].
  - change (0 =? 22) with false. change (0 =? 19) with false. change (0 =? 18) with false. cbv iota. rewrite <- H1.
    destruct (forallb (isPrintable false false) s).
    + split; [intros (E & _); left; split; [reflexivity|split; [congruence|reflexivity]]|]. intros [(_ & -> & _)|[(_ & _ & C & _)|(C & _)]]; [auto|exfalso; apply C; reflexivity|exfalso; apply C; reflexivity].
    + rewrite <- H5. destruct (utf8Valid s).
      * split; [intros (E & _); right; left; split; [reflexivity|split; [congruence|split; [discriminate|reflexivity]]]|]. intros [(_ & _ & C)|[(_ & -> & _)|(C & _)]]; [discriminate C|auto|exfalso; apply C; reflexivity].
      * split; [intros (C & _); discriminate C|]. intros [(_ & _ & C)|[(_ & _ & _ & C)|(C & _)]]; [discriminate C|discriminate C|exfalso; apply C; reflexivity].
  - rewrite <- H1, <- H2, <- H3, <- H4. split.
    + intros (E & HB). right. right. split; [exact N|]. split; [congruence|]. assert (tag = fp_stringType p) as -> by congruence. clear E.
      split; [|split]; intros E; rewrite E in HB; cbn in HB.
      * match type of HB with (if ?c then _ else _) = _ => destruct c; [reflexivity|discriminate] end.
      * match type of HB with (if ?c then _ else _) = _ => destruct c; [reflexivity|discriminate] end.
      * match type of HB with (if ?c then _ else _) = _ => destruct c; [reflexivity|discriminate] end.
    + intros [(C & _)|[(C & _)|(_ & -> & I1 & I2 & I3)]]; [contradiction|contradiction|]. split; [reflexivity|].
      destruct (Z.eqb_spec (fp_stringType p) 22) as [E|]; [rewrite (I1 E); reflexivity|]. destruct (Z.eqb_spec (fp_stringType p) 19) as [E|]; [rewrite (I2 E); reflexivity|].
      destruct (Z.eqb_spec (fp_stringType p) 18) as [E|]; [rewrite (I3 E); reflexivity|]. reflexivity.
Qed.
Lemma stringBody_same p s b : stringBody p s = Some b -> b = s.
Proof.
  unfold stringBody. repeat match goal with |- context [if ?c then _ else _] => destruct c end; congruence.
Qed.

Lemma kept_iff b raw body : kept (b :: raw) body <-> body = match parseTagAndLength (b :: raw) with Some (_, rest) => rest | None => b :: raw end.
Proof.
  set (r := b :: raw). clearbody r.
  assert (H : forall x, after_header r x <-> exists t, parseTagAndLength r = Some (t, x)).
  { intros x. split.
    - intros (c & t & k & n & id & len & -> & HI & HD). exists {| tl_class := c; tl_tag := t; tl_length := n; tl_compound := k |}. apply parseTagAndLength_iff. exists id, len. auto.
    - intros (t & HP). apply parseTagAndLength_iff in HP as (id & len & -> & HI & HD). do 6 eexists. split; [reflexivity|]. split; eassumption. }
  unfold kept. setoid_rewrite H. destruct (parseTagAndLength r) as [[t rest]|]; split.
  - intros [(t' & E)|(C & _)]; [congruence|]. exfalso. apply C. eauto.
  - intros ->. left. eauto.
  - intros [(t' & E)|(_ & E)]; [discriminate|exact E].
  - intros ->. right. split; [|reflexivity]. intros (x & t' & C). discriminate.
Qed.

Lemma if_or {A} (a b : bool) (x y : A) : (if a then x else if b then x else y) = if a || b then x else y.
Proof. destruct a; reflexivity. Qed.
Lemma wrap_iff ty p v b M (R : Prop) : go_value ty p v -> makeField goText ty p v = (if leftOut ty p v then Some [] else M) -> (M = Some b <-> R) ->
  (makeField goText ty p v = Some b <-> (left_out ty p v /\ b = []) \/ (~ left_out ty p v /\ R)).
Proof.
  intros HG -> HM. rewrite <- (leftOut_iff ty p v HG). destruct (leftOut ty p v).
  - split; [intros E; left; split; [reflexivity|congruence]|]. intros [(_ & ->)|(C & _)]; [reflexivity|contradiction].
  - rewrite HM. split; [intros H; right; split; [discriminate|exact H]|]. intros [(C & _)|(_ & H)]; [discriminate|exact H].
Qed.

Lemma each_Forall2 (R : goval -> bytes -> Prop) l parts :
  (fix each (l : list goval) (parts : list bytes) : Prop := match l, parts with [], [] => True | x :: t, f :: r => R x f /\ each t r | _, _ => False end) l parts <-> Forall2 R l parts.
Proof.
  revert parts. induction l as [|x l IH]; intros [|f parts]; split; intros H; try contradiction; try constructor; try (inversion H; fail); try tauto.
  - apply IH. tauto.
  - inversion H; assumption.
  - apply IH. inversion H; assumption.
Qed.

Lemma mapM_iff (f : goval -> option bytes) (R : goval -> bytes -> Prop) l : forall parts, Forall2 (fun x c => f x = Some c <-> R x c) l parts -> (mapM f l = Some parts <-> Forall2 R l parts).
Proof.
  induction l as [|x l IH]; intros parts H; inversion H as [|? c ? cs Hc Hcs]; subst; cbn [mapM].
  - split; [constructor|reflexivity].
  - specialize (IH cs Hcs). split.
    + destruct (f x) as [y|]; [|discriminate]. change ((fix go (l0 : list goval) : option (list bytes) := match l0 with [] => Some [] | x0 :: t => match f x0 with Some y0 => match go t with Some r => Some (y0 :: r) | None => None end | None => None end end) l) with (mapM f l).
      destruct (mapM f l) as [r|]; [|discriminate]. intros E. assert (y = c /\ r = cs) as [-> ->] by (split; congruence). constructor; [apply Hc; reflexivity|apply IH; reflexivity].
    + intros HF. inversion HF as [|? ? ? ? H1 H2]; subst. apply Hc in H1. apply IH in H2. rewrite H1.
      change ((fix go (l0 : list goval) : option (list bytes) := match l0 with [] => Some [] | x0 :: t => match f x0 with Some y0 => match go t with Some r => Some (y0 :: r) | None => None end | None => None end end) l) with (mapM f l).
      rewrite H2. reflexivity.
Qed.
Lemma mapM_length (f : goval -> option bytes) l : forall parts, mapM f l = Some parts -> length l = length parts.
Proof.
  induction l as [|x l IH]; intros parts; cbn [mapM]; [intros E; assert (parts = []) as -> by congruence; reflexivity|].
  change ((fix go (l0 : list goval) : option (list bytes) := match l0 with [] => Some [] | x0 :: t => match f x0 with Some y0 => match go t with Some r => Some (y0 :: r) | None => None end | None => None end end) l) with (mapM f l).
  destruct (f x) as [y|]; [|discriminate]. destruct (mapM f l) as [r|]; [|discriminate]. intros E. assert (parts = y :: r) as -> by congruence. cbn [length]. f_equal. apply IH. reflexivity.
Qed.
Lemma part_le (parts : list bytes) : forall c, In c parts -> zlen c <= zlen (concat parts).
Proof.
  induction parts as [|a parts IH]; intros c []; cbn [concat]; rewrite zlen_app; pose proof (zlen_nonneg a); pose proof (zlen_nonneg (concat parts)); [subst; lia|]. specialize (IH c H). lia.
Qed.
Lemma same_length_F2 {A B} (P : A -> B -> Prop) (l : list A) : forall m : list B, length l = length m -> (forall x y, In x l -> In y m -> P x y) -> Forall2 P l m.
Proof.
  induction l as [|x l IH]; intros [|y m] HL H; try discriminate; constructor; [apply H; left; reflexivity|]. apply IH; [cbn in HL; congruence|]. intros; apply H; right; assumption.
Qed.
Lemma F2_len {A B} (P : A -> B -> Prop) l m : Forall2 P l m -> length l = length m.
Proof. induction 1; cbn; congruence. Qed.

Lemma some_exists p u c body b : (plain p /\ exists x, Some body = Some x /\ tagged p u c x b) <-> (plain p /\ tagged p u c body b).
Proof. split; [intros (H & x & E & HT); split; [exact H|congruence]|intros (H & HT); eauto]. Qed.
Lemma int_exists p u c (enc b : bytes) (R : bytes -> Prop) : (forall o, R o <-> o = enc) ->
  (plain p /\ exists x, Some enc = Some x /\ tagged p u c x b) <-> (plain p /\ exists x, R x /\ tagged p u c x b).
Proof.
  intros H. split; intros (HP & x & E & HT); (split; [exact HP|]); exists x; (split; [|exact HT]).
  - apply H. congruence.
  - apply H in E. congruence.
Qed.
Lemma integer_unique a b z : integer_octets a z -> integer_octets b z -> a = b.
Proof. intros Ha Hb. apply parseBigInt_iff in Ha, Hb. apply encode_parse_big in Ha, Hb. congruence. Qed.
Lemma int64_iff z o : - 2 ^ 63 <= z < 2 ^ 63 -> (integer_octets o z <-> o = encodeInt64 z).
Proof. intros H. pose proof (encodeInt64_octets z H) as (HO & _). split; [intros HI; eapply integer_unique; eassumption|intros ->; exact HO]. Qed.
Lemma big_iff z o : integer_octets o z <-> o = encodeBigInt z.
Proof. pose proof (encodeBigInt_octets z) as HO. split; [intros HI; eapply integer_unique; eassumption|intros ->; exact HO]. Qed.

Lemma finish_slice p (n : bool) ob b : tags_fit p -> zlen b < 2 ^ 31 ->
  (finish p (if n then 17 else 16) true ob = Some b <-> fp_stringType p = 0 /\ n && fp_set p = false /\ exists body, ob = Some body /\ tagged p (if n || fp_set p then 17 else 16) true body b).
Proof.
  intros HT HL. rewrite finish_iff by (try assumption; destruct n; lia).
  assert (E : (fp_set p = true -> (if n then 17 else 16) = 16) <-> n && fp_set p = false) by (destruct n, (fp_set p); cbn [andb]; split; try lia; intros H; try reflexivity; specialize (H eq_refl); lia).
  rewrite E. destruct n, (fp_set p); reflexivity.
Qed.

Theorem makeField_der :
  (forall ty p v b, go_value ty p v -> zlen b < 2 ^ 31 -> (makeField goText ty p v = Some b <-> der_of ty p v b)) /\
  (forall fs vs b, go_fields fs vs -> zlen b < 2 ^ 31 -> (makeFields goText fs vs = Some b <-> der_fields fs vs b)).
Proof.
  apply gotype_tfields_ind.
  - intros p v b (_ & HG). destruct v; contradiction.
  - intros p v b HG HL. pose proof HG as HG'. destruct HG' as (HT & HV). destruct v; try contradiction. eapply wrap_iff; [exact HG|unfold makeField; fold (makeField goText); fold (makeFields goText); unfold leftOut; apply if_or|].
    cbv beta. destruct full as [|f full].
    + cbn [zlen]. change (zlen (@nil byte) =? 0) with true. cbn [negb]. cbv iota. destruct (HV eq_refl) as (Hc & Ht). split.
      * intros E. right. split; [reflexivity|]. assert (b = appendTagAndLength (hd class tag (zlen bytes) compound) ++ bytes) as -> by (unfold hd; congruence).
        apply append_der_element; try assumption. eapply Z.le_lt_trans; [apply tail_le|exact HL].
      * intros [(C & _)|(_ & HD)]; [congruence|]. f_equal. symmetry. apply (der_element_append class tag compound bytes b HD Ht). apply der_element_size in HD. lia.
    + assert ((zlen (f :: full) =? 0) = false) as -> by (unfold zlen; cbn [length]; lia). cbn [negb]. cbv iota. split; [intros E; left; split; congruence|]. intros [(_ & ->)|(C & _)]; [reflexivity|discriminate C].
  - intros p v b HG HL. pose proof HG as HG'. destruct HG' as (HT & HV). destruct v; try contradiction; (eapply wrap_iff; [exact HG|unfold makeField; fold (makeField goText); fold (makeFields goText); unfold leftOut; apply if_or|]); cbv beta.
    + change (finish p 6 false None = Some b <-> False). rewrite finish_plain by (try assumption; lia). split; [|contradiction]. intros (_ & body & C & _). discriminate.
    + change (finish p 6 false (encodeOid l) = Some b <-> (plain p /\ exists octets, oid_der l octets /\ tagged p 6 false octets b)). rewrite finish_plain by (try assumption; lia).
      destruct HV as (H1 & H2). pose proof (fun c => encodeOid_iff l c H1 H2) as HO. setoid_rewrite HO. reflexivity.
  - intros p v b HG HL. pose proof HG as HG'. destruct HG' as (HT & HV). destruct v; try contradiction; (eapply wrap_iff; [exact HG|unfold makeField; fold (makeField goText); fold (makeFields goText); unfold leftOut; apply if_or|]); cbv beta.
    change (finish p 3 false (Some (encodeBitString b0 bitlen)) = Some b <-> (plain p /\ exists unused, 0 <= unused < 8 /\ (bitlen + unused) mod 8 = 0 /\ tagged p 3 false (z2b unused :: b0) b)). rewrite finish_plain by (try assumption; lia).
    cbn in HV. unfold encodeBitString. pose proof (Z.mod_pos_bound (8 - bitlen mod 8) 8 ltac:(lia)) as HB. split.
    + intros (HP & body & E & H). split; [exact HP|]. exists ((8 - bitlen mod 8) mod 8). split; [exact HB|]. split; [apply unused_iff; auto|]. congruence.
    + intros (HP & u & Hu & Hm & H). split; [exact HP|]. apply unused_iff in Hm; [|assumption|assumption]. subst u. eauto.
  - intros p v b (_ & HG). destruct v; contradiction.
  - intros p v b HG HL. pose proof HG as HG'. destruct HG' as (HT & HV). destruct v; try contradiction; (eapply wrap_iff; [exact HG|unfold makeField; fold (makeField goText); fold (makeFields goText); unfold leftOut; apply if_or|]); cbv beta.
    change (finish p 10 false (Some (encodeInt64 z)) = Some b <-> (plain p /\ exists octets, integer_octets octets z /\ tagged p 10 false octets b)). rewrite finish_plain by (try assumption; lia).
    apply int_exists. intros o. apply int64_iff. exact HV.
  - intros p v b HG HL. pose proof HG as HG'. destruct HG' as (HT & HV). destruct v; try contradiction; (eapply wrap_iff; [exact HG|unfold makeField; fold (makeField goText); fold (makeFields goText); unfold leftOut; apply if_or|]); cbv beta.
    change (finish p 1 false (Some []) = Some b <-> (plain p /\ tagged p 1 false [] b)). rewrite finish_plain by (try assumption; lia). apply some_exists.
  - intros p v b HG HL. pose proof HG as HG'. destruct HG' as (HT & HV). destruct v; try contradiction; (eapply wrap_iff; [exact HG|unfold makeField; fold (makeField goText); fold (makeFields goText); unfold leftOut; apply if_or|]); cbv beta.
    + change (finish p 2 false None = Some b <-> False). rewrite finish_plain by (try assumption; lia). split; [|contradiction]. intros (_ & body & C & _). discriminate.
    + change (finish p 2 false (Some (encodeBigInt z)) = Some b <-> (plain p /\ exists octets, integer_octets octets z /\ tagged p 2 false octets b)). rewrite finish_plain by (try assumption; lia).
      apply int_exists. intros o. apply big_iff.
  - intros p v b HG HL. pose proof HG as HG'. destruct HG' as (HT & HV). destruct v; try contradiction; (eapply wrap_iff; [exact HG|unfold makeField; fold (makeField goText); fold (makeFields goText); unfold leftOut; apply if_or|]); cbv beta.
    change (finish p 1 false (Some [if b0 then xff else x00]) = Some b <-> (plain p /\ tagged p 1 false [if b0 then xff else x00] b)). rewrite finish_plain by (try assumption; lia). apply some_exists.
  - intros p v b HG HL. pose proof HG as HG'. destruct HG' as (HT & HV). destruct v; try contradiction; (eapply wrap_iff; [exact HG|unfold makeField; fold (makeField goText); fold (makeFields goText); unfold leftOut; apply if_or|]); cbv beta.
    change (finish p 2 false (Some (encodeInt64 z)) = Some b <-> (plain p /\ exists octets, integer_octets octets z /\ tagged p 2 false octets b)). rewrite finish_plain by (try assumption; lia).
    apply int_exists. intros o. apply int64_iff. exact HV.
  - intros p v b HG HL. pose proof HG as HG'. destruct HG' as (HT & HV). destruct v; try contradiction; (eapply wrap_iff; [exact HG|unfold makeField; fold (makeField goText); fold (makeFields goText); unfold leftOut; apply if_or|]); cbv beta.
    change (finish p 2 false (Some (encodeInt64 z)) = Some b <-> (plain p /\ exists octets, integer_octets octets z /\ tagged p 2 false octets b)). rewrite finish_plain by (try assumption; lia).
    apply int_exists. intros o. apply int64_iff. change (2 ^ 31) with 2147483648 in HV. change (2 ^ 63) with 9223372036854775808. lia.
  - intros p v b HG HL. pose proof HG as HG'. destruct HG' as (HT & HV). destruct v; try contradiction; (eapply wrap_iff; [exact HG|unfold makeField; fold (makeField goText); fold (makeFields goText); unfold leftOut; apply if_or|]); cbv beta.
    + change (finish p 4 false (Some []) = Some b <-> (plain p /\ tagged p 4 false [] b)). rewrite finish_plain by (try assumption; lia). apply some_exists.
    + change (finish p 4 false (Some b0) = Some b <-> (plain p /\ tagged p 4 false b0 b)). rewrite finish_plain by (try assumption; lia). apply some_exists.
  - intros p v b HG HL. pose proof HG as HG'. destruct HG' as (HT & HV). destruct v; try contradiction; (eapply wrap_iff; [exact HG|unfold makeField; fold (makeField goText); fold (makeFields goText); unfold leftOut; apply if_or|]); cbv beta.
    change (match stringTag goText p s with None => None | Some tag1 => if fp_set p && negb (tag1 =? TagSequence) then None else match stringBody p s with None => None | Some body => Some (wrapTags p (if fp_set p then TagSet else tag1) false body) end end = Some b <->
      (fp_set p = false /\ exists tag, string_kind p s tag /\ tagged p tag false s b)).
    assert (HR : forall tag, string_kind p s tag -> 0 <= tag <= max_int32 /\ tag <> 16).
    { intros tag [(_ & -> & _)|[(_ & -> & _)|(_ & -> & _)]]; [unfold max_int32; lia|unfold max_int32; lia|]. destruct HT as (H1 & H2 & _). auto. }
    split.
    + intros E. destruct (stringTag goText p s) as [tag|] eqn:Et; [|discriminate]. destruct (fp_set p && negb (tag =? TagSequence)) eqn:Es; [discriminate|].
      destruct (stringBody p s) as [body|] eqn:Eb; [|discriminate]. pose proof (stringBody_same _ _ _ Eb) as ->. pose proof (proj1 (string_iff p s HT tag) (conj Et Eb)) as HK.
      destruct (HR tag HK) as (H1 & H2). assert (fp_set p = false) as Hs by (change TagSequence with 16 in Es; destruct (fp_set p); [lia|reflexivity]). rewrite Hs in E.
      split; [exact Hs|]. exists tag. split; [exact HK|]. assert (b = wrapTags p tag false s) as -> by congruence. apply wrapTags_tagged; assumption.
    + intros (Hs & tag & HK & HD). destruct (HR tag HK) as (H1 & H2). apply string_iff in HK as (-> & ->); [|exact HT]. rewrite Hs. cbn [andb]. cbv iota. f_equal. symmetry. apply tagged_wrap; assumption.
  - intros n elem IH p v b HG HL. pose proof HG as HG'. destruct HG' as (HT & HV). destruct v as [| | | | | | | | |l| |]; try contradiction; (eapply wrap_iff; [exact HG|unfold makeField; fold (makeField goText); fold (makeFields goText); unfold leftOut; apply if_or|]); cbv beta.
    + transitivity (finish p (if n then 17 else 16) true (Some []) = Some b); [destruct n; reflexivity|].
      rewrite finish_slice by assumption. split; [intros (H1 & H2 & body & E & H); split; [exact H1|split; [exact H2|congruence]]|intros (H1 & H2 & H); eauto].
    + transitivity (finish p (if n then 17 else 16) true (option_map (@concat byte) (mapM (makeField goText elem noParams) l)) = Some b); [destruct n; reflexivity|].
      rewrite finish_slice by assumption. apply go_slice in HG as (_ & HF). rewrite Forall_forall in HF.
      assert (HI : forall parts, length l = length parts -> zlen (concat parts) < 2 ^ 31 -> (mapM (makeField goText elem noParams) l = Some parts <-> Forall2 (der_of elem noParams) l parts)).
      { intros parts HN HC. apply mapM_iff. apply same_length_F2; [exact HN|]. intros x c Hx Hc. apply IH; [apply HF; exact Hx|]. pose proof (part_le parts c Hc). lia. }
      split.
      * intros (H1 & H2 & body & E & H). split; [exact H1|]. split; [exact H2|]. destruct (mapM (makeField goText elem noParams) l) as [parts|] eqn:Em; [|discriminate].
        assert (body = concat parts) as -> by (cbn in E; congruence). pose proof (tagged_size _ _ _ _ _ H) as HZ. exists parts. split; [|exact H]. apply each_Forall2. apply HI; [apply (mapM_length _ _ _ Em)|lia|reflexivity].
      * intros (H1 & H2 & parts & HE & H). split; [exact H1|]. split; [exact H2|]. pose proof (tagged_size _ _ _ _ _ H) as HZ. apply each_Forall2 in HE. apply HI in HE; [|apply (F2_len _ _ _ HE)|lia].
        rewrite HE. exists (concat parts). split; [reflexivity|exact H].
  - intros keeps fs IH p v b HG HL. pose proof HG as HG'. destruct HG' as (HT & HV). destruct v as [| | | | | | | | | |raw vs|]; try contradiction. destruct HV as (HK & HF).
    (eapply wrap_iff; [exact HG|unfold makeField; fold (makeField goText); fold (makeFields goText); unfold leftOut; apply if_or|]); cbv beta.
    transitivity (finish p 16 true (match raw with [] => makeFields goText fs vs | c :: r => Some (match parseTagAndLength (c :: r) with Some (_, rest) => rest | None => c :: r end) end) = Some b).
    { destruct raw as [|c raw]; [destruct keeps; reflexivity|]. destruct keeps; [reflexivity|]. discriminate (HK eq_refl). }
    rewrite finish_iff by (try assumption; lia). split.
    + intros (H1 & _ & body & E & H). split; [exact H1|]. exists body. split; [|exact H]. destruct raw as [|c raw].
      * right. split; [reflexivity|]. apply IH; [exact HF| |exact E]. apply tagged_size in H. lia.
      * left. split; [discriminate|]. apply kept_iff. congruence.
    + intros (H1 & body & [(H2 & HKp)|(-> & HD)] & H); (split; [exact H1|split; [reflexivity|]]); exists body; (split; [|exact H]).
      * destruct raw as [|c raw]; [congruence|]. apply kept_iff in HKp. congruence.
      * apply IH; [exact HF| |exact HD]. apply tagged_size in H. lia.
  - intros vs b HG HL. destruct vs; [|contradiction]. cbn. split; congruence.
  - intros p ty IH fs IHf vs b HG HL. destruct vs as [|v vs]; [contradiction|]. destruct HG as (HG & HGf). rewrite makeFields_cons. cbn [der_fields]. split.
    + destruct (makeField goText ty p v) as [x|] eqn:Ex; [|discriminate]. destruct (makeFields goText fs vs) as [y|] eqn:Ey; [|discriminate]. intros E. assert (b = x ++ y) as -> by congruence.
      rewrite zlen_app in HL. pose proof (zlen_nonneg x). pose proof (zlen_nonneg y). exists x, y. split; [reflexivity|]. split; [apply IH; [exact HG|lia|exact Ex]|apply IHf; [exact HGf|lia|exact Ey]].
    + intros (x & y & -> & Hx & Hy). rewrite zlen_app in HL. pose proof (zlen_nonneg x). pose proof (zlen_nonneg y). apply IH in Hx; [|exact HG|lia]. apply IHf in Hy; [|exact HGf|lia]. rewrite Hx, Hy. reflexivity.
Qed.
