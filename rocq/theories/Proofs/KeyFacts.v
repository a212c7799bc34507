(** Facts for C118: keys. *)
From Coq Require Import Lia ZifyBool.
From Verif.Model Require Import Bytes Env Asn1 GoTime GoUtf8 Pkcs7 X509 CertExt Keys.
From Verif.Spec Require Import Ber Asn1 Asn1Value Pkcs7 Text Time Asn1Der Asn1Read RoundTrip X509 CertExt.
From Verif.Proofs Require Import BytesFacts BerFacts Asn1Codec Asn1Value Asn1Decode Pkcs7Facts DerFacts Asn1DerFacts Asn1ReadFacts RoundTripFacts X509Facts X509Keys X509Honest X509Ext CertExtFacts.

Lemma same_int ty n v' : ty = TyInt \/ ty = TyBig -> same_value ty (VInt n) v' -> asInt v' = n.
Proof. intros [-> | ->]; cbn [same_value]; (intros [-> | [[E | [E | [E | E]]] _]]; [reflexivity | discriminate..]). Qed.
Lemma same_bits b n v' : same_value TyBits (VBits b n) v' -> v' = VBits b n.
Proof. cbn [same_value]. intros [-> | [[E | [E | [E | E]]] _]]; [reflexivity | discriminate..]. Qed.
Lemma kept_opt ty p v : fp_omitEmpty p = false -> fp_default p = None -> v <> zeroVal ty -> ~ left_out ty p v.
Proof. intros H1 H2 H3 [[C _] | [_ [(d & C & _) | (_ & C)]]]; congruence. Qed.
Lemma rec_bits p b after : two_way p -> (fp_optional p = true -> b <> []) -> fp_omitEmpty p = false -> fp_default p = None -> recoverable TyBits p (VBits b (8 * zlen b)) after.
Proof.
  intros T N O D. assert (NL : ~ left_out TyBits p (VBits b (8 * zlen b))).
  { intros [[C _] | [C1 [(d & C & _) | (_ & C)]]]; try congruence. injection C as C _. exact (N C1 C). }
  cbn [recoverable]. split; [exact T|]. split; [intros L; contradiction|]. intros _. exists 0. split; [lia|]. split; [lia|]. split; [reflexivity|]. intros _. apply Z.mod_1_r.
Qed.
Lemma two_way_plain p : fp_private p = false -> fp_omitEmpty p = false -> (fp_explicit p = true -> fp_tag p <> None) -> two_way p.
Proof. intros H1 H2 H3. split; [intros E; split; [now apply H3 | exact H1]|]. split; congruence. Qed.

Section Read.
  Variable K : xenv.
  Hypothesis KX : k_text K = goText.
  Notation X := (k_text K).
  Lemma value_read_rest ty v b rest : go_value ty noParams v -> well_described ty noParams -> recoverable ty noParams v [] -> marshal X ty v = Some b -> zlen b < 2 ^ 31 ->
    exists v', unmarshal X ty (b ++ rest) = (v', Some rest) /\ same_value ty v v'.
  Proof.
    intros G W R M L. rewrite KX in *. unfold marshal in M. apply (proj1 makeField_der) in M; [|exact G | exact L].
    destruct (proj1 round_trip ty noParams v b rest G W L M (element_any_after _ _ _ R)) as (v' & H & S). exists v'. split; [|exact S].
    now apply (proj1 read_iff).
  Qed.
End Read.
Lemma unmarshalAll_rest K ty b rest v : unmarshal (k_text K) ty (b ++ rest) = (v, Some rest) -> unmarshalAll K ty (b ++ rest) = match rest with [] => Some v | _ => None end.
Proof. intros H. unfold unmarshalAll. rewrite H. destruct rest; reflexivity. Qed.

Lemma same_struct_keeps keeps fs vs v' : same_value (TyStruct keeps fs) (VStruct [] vs) v' -> exists raw vs', v' = VStruct raw vs' /\ same_fields fs vs vs'.
Proof. destruct v'; try (cbn [same_value]; intros [H | [[H | [H | [H | H]]] _]]; discriminate). intros H. eauto. Qed.

Lemma head_small c t k (body : bytes) : 0 <= c < 4 /\ 0 <= t < 31 -> zlen body < 2 ^ 31 -> zlen (appendTagAndLength (hd c t (zlen body) k)) <= 134.
Proof.
  intros [Hc Ht] L. assert (E : element c t k body (appendTagAndLength (hd c t (zlen body) k) ++ body)) by (apply header_element; [lia | unfold max_int32; lia | lia]).
  destruct E as (id & len & EQ & (_ & I) & D). apply (f_equal zlen) in EQ. rewrite !zlen_app in EQ.
  assert (zlen id <= 6). { destruct I as [[_ ->] | (b & _ & LB & _ & ->)]; [vm_compute; discriminate | rewrite zlen_cons; lia]. }
  assert (zlen len <= 128). { destruct D as [[_ ->] | (d & LD & -> & _)]; [vm_compute; discriminate | rewrite zlen_cons; lia]. }
  lia.
Qed.

(** *** PKCS #1 *)
Section Rsa.
  Variable K : xenv.
  Hypothesis KX : k_text K = goText.
  Variable V : keyenv.
  Notation X := (k_text K).

  Definition otherVal (a : Z * (Z * Z)) : goval := VStruct [] [VInt (fst a); VInt (fst (snd a)); VInt (snd (snd a))].
  Lemma go_big n p : tags_fit p -> go_value TyBig p (VInt n).
  Proof. intros H. cbn [go_value]. split; [exact H | exact I]. Qed.
  Lemma go_int n p : tags_fit p -> - 2 ^ 63 <= n < 2 ^ 63 -> go_value TyInt p (VInt n).
  Proof. intros H N. cbn [go_value]. split; assumption. Qed.
  Lemma go_other_prime a : go_value tyOtherPrime noParams (otherVal a).
  Proof. cbn [go_value tyOtherPrime otherVal]. split; [now apply tags_plain|]. split; [reflexivity|]. cbn [go_fields]. repeat (split; [apply go_big; now apply tags_plain|]). exact I. Qed.
  Lemma rec_plain ty v after : free ty = true -> recoverable ty noParams v after.
  Proof. intros F. apply rec_free; [exact F | now apply plain_two_way | apply no_params_kept]. Qed.
  Lemma rec_other_prime a after : recoverable tyOtherPrime noParams (otherVal a) after.
  Proof. apply rec_struct. cbn [recoverable_fields]. repeat (split; [intros; now apply rec_plain|]). exact I. Qed.
  Lemma rec_opt_big n after : recoverable TyBig pOptional (VInt n) after.
  Proof. apply rec_free; [reflexivity | now apply plain_two_way | now apply kept_opt]. Qed.

  Lemma pkcs1_value_read ver n e d p q dp dq qi l b rest : 0 <= ver <= 1 -> - 2 ^ 63 <= e < 2 ^ 63 ->
    marshal X tyPkcs1Private (VStruct [] [VInt ver; VInt n; VInt e; VInt d; VInt p; VInt q; VInt dp; VInt dq; VInt qi; VSlice (map otherVal l)]) = Some b -> zlen b < 2 ^ 31 ->
    exists v, unmarshal X tyPkcs1Private (b ++ rest) = (v, Some rest) /\ asInt (field 0 v) = ver /\ asInt (field 1 v) = n /\ asInt (field 2 v) = e /\ asInt (field 3 v) = d /\
      asInt (field 4 v) = p /\ asInt (field 5 v) = q /\ map (fun a => asInt (field 0 a)) (asSlice (field 9 v)) = map fst l.
  Proof.
    intros Hv He M L. match type of M with marshal _ _ ?x = _ => destruct (value_read_rest K KX tyPkcs1Private x b rest) as (v & U & S); [| | | exact M | exact L |] end.
    - cbn [go_value tyPkcs1Private]. split; [now apply tags_plain|]. split; [reflexivity|]. cbn [go_fields].
      split; [apply go_int; [now apply tags_plain | lia]|]. split; [apply go_big; now apply tags_plain|]. split; [apply go_int; [now apply tags_plain | lia]|].
      do 6 (split; [apply go_big; now apply tags_plain|]). split; [|exact I].
      apply go_list; [now apply tags_plain|]. apply Forall_map, Forall_forall. intros a _. apply go_other_prime.
    - cbn. intuition discriminate.
    - apply rec_struct. cbn [recoverable_fields]. do 6 (split; [intros; now apply rec_plain|]). do 3 (split; [intros; apply rec_opt_big|]). split; [|exact I].
      intros after D _. cbn [der_fields] in D. subst after. cbn [recoverable]. split; [split; [discriminate|]; split; [discriminate | reflexivity]|]. split; [intros _; now left|]. intros _.
      clear M. induction l as [|a l IH]; cbn [map]; [exact I | split; [apply rec_other_prime | exact IH]].
    - exists v. split; [exact U|]. apply same_struct in S. destruct S as (raw & vs & -> & S).
      do 10 (destruct vs as [|? vs]; [cbn [same_fields] in S; tauto|]). destruct S as (S0 & S1 & S2 & S3 & S4 & S5 & _ & _ & _ & S9 & _). cbn [field nth].
      split; [now apply (same_int TyInt); [left|]|]. split; [now apply (same_int TyBig); [right|]|]. split; [now apply (same_int TyInt); [left|]|].
      split; [now apply (same_int TyBig); [right|]|]. split; [now apply (same_int TyBig); [right|]|]. split; [now apply (same_int TyBig); [right|]|].
      apply same_slice in S9. revert S9. generalize (asSlice g8). clear. induction l as [|a l IH]; intros l' S; inversion S as [|? x ? l'' Hx Hl]; subst; [reflexivity|].
      cbn [map]. f_equal; [|now apply IH]. apply same_struct in Hx. destruct Hx as (raw & vs & -> & Hx). destruct vs as [|y vs]; [destruct Hx|]. destruct Hx as [Hx _].
      now apply (same_int TyBig); [right|].
  Qed.

  Theorem rsa_round_trip n e d primes b rest : 0 < n -> - 2 ^ 63 <= e < 2 ^ 63 -> 0 < d -> Forall (fun p => 0 < p) primes -> (2 <= List.length primes)%nat ->
    List.length (snd (ke_precompute V n d primes)) = (List.length primes - 2)%nat -> ke_validate V n e d primes = true ->
    marshalPKCS1PrivateKey K V n e d primes = Some b -> zlen b < 2 ^ 31 -> parsePKCS1PrivateKey K V (b ++ rest) = match rest with [] => Some (PRsa n e d primes) | _ => None end.
  Proof.
    intros Hn He Hd F L2 LC HV M L. destruct primes as [|p [|q more]]; [cbn in L2; lia | cbn in L2; lia|]. unfold marshalPKCS1PrivateKey in M.
    inversion F as [|? ? Hp F']; subst. inversion F' as [|? ? Hq FM]; subst.
    destruct (ke_precompute V n d (p :: q :: more)) as [[[dp dq] qi] crt] eqn:EP. cbn [snd List.length] in LC.
    change (fun a : Z * (Z * Z) => VStruct [] [VInt (fst a); VInt (fst (snd a)); VInt (snd (snd a))]) with otherVal in M.
    destruct (pkcs1_value_read (match more with [] => 0 | _ => 1 end) n e d p q dp dq qi (combine more crt) b rest ltac:(destruct more; lia) He M L) as (v & U & E0 & E1 & E2 & E3 & E4 & E5 & E9).
    unfold parsePKCS1PrivateKey. rewrite (unmarshalAll_rest _ _ _ _ _ U). destruct rest; [|reflexivity]. cbv zeta. rewrite E0, E1, E2, E3, E4, E5, E9.
    assert (map fst (combine more crt) = more) as ->.
    { assert (List.length crt = List.length more) as LL by lia. clear - LL. revert crt LL. induction more as [|x more IH]; intros [|y crt] LL; try discriminate LL; [reflexivity|]. cbn. f_equal. apply IH. cbn in LL. lia. }
    assert (1 <? match more with [] => 0 | _ => 1 end = false) as -> by (destruct more; reflexivity).
    assert ((n <=? 0) || (d <=? 0) || (p <=? 0) || (q <=? 0) = false) as -> by lia.
    assert (forallb (fun a => 0 <? a) more = true) as ->. { apply forallb_forall. rewrite Forall_forall in FM. intros x Hx. specialize (FM x Hx). lia. }
    cbn [negb]. rewrite HV. reflexivity.
  Qed.
  Theorem rsa_checked der k : parsePKCS1PrivateKey K V der = Some k -> exists n e d p q more, k = PRsa n e d (p :: q :: more) /\ 0 < n /\ 0 < d /\ Forall (fun p => 0 < p) (p :: q :: more) /\
    ke_validate V n e d (p :: q :: more) = true.
  Proof.
    unfold parsePKCS1PrivateKey. destruct (unmarshalAll K tyPkcs1Private der) as [v|]; [|discriminate]. cbv zeta. destruct (1 <? asInt (field 0 v)); [discriminate|].
    destruct ((asInt (field 1 v) <=? 0) || (asInt (field 3 v) <=? 0) || (asInt (field 4 v) <=? 0) || (asInt (field 5 v) <=? 0)) eqn:E; [discriminate|].
    destruct (forallb (fun a => 0 <? a) (map (fun a => asInt (field 0 a)) (asSlice (field 9 v)))) eqn:F; [|discriminate]. cbn [negb].
    destruct (ke_validate V (asInt (field 1 v)) (asInt (field 2 v)) (asInt (field 3 v)) (asInt (field 4 v) :: asInt (field 5 v) :: map (fun a => asInt (field 0 a)) (asSlice (field 9 v)))) eqn:HV; [|discriminate].
    intros H. injection H as <-. do 6 eexists. split; [reflexivity|]. split; [lia|]. split; [lia|]. split; [|exact HV].
    constructor; [lia|]. constructor; [lia|]. apply Forall_forall. rewrite forallb_forall in F. intros x Hx. specialize (F x Hx). lia.
  Qed.
End Rsa.

(** *** SEC 1 *)
Lemma order_len c : orderLen c = field_size c /\ 0 < curveOrder c < 256 ^ field_size c.
Proof. destruct c; (split; [vm_compute; reflexivity | split; vm_compute; reflexivity]). Qed.
Lemma zeros_val n b : be_val (repeat x00 n ++ b) = be_val b.
Proof. induction n as [|n IH]; [reflexivity|]. cbn [repeat app]. rewrite be_val_cons, IH. change (b2z x00) with 0. lia. Qed.
Lemma zlen_repeat {A} (x : A) n : zlen (repeat x n) = Z.of_nat n.
Proof. unfold zlen. now rewrite repeat_length. Qed.
Lemma drop_padding size b : 0 <= size -> be_val b < 256 ^ size -> exists s, dropPadding size b = Some s /\ zlen s <= size /\ be_val s = be_val b.
Proof.
  intros HS. induction b as [|x t IH]; intros H.
  - exists []. split; [reflexivity|]. split; [exact HS | reflexivity].
  - cbn [dropPadding]. destruct (Z.ltb_spec size (zlen (x :: t))) as [G|G]; [|exists (x :: t); split; [reflexivity|]; split; [lia | reflexivity]].
    destruct (Z.eqb_spec (b2z x) 0) as [E|N].
    + assert (be_val (x :: t) = be_val t) as EQ by (rewrite be_val_cons, E; lia). rewrite EQ in *. now apply IH.
    + exfalso. pose proof (be_lead x t N) as [LB _]. rewrite zlen_cons in G. assert (256 ^ size <= 256 ^ zlen t) by (apply Z.pow_le_mono_r; lia). lia.
Qed.
Lemma oid_curve c : namedCurveFromOID (oidFromNamedCurve c) = Some c.
Proof. destruct c; reflexivity. Qed.
Lemma curve_fits c : oid_fits (oidFromNamedCurve c).
Proof. destruct c; (apply oid_fits_dec; vm_compute; reflexivity). Qed.
Lemma scalar_len c d : 0 <= d < curveOrder c -> zlen (bigBytes d) <= orderLen c.
Proof.
  intros H. destruct (order_len c) as [-> [_ HO]]. destruct (bigBytes_val d ltac:(lia)) as [HV HN]. destruct (bigBytes d) as [|x t]; [destruct c; cbn; lia|].
  pose proof (be_lead x t HN) as [LB _]. rewrite HV in LB. rewrite zlen_cons.
  destruct (Z.lt_ge_cases (zlen t) (field_size c)) as [G|G]; [lia|]. exfalso.
  assert (256 ^ field_size c <= 256 ^ zlen t) by (apply Z.pow_le_mono_r; [lia | exact G]). lia.
Qed.

Section Ec.
  Variable K : xenv.
  Hypothesis KX : k_text K = goText.
  Variable V : keyenv.
  Notation X := (k_text K).

  Lemma bits_length_ignored p b : b <> [] -> makeField X TyBits p (VBits b 0) = makeField X TyBits p (VBits b (8 * zlen b)).
  Proof.
    intros N. unfold makeField. assert (encodeBitString b (8 * zlen b) = encodeBitString b 0) as ->.
    { unfold encodeBitString. rewrite (Z.mul_comm 8), Z.mod_mul by lia. reflexivity. }
    destruct b as [|x t]; [now contradiction N|]. reflexivity.
  Qed.
  Lemma ec_value_read octets c pub b rest : pub <> [] ->
    marshal X tyEcPrivate (VStruct [] [VInt 1; VBytes octets; VOid (oidFromNamedCurve c); VBits pub 0]) = Some b -> zlen b < 2 ^ 31 ->
    exists v, unmarshal X tyEcPrivate (b ++ rest) = (v, Some rest) /\ asInt (field 0 v) = 1 /\ asBytes (field 1 v) = octets /\ asOid (field 2 v) = oidFromNamedCurve c.
  Proof.
    intros N M L. assert (M' : marshal X tyEcPrivate (VStruct [] [VInt 1; VBytes octets; VOid (oidFromNamedCurve c); VBits pub (8 * zlen pub)]) = Some b).
    { unfold marshal, tyEcPrivate in *. rewrite makeField_struct in *. rewrite !makeFields_cons in *. rewrite bits_length_ignored in M by exact N. exact M. }
    clear M. match type of M' with marshal _ _ ?x = _ => destruct (value_read_rest K KX tyEcPrivate x b rest) as (v & U & S); [| | | exact M' | exact L |] end.
    - cbn [go_value tyEcPrivate]. split; [now apply tags_plain|]. split; [reflexivity|]. cbn [go_fields].
      split; [apply go_int; [now apply tags_plain | lia]|]. split; [cbn [go_value]; split; [now apply tags_plain | exact I]|].
      split; [destruct (curve_fits c) as [F1 F2]; cbn [go_value]; split; [apply (tags_small _ 0); [now left | reflexivity | lia] | split; assumption]|].
      split; [cbn [go_value]; split; [apply (tags_small _ 1); [now left | reflexivity | lia] | pose proof (zlen_nonneg pub); lia] | exact I].
    - cbn. intuition discriminate.
    - apply rec_struct. cbn [recoverable_fields]. do 2 (split; [intros; now apply rec_plain|]).
      split; [intros; apply rec_free; [reflexivity | now apply two_way_plain | apply kept_opt; try reflexivity; destruct c; discriminate]|].
      split; [intros; apply rec_bits; [now apply two_way_plain | intros _; exact N | reflexivity | reflexivity] | exact I].
    - exists v. split; [exact U|]. apply same_struct in S. destruct S as (raw & vs & -> & S).
      do 4 (destruct vs as [|? vs]; [cbn [same_fields] in S; tauto|]). destruct S as (S0 & S1 & S2 & _). cbn [field nth].
      split; [now apply (same_int TyInt); [left|]|]. split; [now apply same_bytes | now apply same_oid].
  Qed.

  (** Whatever the padding of the scalar *)
  Theorem ec_octets octets c pub named b rest : pub <> [] ->
    marshal X tyEcPrivate (VStruct [] [VInt 1; VBytes octets; VOid (oidFromNamedCurve c); VBits pub 0]) = Some b -> zlen b < 2 ^ 31 -> named = None \/ named = Some (oidFromNamedCurve c) ->
    exists padded, zlen padded = field_size c /\ (be_val octets < curveOrder c -> be_val padded = be_val octets) /\
      parseECPrivateKey K V named (b ++ rest) = if be_val octets <? curveOrder c then Some (PEcdsa c (be_val octets) (fst (ke_base V c padded)) (snd (ke_base V c padded))) else None.
  Proof.
    intros N M L HN. destruct (ec_value_read octets c pub b rest N M L) as (v & U & E0 & E1 & E2). destruct (order_len c) as [OL [_ OB]].
    assert (OP : 0 <= orderLen c) by (rewrite OL; destruct c; cbn; lia).
    unfold parseECPrivateKey. rewrite U, E0, E1. cbn [negb Z.eqb Pos.eqb].
    assert (namedCurveFromOID (match named with Some o => o | None => asOid (field 2 v) end) = Some c) as -> by (destruct HN as [-> | ->]; [rewrite E2|]; apply oid_curve).
    cbv zeta. rewrite be_acc0. destruct (Z.ltb_spec (be_val octets) (curveOrder c)) as [G|G].
    - destruct (drop_padding (orderLen c) octets OP ltac:(rewrite OL; lia)) as (s & D & DL & DV). rewrite D.
      exists (repeat x00 (Z.to_nat (orderLen c - zlen s)) ++ s). split; [rewrite zlen_app, zlen_repeat; lia|]. split; [intros _; now rewrite zeros_val|].
      assert (curveOrder c <=? be_val octets = false) as -> by lia. destruct (ke_base V c (repeat x00 (Z.to_nat (orderLen c - zlen s)) ++ s)); reflexivity.
    - exists (repeat x00 (Z.to_nat (field_size c))). split; [rewrite zlen_repeat, Z2Nat.id by (destruct c; cbn; lia); reflexivity|]. split; [intros; lia|].
      assert (curveOrder c <=? be_val octets = true) as -> by lia. reflexivity.
  Qed.
  Theorem ec_round_trip c d x y : 0 <= d < curveOrder c -> exists padded, zlen padded = field_size c /\ be_val padded = d /\
    forall b rest named, marshalECPrivateKey K c d x y = Some b -> zlen b < 2 ^ 31 -> named = None \/ named = Some (oidFromNamedCurve c) ->
    parseECPrivateKey K V named (b ++ rest) = Some (PEcdsa c d (fst (ke_base V c padded)) (snd (ke_base V c padded))).
  Proof.
    intros H. pose proof (scalar_len c d H) as SL. destruct (bigBytes_val d ltac:(lia)) as [BV _]. destruct (order_len c) as [OL [_ OB]].
    set (padded := repeat x00 (Z.to_nat (orderLen c - zlen (bigBytes d))) ++ bigBytes d).
    assert (PL : zlen padded = field_size c) by (unfold padded; rewrite zlen_app, zlen_repeat; lia).
    assert (PV : be_val padded = d) by (unfold padded; rewrite zeros_val; exact BV).
    exists padded. split; [exact PL|]. split; [exact PV|]. intros b rest named M L HN. unfold marshalECPrivateKey in M. cbv zeta in M.
    assert (orderLen c <? zlen (bigBytes d) = false) as EF by lia. rewrite EF in M. fold padded in M.
    destruct (ec_octets padded c (ellipticMarshal c x y) named b rest ltac:(discriminate) M L HN) as (p2 & L2 & V2 & E). rewrite E, PV.
    assert (d <? curveOrder c = true) as -> by lia. assert (p2 = padded) as ->; [|reflexivity]. apply be_val_inj; [lia|]. apply V2. lia.
  Qed.
  Theorem ec_checked named der k : parseECPrivateKey K V named der = Some k -> exists c d padded, k = PEcdsa c d (fst (ke_base V c padded)) (snd (ke_base V c padded)) /\ 0 <= d < curveOrder c /\
    zlen padded = field_size c /\ be_val padded = d.
  Proof.
    unfold parseECPrivateKey. destruct (unmarshal X tyEcPrivate der) as [v [r|]]; [|discriminate]. destruct (asInt (field 0 v) =? 1); [|discriminate]. cbn [negb].
    destruct (namedCurveFromOID match named with Some o => o | None => asOid (field 2 v) end) as [c|]; [|discriminate]. cbv zeta. rewrite be_acc0. destruct (order_len c) as [OL [_ OB]].
    destruct (Z.leb_spec (curveOrder c) (be_val (asBytes (field 1 v)))) as [G|G]; [discriminate|].
    destruct (drop_padding (orderLen c) (asBytes (field 1 v)) ltac:(rewrite OL; destruct c; cbn; lia) ltac:(rewrite OL; lia)) as (s & D & DL & DV). rewrite D.
    pose proof (be_val_range (asBytes (field 1 v))).
    destruct (ke_base V c (repeat x00 (Z.to_nat (orderLen c - zlen s)) ++ s)) as [x y] eqn:EB. intros H0. injection H0 as <-.
    exists c, (be_val (asBytes (field 1 v))), (repeat x00 (Z.to_nat (orderLen c - zlen s)) ++ s). rewrite EB. split; [reflexivity|]. split; [lia|].
    split; [rewrite zlen_app, zlen_repeat; lia|]. rewrite zeros_val. exact DV.
  Qed.

  (** PKCS #8 *)
  Lemma raw_by_whole p c t k b c' t' k' b' w : w <> [] -> makeField X TyRaw p (VRaw c t k b w) = makeField X TyRaw p (VRaw c' t' k' b' w).
  Proof. intros N. destruct w as [|x w]; [now contradiction N|]. unfold makeField. assert (zlen (x :: w) =? 0 = false) as -> by (rewrite zlen_cons; pose proof (zlen_nonneg w); lia).
    cbn [negb]. destruct p as [[] ? ? ? [] ? ? ? ?]; cbn; rewrite ?andb_false_r; reflexivity. Qed.

  Lemma curve_written c : exists octets w, marshal X TyOid (VOid (oidFromNamedCurve c)) = Some w /\ element 0 6 false octets w.
  Proof.
    assert (H : exists octets, marshal X TyOid (VOid (oidFromNamedCurve c)) = Some (appendTagAndLength (hd 0 6 (zlen octets) false) ++ octets) /\ zlen octets < 100).
    { destruct c; [exists [x2b; x81; x04; x00; x21] | exists [x2a; x86; x48; xce; x3d; x03; x01; x07] | exists [x2b; x81; x04; x00; x22] | exists [x2b; x81; x04; x00; x23]]; split; reflexivity. }
    destruct H as (octets & M & L). exists octets, (appendTagAndLength (hd 0 6 (zlen octets) false) ++ octets). split; [exact M|]. apply header_element; unfold max_int32; lia.
  Qed.
  Lemma curve_read c w rest : marshal X TyOid (VOid (oidFromNamedCurve c)) = Some w -> zlen w < 2 ^ 31 -> unmarshal X TyOid (w ++ rest) = (VOid (oidFromNamedCurve c), Some rest).
  Proof.
    intros M L. destruct (value_read_rest K KX TyOid (VOid (oidFromNamedCurve c)) w rest) as (v & U & S); [apply go_oid, curve_fits | cbn; intuition discriminate | apply rec_oid | exact M | exact L|].
    rewrite U. f_equal. cbn [same_value] in S. destruct S as [S | [[E | [E | [E | E]]] _]]; [exact S | try discriminate..]. destruct c; discriminate E.
  Qed.
  Lemma element_nonempty c t k b w : element c t k b w -> w <> [].
  Proof. intros E ->. pose proof (element_size _ _ _ _ _ E) as HS. pose proof (zlen_nonneg b). cbn in HS. lia. Qed.

  Definition algVal (o : oid) (p : goval) : goval := VStruct [] [VOid o; p].
  Lemma alg_go o p : oid_fits o -> go_value TyRaw pOptional p -> go_value tyAlgorithm noParams (algVal o p).
  Proof. intros F G. cbn [go_value tyAlgorithm algVal]. split; [now apply tags_plain|]. split; [reflexivity|]. cbn [go_fields]. split; [now apply go_oid|]. split; [exact G | exact I]. Qed.
  Lemma alg_rec o c t k b w after : zlen b < 2 ^ 31 -> w = [] \/ element c t k b w -> VRaw c t k b w <> zeroVal TyRaw -> recoverable tyAlgorithm noParams (algVal o (VRaw c t k b w)) after.
  Proof.
    intros L W N. apply rec_struct. cbn [recoverable_fields]. split; [intros; apply element_any_after, rec_oid|]. split; [|exact I]. intros a _ _.
    assert (NL : ~ left_out TyRaw pOptional (VRaw c t k b w)) by (now apply kept_opt). cbn [recoverable]. split; [now apply plain_two_way|]. split; [intros C; contradiction|].
    intros _. split; [exact L|]. split; [exact W|]. intros n C. discriminate C.
  Qed.
  Lemma alg_same o c t k b w v : same_value tyAlgorithm (algVal o (VRaw c t k b w)) v -> asOid (field 0 v) = o /\ (w <> [] -> rawFull (field 1 v) = w).
  Proof.
    intros S. apply same_struct in S. destruct S as (raw & vs & -> & S). do 2 (destruct vs as [|? vs]; [cbn [same_fields] in S; tauto|]). destruct S as (S0 & S1 & _). cbn [field nth].
    split; [now apply same_oid|]. intros N. cbn [same_value] in S1. destruct g0; try (destruct S1 as [S1 | [[E | [E | [E | E]]] _]]; discriminate).
    destruct S1 as (_ & _ & _ & _ & [C | C]); [contradiction | exact C].
  Qed.
  Lemma pkcs8_value_read ver o c t k p w inner b rest : - 2 ^ 63 <= ver < 2 ^ 63 -> oid_fits o -> go_value TyRaw pOptional (VRaw c t k p w) -> zlen p < 2 ^ 31 -> w = [] \/ element c t k p w ->
    VRaw c t k p w <> zeroVal TyRaw ->
    marshal X tyPkcs8 (VStruct [] [VInt ver; algVal o (VRaw c t k p w); VBytes inner]) = Some b -> zlen b < 2 ^ 31 ->
    exists v, unmarshal X tyPkcs8 (b ++ rest) = (v, Some rest) /\ asOid (field 0 (field 1 v)) = o /\ (w <> [] -> rawFull (field 1 (field 1 v)) = w) /\ asBytes (field 2 v) = inner.
  Proof.
    intros Hv Ho G Lp W N M L. match type of M with marshal _ _ ?x = _ => destruct (value_read_rest K KX tyPkcs8 x b rest) as (v & U & S); [| | | exact M | exact L |] end.
    - cbn [go_value tyPkcs8]. split; [now apply tags_plain|]. split; [reflexivity|]. cbn [go_fields]. split; [apply go_int; [now apply tags_plain | lia]|].
      split; [now apply alg_go|]. split; [cbn [go_value]; split; [now apply tags_plain | exact I] | exact I].
    - cbn. intuition discriminate.
    - apply rec_struct. cbn [recoverable_fields]. split; [intros; now apply rec_plain|]. split; [intros; now apply alg_rec|]. split; [intros; now apply rec_plain | exact I].
    - exists v. split; [exact U|]. apply same_struct in S. destruct S as (raw & vs & -> & S). do 3 (destruct vs as [|? vs]; [cbn [same_fields] in S; tauto|]). destruct S as (_ & S1 & S2 & _).
      destruct (alg_same _ _ _ _ _ _ _ S1) as [A1 A2]. change (field 1 (VStruct raw (g :: g0 :: g1 :: vs))) with g0. change (field 2 (VStruct raw (g :: g0 :: g1 :: vs))) with g1.
      split; [exact A1|]. split; [exact A2 | now apply same_bytes].
  Qed.
  Lemma rsa_oid_fits : oid_fits oidPublicKeyRSA. Proof. apply oid_fits_dec; vm_compute; reflexivity. Qed.
  Lemma ec_oid_fits : oid_fits oidPublicKeyECDSA. Proof. apply oid_fits_dec; vm_compute; reflexivity. Qed.
  Theorem pkcs8_rsa ver inner b rest : - 2 ^ 63 <= ver < 2 ^ 63 -> marshal X tyPkcs8 (VStruct [] [VInt ver; algVal oidPublicKeyRSA (VRaw 0 5 false [] []); VBytes inner]) = Some b -> zlen b < 2 ^ 31 ->
    parsePKCS8PrivateKey K V (b ++ rest) = parsePKCS1PrivateKey K V inner.
  Proof.
    intros Hv M L. destruct (pkcs8_value_read ver oidPublicKeyRSA 0 5 false [] [] inner b rest Hv rsa_oid_fits) as (v & U & E1 & _ & E3); try assumption; try discriminate; try (now left); try (cbn; lia).
    { cbn [go_value]. split; [now apply tags_plain|]. unfold max_int32. intros _. lia. }
    unfold parsePKCS8PrivateKey. rewrite U. cbv zeta. rewrite E1, E3. reflexivity.
  Qed.
  Theorem pkcs8_ec ver c inner b rest w : - 2 ^ 63 <= ver < 2 ^ 63 -> marshal X TyOid (VOid (oidFromNamedCurve c)) = Some w ->
    marshal X tyPkcs8 (VStruct [] [VInt ver; algVal oidPublicKeyECDSA (VRaw 0 0 false [] w); VBytes inner]) = Some b -> zlen b < 2 ^ 31 ->
    parsePKCS8PrivateKey K V (b ++ rest) = parseECPrivateKey K V (Some (oidFromNamedCurve c)) inner.
  Proof.
    intros Hv MC M L. destruct (curve_written c) as (octets & w' & MC' & E). rewrite MC in MC'. injection MC' as <-. pose proof (element_nonempty _ _ _ _ _ E) as NE.
    assert (M' : marshal X tyPkcs8 (VStruct [] [VInt ver; algVal oidPublicKeyECDSA (VRaw 0 6 false octets w); VBytes inner]) = Some b).
    { unfold marshal, tyPkcs8, tyAlgorithm, algVal in *. rewrite makeField_struct in *. rewrite !makeFields_cons in *. rewrite makeField_struct in *. rewrite !makeFields_cons in *.
      rewrite (raw_by_whole pOptional 0 6 false octets 0 0 false [] w NE). exact M. }
    assert (SW : zlen w < 100). { clear - MC. destruct c; vm_compute in MC; injection MC as <-; reflexivity. }
    assert (SO : zlen octets < 100). { pose proof (element_size _ _ _ _ _ E). lia. }
    destruct (pkcs8_value_read ver oidPublicKeyECDSA 0 6 false octets w inner b rest Hv ec_oid_fits) as (v & U & E1 & E2 & E3); try assumption; try (now right); try discriminate; try lia.
    { cbn [go_value]. split; [now apply tags_plain|]. unfold max_int32. intros _. lia. }
    unfold parsePKCS8PrivateKey. rewrite U. cbv zeta. rewrite E1, E3, (E2 NE). change (oidEqual oidPublicKeyECDSA oidPublicKeyRSA) with false. change (oidEqual oidPublicKeyECDSA oidPublicKeyECDSA) with true. cbv iota.
    rewrite <- (app_nil_r w), (curve_read c w [] MC) by lia. reflexivity.
  Qed.

  (** PKIX public keys *)
  Lemma point_read c x y : 0 <= x < 256 ^ field_size c -> 0 <= y < 256 ^ field_size c -> k_point K c x y = true -> ellipticUnmarshal K c (ellipticMarshal c x y) = Some (x, y).
  Proof.
    intros Hx Hy P. assert (BL : byteLen c = field_size c) by (destruct c; reflexivity). assert (FP : 0 < field_size c < 100) by (destruct c; cbn; lia).
    unfold ellipticUnmarshal, ellipticMarshal. rewrite BL. set (n := Z.to_nat (field_size c)). assert (NN : Z.of_nat n = field_size c) by (unfold n; lia).
    rewrite zlen_cons, zlen_app, !be_enc_len, NN. match goal with |- context [negb (?a =? ?b)] => replace (a =? b) with true by lia end.
    cbn [negb]. change (b2z x04 =? 4) with true. cbn [negb]. cbv zeta.
    rewrite takeZ_app, dropZ_app by (rewrite be_enc_len; lia). rewrite !be_acc0, !be_enc_val, NN, !Z.mod_small by assumption. rewrite P. reflexivity.
  Qed.
  Theorem public_ec c x y b : 0 <= x < 256 ^ field_size c -> 0 <= y < 256 ^ field_size c -> k_point K c x y = true -> marshalPublic K (GEcdsa c x y) = Some b -> zlen b < 2 ^ 31 ->
    parsePKIXPublicKey K b = Some (GEcdsa c x y).
  Proof.
    intros Hx Hy P M L. destruct (curve_written c) as (octets & w & MC & E). pose proof (element_nonempty _ _ _ _ _ E) as NE. cbn [marshalPublic] in M. rewrite MC in M. cbv zeta in M.
    assert (SW : zlen w < 100). { clear - MC. destruct c; vm_compute in MC; injection MC as <-; reflexivity. }
    assert (SO : zlen octets < 100). { pose proof (element_size _ _ _ _ _ E). lia. }
    assert (PN : ellipticMarshal c x y <> []) by discriminate.
    pose proof (point_read c x y Hx Hy P) as PR. set (pub := ellipticMarshal c x y) in *. clearbody pub.
    assert (M' : marshal X tySpki (VStruct [] [algVal oidPublicKeyECDSA (VRaw 0 6 false octets w); VBits pub (8 * zlen pub)]) = Some b).
    { change (marshal X tySpki ?v) with (marshal X tyPkixPublicKey v). unfold marshal, tyPkixPublicKey, tyAlgorithm, algVal in *. rewrite makeField_struct in *. rewrite !makeFields_cons in *. rewrite makeField_struct in *. rewrite !makeFields_cons in *.
      rewrite (raw_by_whole pOptional 0 6 false octets 0 0 false [] w NE). exact M. }
    match type of M' with marshal _ _ ?x = _ => destruct (value_read K KX tySpki x b) as (v & U & S); [| | | exact M' | exact L |] end.
    - cbn [go_value tySpki]. split; [now apply tags_plain|]. split; [reflexivity|]. cbn [go_fields]. split; [apply alg_go; [exact ec_oid_fits|]|].
      + cbn [go_value]. split; [now apply tags_plain|]. unfold max_int32. intros _. lia.
      + split; [cbn [go_value]; split; [now apply tags_plain | pose proof (zlen_nonneg pub); lia] | exact I].
    - cbn. intuition discriminate.
    - cbn [recoverable tySpki]. split; [now apply plain_two_way|]. split; [intros C; exfalso; eapply no_params_kept; exact C|]. intros _. split; [reflexivity|]. cbn [recoverable_fields].
      split; [intros; apply alg_rec; [lia | now right | discriminate]|]. split; [intros; now apply rec_bits; [apply plain_two_way | | |] | exact I].
    - apply same_struct_keeps in S. destruct S as (raw & l & -> & S). do 2 (destruct l as [|? l]; [cbn [same_fields] in S; tauto|]). destruct S as (S0 & S1 & _).
      destruct (alg_same _ _ _ _ _ _ _ S0) as [A1 A2]. apply same_bits in S1. subst g0. unfold parsePKIXPublicKey. rewrite U. cbn [field nth] in *. rewrite A1.
      change (getPublicKeyAlgorithmFromOID oidPublicKeyECDSA) with ECDSA. cbv iota. unfold parsePublicKey. cbn [field nth]. cbv zeta. rewrite (A2 NE), rightAlign_whole.
      assert (unmarshalAll K TyOid w = Some (VOid (oidFromNamedCurve c))) as ->. { apply unmarshalAll_some. rewrite <- (app_nil_r w). apply (curve_read c w []); [exact MC | lia]. }
      cbn [asOid]. rewrite oid_curve, PR. reflexivity.
  Qed.

  Theorem ec_written c d x y : 0 <= d < curveOrder c -> exists b, marshalECPrivateKey K c d x y = Some b /\ zlen b < 2 ^ 31.
  Proof.
    intros H. pose proof (scalar_len c d H) as SL. unfold marshalECPrivateKey. cbv zeta. assert (orderLen c <? zlen (bigBytes d) = false) as -> by lia.
    set (padded := repeat x00 (Z.to_nat (orderLen c - zlen (bigBytes d))) ++ bigBytes d).
    assert (OL : orderLen c < 100) by (destruct (order_len c) as [-> _]; destruct c; cbn; lia).
    assert (PL : zlen padded < 100) by (unfold padded; rewrite zlen_app, zlen_repeat; lia). clearbody padded.
    assert (UL : zlen (ellipticMarshal c x y) < 200). { unfold ellipticMarshal. rewrite zlen_cons, zlen_app, !be_enc_len. assert (0 <= byteLen c <= 66) by (destruct c; split; vm_compute; discriminate). lia. }
    assert (UN : ellipticMarshal c x y <> []) by discriminate. set (pub := ellipticMarshal c x y) in *. clearbody pub.
    destruct (curve_written c) as (octets & w & MC & E).
    unfold marshal, tyEcPrivate. rewrite makeField_struct, !makeFields_cons. change (makeField X TyInt noParams (VInt 1)) with (Some (appendTagAndLength (hd 0 2 1 false) ++ [x01])).
    assert (makeField X TyBytes noParams (VBytes padded) = Some (appendTagAndLength (hd 0 4 (zlen padded) false) ++ padded)) as -> by (destruct padded; reflexivity).
    assert (exists o, makeField X TyOid (pExplicitTag 0) (VOid (oidFromNamedCurve c)) = Some o /\ zlen o < 100) as (o & -> & LO) by (destruct c; (eexists; split; [reflexivity | reflexivity])).
    assert (exists p, makeField X TyBits (pExplicitTag 1) (VBits pub 0) = Some p /\ zlen p < 1000) as (p & -> & LP).
    { destruct pub as [|z pub']; [now contradiction UN|]. set (q := z :: pub') in *. exists (wrapTags (pExplicitTag 1) 3 false (encodeBitString q 0)). split; [reflexivity|].
      assert (LB : zlen (encodeBitString q 0) < 300) by (unfold encodeBitString; rewrite zlen_cons; lia). generalize dependent (encodeBitString q 0). intros body LB. unfold wrapTags. cbn [fp_tag fp_explicit pExplicitTag fp_application fp_private].
      cbv zeta. set (inner := appendTagAndLength _ ++ body). assert (LI : zlen inner < 500). { unfold inner. rewrite zlen_app. pose proof (head_small 0 3 false body ltac:(lia) ltac:(lia)) as HS. unfold hd in HS. change ClassUniversal with 0. lia. }
      rewrite zlen_app. pose proof (head_small 2 1 true inner ltac:(lia) ltac:(lia)) as HS. unfold hd in HS. change ClassContextSpecific with 2. lia. }
    change (makeFields X FNil []) with (Some ([] : bytes)). cbv iota. eexists. split; [reflexivity|].
    set (body := (appendTagAndLength (hd 0 2 1 false) ++ [x01]) ++ _). assert (LB : zlen body < 2000).
    { unfold body. rewrite !zlen_app. pose proof (head_small 0 4 false padded ltac:(lia) ltac:(lia)). pose proof (head_small 0 2 false [x01] ltac:(lia) ltac:(reflexivity)) as H2. change (zlen [x01]) with 1 in *. change (zlen (@nil byte)) with 0. lia. }
    rewrite zlen_app. pose proof (head_small 0 16 true body ltac:(lia) ltac:(lia)). lia.
  Qed.
End Ec.
