(** Certificate extensions, written and read (C117). *)
From Coq Require Import Lia ZifyBool.
From Verif.Model Require Import Bytes Env Asn1 GoTime GoUtf8 Pkcs7 X509 CertExt.
From Verif.Spec Require Import Ber Asn1 Asn1Value Pkcs7 Text Time Asn1Der Asn1Read RoundTrip X509 CertExt.
From Verif.Proofs Require Import BytesFacts BerFacts Asn1Codec Asn1Header Asn1Value Asn1Decode DerFacts DerSize Asn1DerFacts Asn1ReadFacts RoundTripFacts Pkcs7Facts X509Facts X509Honest X509Ext Pkcs7SignFacts.

(** ** The same verdict as Model/X509.v *)
Section Verdict.
  Variable K : xenv.
  Notation X := (k_text K).
  Definition some3 (x : list bytes * list bytes * list bytes) : bool := match x with ([], [], []) => false | _ => true end.
  Lemma some3_app_d d e i b : some3 (d ++ [b], e, i) = true.
  Proof. destruct d; reflexivity. Qed.
  Lemma some3_app_e d e i b : some3 (d, e ++ [b], i) = true.
  Proof. destruct d, e; reflexivity. Qed.
  Lemma some3_app_i d e i b : some3 (d, e, i ++ [b]) = true.
  Proof. destruct d, e, i; reflexivity. Qed.
  Lemma san_verdict : forall fuel d e i rest, sanLoop K fuel (some3 (d, e, i)) rest = option_map some3 (sanValues K fuel d e i rest).
  Proof.
    induction fuel as [|fuel IH]; intros d e i [|x rest]; try reflexivity. cbn [sanLoop sanValues].
    destruct (unmarshal X TyRaw (x :: rest)) as [[| class tag compound b f | | | | | | | | | |] [r|]]; try reflexivity.
    destruct (tag =? 1); cbn [orb]; [rewrite <- IH, some3_app_e; reflexivity|]. destruct (tag =? 2); [rewrite <- IH, some3_app_d; reflexivity|].
    destruct (tag =? 7); [|apply IH]. destruct ((zlen b =? 4) || (zlen b =? 16)); [rewrite <- IH, some3_app_i; reflexivity | reflexivity].
  Qed.
  Lemma parse_san_verdict v : parseSANExtension K v = option_map some3 (parseSANs K v).
  Proof.
    unfold parseSANExtension, parseSANs. destruct (unmarshalAll K TyRaw v) as [[| class tag compound b f | | | | | | | | | |]|]; try reflexivity.
    destruct (negb compound || negb (tag =? 16) || negb (class =? 0)); [reflexivity|]. change false with (some3 ([], [], [])). apply san_verdict.
  Qed.
  Lemma names_verdict crit l : (negb crit || forallb (fun s => match field 0 s with VString [] => false | _ => true end) l) = match getDNSNames crit l with Some _ => true | None => false end.
  Proof.
    induction l as [|s l IH]; [now rewrite orb_true_r|]. cbn [forallb getDNSNames].
    destruct (field 0 s) as [| | | | | | | |[|x n]| | |]; try (cbn [andb]; rewrite IH; destruct (getDNSNames crit l); reflexivity).
    destruct crit; [reflexivity|]. cbn [negb orb] in *. exact IH.
  Qed.
  Lemma points_verdict l : forallb (fun dp => match rawBytes (field 0 (field 0 dp)) with [] => true | b => match unmarshal X TyRaw b with (_, Some _) => true | _ => false end end) l =
    match crlNames K l with Some _ => true | None => false end.
  Proof.
    induction l as [|dp l IH]; [reflexivity|]. cbn [forallb crlNames]. destruct (rawBytes (field 0 (field 0 dp))) as [|x b]; [exact IH|].
    destruct (unmarshal X TyRaw (x :: b)) as [n [r|]]; [|reflexivity]. cbn [andb]. rewrite IH. destruct (crlNames K l); reflexivity.
  Qed.
  Lemma known_verdict x crit v c : parseKnown K x crit v = option_map snd (knownExt K x crit v c).
  Proof.
    unfold parseKnown, knownExt, decodable.
    destruct (x =? 15); [destruct (unmarshalAll K TyBits v); reflexivity|]. destruct (x =? 19); [destruct (unmarshalAll K tyBasicConstraints v); reflexivity|].
    destruct (x =? 17). { rewrite parse_san_verdict. destruct (parseSANs K v) as [[[d e] i]|]; [|reflexivity]. cbn [option_map snd some3]. destruct d, e, i; reflexivity. }
    destruct (x =? 30). { destruct (unmarshalAll K tyNameConstraints v) as [w|]; [|reflexivity]. unfold subtreesOk. rewrite !names_verdict.
      destruct (getDNSNames crit (asSlice (field 0 w))), (getDNSNames crit (asSlice (field 1 w))); reflexivity. }
    destruct (x =? 31). { destruct (unmarshalAll K tyDistributionPoints v) as [w|]; [|reflexivity]. unfold distributionPointsOk. rewrite points_verdict. destruct (crlNames K (asSlice w)); reflexivity. }
    destruct (x =? 35); [destruct (unmarshalAll K tyAuthKeyId v); reflexivity|]. destruct (x =? 37); [destruct (unmarshalAll K (TySlice false TyOid) v); reflexivity|].
    destruct (x =? 14); [destruct (unmarshalAll K TyBytes v); reflexivity|]. destruct (x =? 32); [destruct (unmarshalAll K tyPolicies v); reflexivity|]. reflexivity.
  Qed.
  Lemma one_verdict id crit v c : parseExtension K id crit v = option_map snd (oneExt K id crit v c).
  Proof.
    unfold oneExt. destruct (extension_cases id) as [[x ->] | [-> | [N1 N2]]].
    - rewrite parse_known. exact (known_verdict x crit v c).
    - rewrite parse_aia. unfold decodable. change (oidEqual id_aia oidAia) with true. cbv zeta iota beta. cbn [id_aia]. destruct (unmarshalAll K tyAia v); reflexivity.
    - rewrite parse_other by assumption. assert (E : oidEqual id oidAia = false) by (apply oidEqual_neq; exact N2). rewrite E. cbv zeta.
      destruct id as [|a [|b [|d [|x [|y t]]]]]; try reflexivity. destruct ((a =? 2) && (b =? 5) && (d =? 29)) eqn:T; [|reflexivity].
      exfalso. apply N1. exists x. unfold ce. repeat (apply andb_true_iff in T; destruct T as [T ?]). f_equal; [lia | f_equal; [lia | f_equal; lia]].
  Qed.
  Definition some_unhandled (c : certExt) : bool := match xe_unhandled c with [] => false | _ => true end.
  Lemma keep_unhandled id crit v c c' u : oneExt K id crit v c = Some (c', u) -> xe_unhandled c' = xe_unhandled c.
  Proof.
    assert (U : forall l c, xe_unhandled (addUsages l c) = xe_unhandled c).
    { induction l as [|o l IH]; intros c0; [reflexivity|]. unfold addUsages in *. cbn [fold_left]. rewrite IH. destruct (extKeyUsageFromOID o); reflexivity. }
    assert (A : forall l c, xe_unhandled (addAccess l c) = xe_unhandled c).
    { induction l as [|o l IH]; intros c0; [reflexivity|]. unfold addAccess in *. cbn [fold_left]. rewrite IH. repeat (match goal with |- context [if ?b then _ else _] => destruct b end; try reflexivity). }
    assert (O : forall x, (if oidEqual id oidAia then match unmarshalAll K tyAia v with Some w => Some (addAccess (asSlice w) c, false) | None => None end else Some (c, true)) = Some x -> xe_unhandled (fst x) = xe_unhandled c).
    { intros [x y] H. destruct (oidEqual id oidAia); [destruct (unmarshalAll K tyAia v); [|discriminate]|]; injection H as <- _; [apply A | reflexivity]. }
    assert (KN : forall x y, knownExt K x crit v c = Some y -> xe_unhandled (fst y) = xe_unhandled c).
    { intros x [y z]. unfold knownExt. repeat match goal with |- (if ?b then _ else _) = _ -> _ => destruct b end;
        repeat match goal with |- (match ?m with _ => _ end) = Some _ -> _ => destruct m; try discriminate end; intros H; injection H as <- _; try reflexivity; apply U. }
    unfold oneExt. intros H. destruct id as [|a [|b [|d [|x [|y t]]]]]; try (apply (O (c', u)); exact H).
    destruct ((a =? 2) && (b =? 5) && (d =? 29)); [apply (KN x (c', u)) | apply (O (c', u))]; exact H.
  Qed.
  Lemma verdict : forall l c, option_map (orb (some_unhandled c)) (parseExtensions K l) = option_map some_unhandled (certExtensions K l c).
  Proof.
    induction l as [|e l IH]; intros c; [cbn; now rewrite orb_false_r|]. cbn [parseExtensions certExtensions].
    change (match field 1 e with VBool b => b | _ => false end) with (asBool (field 1 e)).
    rewrite (one_verdict _ _ _ c). destruct (oneExt K (asOid (field 0 e)) (asBool (field 1 e)) (asBytes (field 2 e)) c) as [[c' u]|] eqn:E; [|reflexivity].
    cbn [option_map snd]. rewrite <- IH. pose proof (keep_unhandled _ _ _ _ _ _ E) as KU. destruct (parseExtensions K l) as [r|]; [|reflexivity]. cbn [option_map]. f_equal.
    assert (SU : some_unhandled c' = some_unhandled c) by (unfold some_unhandled; now rewrite KU).
    destruct (asBool (field 1 e) && u); [|cbn [orb]; now rewrite SU].
    assert (SN : some_unhandled (set_unhandled (xe_unhandled c' ++ [asOid (field 0 e)]) c') = true) by (unfold some_unhandled; cbn [set_unhandled xe_unhandled]; destruct (xe_unhandled c'); reflexivity).
    rewrite SN. cbn [orb]. now rewrite orb_true_r.
  Qed.
End Verdict.

(** ** Values *)
Lemma plain_two_way p : fp_private p = false -> fp_explicit p = false -> fp_omitEmpty p = false -> two_way p.
Proof. intros H1 H2 H3. split; [congruence|]. split; congruence. Qed.
Lemma begins_element c t k b f r : element c t k b f -> begins (f ++ r) c t k (zlen b) (b ++ r).
Proof. intros (id & len & -> & I & D). exists id, len. split; [now rewrite <- !app_assoc | split; assumption]. Qed.
(** Everything that is never left out and has no condition on its value *)
Definition free (ty : gotype) : bool := match ty with TyOid | TyBytes | TyInt | TyBool | TyBig => true | _ => false end.
Lemma rec_free ty p v after : free ty = true -> two_way p -> ~ left_out ty p v -> recoverable ty p v after.
Proof. intros F T N. destruct ty; try discriminate; cbn [recoverable]; (split; [exact T|]; split; [intros L; contradiction | intros _; exact I]). Qed.
Lemma rec_list elem l after : Forall (fun x => recoverable elem noParams x []) l -> recoverable (TySlice false elem) noParams (VSlice l) after.
Proof.
  intros H. cbn [recoverable]. split; [now apply plain_two_way|]. split; [intros L; exfalso; eapply no_params_kept; exact L|]. intros _.
  induction H; [exact I | split; assumption].
Qed.
Lemma rec_list_tag t elem l after : Forall (fun x => recoverable elem noParams x []) l -> recoverable (TySlice false elem) (pOptionalTag t) (VSlice l) after.
Proof.
  intros H. cbn [recoverable]. split; [now apply plain_two_way|]. split; [intros [[L _] | [_ [(d & L & _) | (_ & L)]]]; discriminate L|]. intros _.
  induction H; [exact I | split; assumption].
Qed.
Lemma rec_struct fs vs after : recoverable_fields fs vs -> recoverable (TyStruct false fs) noParams (VStruct [] vs) after.
Proof. intros H. cbn [recoverable]. split; [now apply plain_two_way|]. split; [intros L; exfalso; eapply no_params_kept; exact L|]. intros _. split; [reflexivity | exact H]. Qed.
Lemma go_list elem p l : tags_fit p -> Forall (go_value elem noParams) l -> go_value (TySlice false elem) p (VSlice l).
Proof. intros T H. cbn [go_value]. split; [exact T|]. induction H; [exact I | split; assumption]. Qed.
Lemma tags_plain p : fp_stringType p = 0 -> fp_tag p = None -> tags_fit p.
Proof. intros H1 H2. unfold tags_fit. rewrite H1, H2. unfold max_int32. split; [lia|]. split; [lia | congruence]. Qed.
Lemma tags_small p n : (fp_stringType p = 0 \/ fp_stringType p = 22) -> fp_tag p = Some n -> 0 <= n < 10 -> tags_fit p.
Proof. intros H1 H2 H3. unfold tags_fit. rewrite H2. unfold max_int32. split; [lia|]. split; [lia|]. intros m E. injection E as <-. lia. Qed.

Section Values.
  Variable K : xenv.
  Hypothesis KX : k_text K = goText.
  Lemma value_read ty v b : go_value ty noParams v -> well_described ty noParams -> recoverable ty noParams v [] -> marshal (k_text K) ty v = Some b -> zlen b < 2 ^ 31 ->
    exists v', unmarshalAll K ty b = Some v' /\ same_value ty v v'.
  Proof.
    intros G W R M L. rewrite KX in M. unfold marshal in M. apply (proj1 makeField_der) in M; [|exact G | exact L].
    destruct (proj1 round_trip ty noParams v b [] G W L M R) as (v' & H & S). exists v'. split; [|exact S].
    apply unmarshalAll_some. rewrite KX. rewrite app_nil_r in H. now apply (proj1 read_iff).
  Qed.

  Lemma same_oid o v' : same_value TyOid (VOid o) v' -> asOid v' = o.
  Proof. cbn [same_value]. intros [-> | [E E']]; [reflexivity|]. destruct E as [E | [E | [E | E]]]; try discriminate. injection E as ->. destruct E' as [-> | [-> | [-> | ->]]]; reflexivity. Qed.
  Lemma same_bytes o v' : same_value TyBytes (VBytes o) v' -> asBytes v' = o.
  Proof. cbn [same_value]. intros [-> | [E E']]; [reflexivity|]. destruct E as [E | [E | [E | E]]]; try discriminate. injection E as ->. destruct E' as [-> | [-> | [-> | ->]]]; reflexivity. Qed.
  Lemma same_slice elem l v' : same_value (TySlice false elem) (VSlice l) v' -> Forall2 (same_value elem) l (asSlice v').
  Proof.
    intros H. destruct v' as [| | | | | | | | |l'| |]; try (destruct l; cbn [same_value] in H; destruct H as [H | [[H | [H | [H | H]]] H']]; try discriminate; [constructor | destruct H' as [H' | [H' | [H' | H']]]; try discriminate]; fail).
    all: try (cbn [same_value] in H; destruct H as [H | [[H | [H | [H | H]]] H']]; try discriminate; injection H as ->; cbn [asSlice]; constructor).
    apply same_list in H. exact H.
  Qed.

  Lemma read_ski s b : marshal (k_text K) TyBytes (VBytes s) = Some b -> zlen b < 2 ^ 31 -> exists v, unmarshalAll K TyBytes b = Some v /\ asBytes v = s.
  Proof.
    intros M L. destruct (value_read TyBytes (VBytes s) b) as (v & U & S); try assumption.
    - cbn [go_value]. split; [now apply tags_plain | exact I].
    - cbn. split; [discriminate | exact I].
    - apply rec_free; [reflexivity | now apply plain_two_way | apply no_params_kept].
    - exists v. split; [exact U | now apply same_bytes].
  Qed.
  Lemma go_oid o : oid_fits o -> go_value TyOid noParams (VOid o).
  Proof. intros [H1 H2]. cbn [go_value]. split; [now apply tags_plain | split; assumption]. Qed.
  Lemma rec_oid o : recoverable TyOid noParams (VOid o) [].
  Proof. apply rec_free; [reflexivity | now apply plain_two_way | apply no_params_kept]. Qed.
  Lemma read_oids l b : Forall oid_fits l -> marshal (k_text K) (TySlice false TyOid) (VSlice (map VOid l)) = Some b -> zlen b < 2 ^ 31 ->
    exists v, unmarshalAll K (TySlice false TyOid) b = Some v /\ map asOid (asSlice v) = l.
  Proof.
    intros F M L. destruct (value_read (TySlice false TyOid) (VSlice (map VOid l)) b) as (v & U & S); try assumption.
    - apply go_list; [now apply tags_plain|]. apply Forall_map. eapply Forall_impl; [|exact F]. intros o. apply go_oid.
    - cbn. intuition discriminate.
    - apply rec_list, Forall_map. apply Forall_forall. intros o _. apply rec_oid.
    - exists v. split; [exact U|]. apply same_slice in S. clear - S. revert S. generalize (asSlice v). induction l as [|o l IH]; intros l' S; inversion S; subst; [reflexivity|].
      cbn [map]. f_equal; [now apply same_oid | now apply IH].
  Qed.
  Lemma same_struct fs vs v' : same_value (TyStruct false fs) (VStruct [] vs) v' -> exists raw vs', v' = VStruct raw vs' /\ same_fields fs vs vs'.
  Proof. destruct v'; try (cbn [same_value]; intros [H | [[H | [H | [H | H]]] _]]; discriminate). intros H. eauto. Qed.
  Lemma read_policies l b : Forall oid_fits l -> marshal (k_text K) tyPolicies (VSlice (map (fun p => VStruct [] [VOid p]) l)) = Some b -> zlen b < 2 ^ 31 ->
    exists v, unmarshalAll K tyPolicies b = Some v /\ map (fun p => asOid (field 0 p)) (asSlice v) = l.
  Proof.
    intros F M L. destruct (value_read tyPolicies (VSlice (map (fun p => VStruct [] [VOid p]) l)) b) as (v & U & S); try assumption.
    - apply go_list; [now apply tags_plain|]. apply Forall_map. eapply Forall_impl; [|exact F]. intros o H. cbn [go_value]. split; [now apply tags_plain|]. split; [reflexivity|].
      split; [now apply go_oid | exact I].
    - cbn. intuition discriminate.
    - apply rec_list, Forall_map. apply Forall_forall. intros o _. apply rec_struct. split; [|exact I]. intros after _ _. apply element_any_after, rec_oid.
    - exists v. split; [exact U|]. apply same_slice in S. clear - S. revert S. generalize (asSlice v). induction l as [|o l IH]; intros l' S; inversion S as [|? x ? l'' Hx Hl]; subst; [reflexivity|].
      cbn [map]. f_equal; [|now apply IH]. apply same_struct in Hx. destruct Hx as (raw & vs & -> & Hx). destruct vs as [|x vs]; [destruct Hx|]. destruct Hx as [Hx _]. now apply same_oid.
  Qed.
  Lemma read_aki s b : s <> [] -> marshal (k_text K) tyAuthKeyId (VStruct [] [VBytes s]) = Some b -> zlen b < 2 ^ 31 -> exists v, unmarshalAll K tyAuthKeyId b = Some v /\ asBytes (field 0 v) = s.
  Proof.
    intros N M L. destruct (value_read tyAuthKeyId (VStruct [] [VBytes s]) b) as (v & U & S); try assumption.
    - cbn [go_value]. split; [now apply tags_plain|]. split; [reflexivity|]. split; [split; [|exact I]; now apply (tags_small _ 0); [left | |lia] | exact I].
    - cbn. intuition discriminate.
    - apply rec_struct. split; [|exact I]. intros after _ _. apply rec_free; [reflexivity | now apply plain_two_way|]. intros [[C _] | [_ [(d & C & _) | (_ & C)]]]; discriminate C.
    - exists v. split; [exact U|]. apply same_struct in S. destruct S as (raw & vs & -> & S). destruct vs as [|x vs]; [destruct S|]. destruct S as [S _]. now apply same_bytes.
  Qed.
  Lemma read_basic ca n b : - 2 ^ 63 <= n < 2 ^ 63 -> marshal (k_text K) tyBasicConstraints (VStruct [] [VBool ca; VInt n]) = Some b -> zlen b < 2 ^ 31 ->
    exists v, unmarshalAll K tyBasicConstraints b = Some v /\ asBool (field 0 v) = ca /\ asInt (field 1 v) = n.
  Proof.
    intros N M L. destruct (value_read tyBasicConstraints (VStruct [] [VBool ca; VInt n]) b) as (v & U & S); try assumption.
    - cbn [go_value]. split; [now apply tags_plain|]. split; [reflexivity|]. cbn [go_fields]. split; [split; [now apply tags_plain | exact I]|]. split; [split; [now apply tags_plain | exact N] | exact I].
    - cbn. intuition discriminate.
    - apply rec_struct. cbn [recoverable_fields]. split; [|split; [|exact I]].
      + intros after D LA. cbn [recoverable]. split; [now apply plain_two_way|]. split; [|intros _; exact I]. intros _.
        cbn [der_fields] in D. destruct D as (a & c & -> & Da & ->). rewrite app_nil_r in *. cbn [der_of] in Da.
        destruct Da as [[_ ->] | [_ (_ & octets & _ & T)]]; [now left|]. right. split; [discriminate|].
        unfold tagged in T. cbn [fp_tag pOptionalDefault] in T. pose proof (element_small _ _ _ _ _ T LA) as E. apply (begins_element _ _ _ _ _ []) in E. rewrite !app_nil_r in E.
        exists 0, 2, false, (zlen octets), octets. split; [exact E|]. cbn [fp_explicit pOptional]. intros (kind & [C | (_ & C & _)]); discriminate C.
      + intros after D _. cbn [der_fields] in D. subst after. cbn [recoverable]. split; [now apply plain_two_way|]. split; [intros _; now left | intros _; exact I].
    - exists v. split; [exact U|]. apply same_struct in S. destruct S as (raw & vs & -> & S). destruct vs as [|x [|y vs]]; [destruct S | destruct S as [_ []] |]. destruct S as (Sx & Sy & _).
      cbn [same_value] in Sx, Sy. cbn [field nth]. destruct Sx as [-> | [[E | [E | [E | E]]] _]]; try discriminate. destruct Sy as [-> | [[E | [E | [E | E]]] _]]; try discriminate. split; reflexivity.
  Qed.
  (** Name constraints *)
  Definition tySub : gotype := TyStruct false (FCons (pIa5Tag 2) TyString FNil).
  Definition subVal (n : bytes) : goval := VStruct [] [VString n].
  Lemma go_sub t l : 0 <= t < 10 -> go_value tySubtrees (pOptionalTag t) (subtreesVal l).
  Proof.
    intros T. apply go_list; [apply (tags_small _ t); [now left | reflexivity | exact T]|]. apply Forall_map, Forall_forall. intros n _. cbn [go_value]. split; [now apply tags_plain|]. split; [reflexivity|].
    cbn [go_fields]. split; [|exact I]. split; [|exact I]. apply (tags_small _ 2); [now right | reflexivity | lia].
  Qed.
  Lemma rec_sub t l after : Forall (fun n => n <> []) l -> recoverable tySubtrees (pOptionalTag t) (subtreesVal l) after.
  Proof.
    intros F. apply rec_list_tag, Forall_map. eapply Forall_impl; [|exact F]. intros n N. apply rec_struct. split; [|exact I]. intros a _ _. cbn [recoverable].
    split; [now apply plain_two_way|]. split.
    - intros [[C _] | [_ [(d & C & _) | (_ & C)]]]; try discriminate C. exfalso. apply N. now injection C.
    - intros _. split; [cbn; tauto | intros C; discriminate C].
  Qed.
  Lemma sub_names crit l : Forall (fun n => n <> []) l -> forall l', Forall2 (same_value tySub) (map subVal l) l' -> getDNSNames crit l' = Some l.
  Proof.
    induction 1 as [|n l N F IH]; intros l' S; inversion S as [|? x ? l'' Hx Hl]; subst; [reflexivity|].
    apply same_struct in Hx. destruct Hx as (raw & vs & -> & Hx). destruct vs as [|x vs]; [destruct Hx|]. destruct Hx as [Hx _].
    cbn [same_value] in Hx. destruct Hx as [-> | [[E | [E | [E | E]]] _]]; try discriminate. cbn [getDNSNames field nth]. rewrite (IH _ Hl).
    destruct n as [|y n]; [congruence | reflexivity].
  Qed.
  Lemma read_constraints crit p e b : Forall (fun n => n <> []) p -> Forall (fun n => n <> []) e ->
    marshal (k_text K) tyNameConstraints (VStruct [] [subtreesVal p; subtreesVal e]) = Some b -> zlen b < 2 ^ 31 ->
    exists v, unmarshalAll K tyNameConstraints b = Some v /\ getDNSNames crit (asSlice (field 0 v)) = Some p /\ getDNSNames crit (asSlice (field 1 v)) = Some e.
  Proof.
    intros Fp Fe M L. destruct (value_read tyNameConstraints (VStruct [] [subtreesVal p; subtreesVal e]) b) as (v & U & S); try assumption.
    - cbn [go_value tyNameConstraints]. split; [now apply tags_plain|]. split; [reflexivity|]. cbn [go_fields]. split; [apply go_sub; lia|]. split; [apply go_sub; lia | exact I].
    - cbn. intuition discriminate.
    - apply rec_struct. cbn [recoverable_fields]. split; [intros; now apply rec_sub|]. split; [intros; now apply rec_sub | exact I].
    - exists v. split; [exact U|]. apply same_struct in S. destruct S as (raw & vs & -> & S). destruct vs as [|x [|y vs]]; [destruct S | destruct S as [_ []] |]. destruct S as (Sx & Sy & _).
      cbn [field nth]. split; (eapply sub_names; [eassumption|]); apply same_slice; assumption.
  Qed.

  (** Other names: a RawValue that is written is read back. *)
  Lemma other_written t n : 0 <= t < 31 -> marshal (k_text K) TyRaw (otherName t n) = Some (el 2 t false n).
  Proof. intros H. apply write_raw; reflexivity. Qed.
  Lemma other_read t n f : 0 <= t < 31 -> zlen n < 2 ^ 30 -> marshal (k_text K) TyRaw (otherName t n) = Some f -> element 2 t false n f /\ zlen f <= zlen n + 134.
  Proof.
    intros H L. rewrite other_written by exact H. intros E. injection E as <-.
    pose proof (zlen_nonneg n). assert (E : element 2 t false n (el 2 t false n)) by (apply header_element; [lia | unfold max_int32; lia | lia]). split; [exact E|].
    destruct E as (id & len & -> & (_ & I) & D). rewrite !zlen_app.
    assert (zlen id <= 6). { destruct I as [[_ ->] | (b & _ & LB & _ & ->)]; [vm_compute; discriminate | rewrite zlen_cons; lia]. }
    assert (zlen len <= 128). { destruct D as [[_ ->] | (d & LD & -> & _)]; [vm_compute; discriminate | rewrite zlen_cons; lia]. }
    lia.
  Qed.
  Lemma go_other t n : 0 <= t < 31 -> go_value TyRaw noParams (otherName t n).
  Proof. intros H. cbn [go_value otherName]. split; [now apply tags_plain|]. intros _. unfold max_int32. lia. Qed.
  Lemma rec_other t n after : zlen n < 2 ^ 31 -> recoverable TyRaw noParams (otherName t n) after.
  Proof.
    intros L. cbn [recoverable otherName]. split; [now apply plain_two_way|]. split; [intros C; exfalso; eapply no_params_kept; exact C|]. intros _.
    split; [exact L|]. split; [now left|]. intros m C. discriminate C.
  Qed.
  Lemma same_other t n v : same_value TyRaw (otherName t n) v -> rawTag v = t /\ rawBytes v = n.
  Proof. destruct v; cbn [same_value otherName]; try (intros [H | [[H | [H | [H | H]]] _]]; discriminate). intros (_ & -> & _ & -> & _). split; reflexivity. Qed.

  (** Authority information access *)
  Lemma access_go o n : oid_fits o -> go_value (TyStruct false (FCons noParams TyOid (FCons noParams TyRaw FNil))) noParams (accessVal o n).
  Proof. intros F. cbn [go_value]. split; [now apply tags_plain|]. split; [reflexivity|]. cbn [go_fields]. split; [now apply go_oid|]. split; [now apply go_other | exact I]. Qed.
  Lemma access_rec o n : zlen n < 2 ^ 31 -> recoverable (TyStruct false (FCons noParams TyOid (FCons noParams TyRaw FNil))) noParams (accessVal o n) [].
  Proof. intros F. apply rec_struct. cbn [recoverable_fields]. split; [intros; apply element_any_after, rec_oid|]. split; [intros; now apply rec_other | exact I]. Qed.
  Lemma access_same o n v : same_value (TyStruct false (FCons noParams TyOid (FCons noParams TyRaw FNil))) (accessVal o n) v ->
    asOid (field 0 v) = o /\ rawTag (field 1 v) = 6 /\ rawBytes (field 1 v) = n.
  Proof.
    intros S. apply same_struct in S. destruct S as (raw & vs & -> & S). destruct vs as [|x [|y vs]]; [destruct S | destruct S as [_ []] |]. destruct S as (Sx & Sy & _).
    cbn [field nth]. apply same_other in Sy. split; [now apply same_oid | exact Sy].
  Qed.
  Lemma access_add (l1 l2 : list bytes) : forall l' c, Forall2 (same_value (TyStruct false (FCons noParams TyOid (FCons noParams TyRaw FNil)))) (map (accessVal oidAiaOcsp) l1 ++ map (accessVal oidAiaIssuers) l2) l' ->
    addAccess l' c = set_aia (xe_ocsp c ++ l1) (xe_issuing c ++ l2) c.
  Proof.
    induction l1 as [|n l1 IH]; cbn [map app].
    - induction l2 as [|n l2 IH]; intros l' c S; inversion S as [|? x ? l'' Hx Hl]; subst.
      + rewrite !app_nil_r. destruct c; reflexivity.
      + unfold addAccess. cbn [fold_left]. fold (addAccess l''). apply access_same in Hx. destruct Hx as (-> & -> & ->).
        change (oidEqual oidAiaIssuers oidAiaOcsp) with false. change (oidEqual oidAiaIssuers oidAiaIssuers) with true. change (6 =? 6) with true. cbn [negb]. cbv iota.
        rewrite (IH l'' _ Hl). cbn [set_aia CertExt.xe_ocsp CertExt.xe_issuing]. rewrite <- ?app_assoc. reflexivity.
    - intros l' c S; inversion S as [|? x ? l'' Hx Hl]; subst. unfold addAccess. cbn [fold_left]. fold (addAccess l''). apply access_same in Hx. destruct Hx as (-> & -> & ->).
      change (oidEqual oidAiaOcsp oidAiaOcsp) with true. change (6 =? 6) with true. cbn [negb]. cbv iota.
      rewrite (IH l'' _ Hl). cbn [set_aia CertExt.xe_ocsp CertExt.xe_issuing]. rewrite <- ?app_assoc. reflexivity.
  Qed.
  Lemma oid_fits_dec o : forallb (fun n => (0 <=? n) && (n <=? max_int32)) o = true -> (match o with a :: b :: _ => a * 40 + b <=? max_int32 | _ => true end) = true -> oid_fits o.
  Proof.
    intros H1 H2. split; [apply Forall_forall; intros x Hx; rewrite forallb_forall in H1; specialize (H1 x Hx); apply andb_true_iff in H1; lia|].
    intros a b r ->. cbv iota beta in H2. lia.
  Qed.
  Lemma read_access l1 l2 b c : Forall (fun n => zlen n < 2 ^ 30) (l1 ++ l2) -> marshal (k_text K) tyAia (VSlice (map (accessVal oidAiaOcsp) l1 ++ map (accessVal oidAiaIssuers) l2)) = Some b -> zlen b < 2 ^ 31 ->
    exists v, unmarshalAll K tyAia b = Some v /\ addAccess (asSlice v) c = set_aia (xe_ocsp c ++ l1) (xe_issuing c ++ l2) c.
  Proof.
    intros F M L. apply Forall_app in F. destruct F as [F1 F2].
    destruct (value_read tyAia (VSlice (map (accessVal oidAiaOcsp) l1 ++ map (accessVal oidAiaIssuers) l2)) b) as (v & U & S); try assumption.
    - apply go_list; [now apply tags_plain|]. apply Forall_app. split; apply Forall_map, Forall_forall; intros n _; apply access_go, oid_fits_dec; reflexivity.
    - cbn. intuition discriminate.
    - apply rec_list, Forall_app. split; apply Forall_map; (eapply Forall_impl; [|eassumption]); intros n N; apply access_rec; cbv beta in N; lia.
    - exists v. split; [exact U|]. apply same_slice in S. now apply access_add.
  Qed.

  (** Subject alternative names *)
  Lemma san_split : forall fuel l fs d e i, (List.length (concat fs) <= fuel)%nat -> Forall2 general_name l fs -> Forall alt_name_ok l -> Forall name_supported l ->
    sanValues K fuel d e i (concat fs) = Some (d ++ map snd (filter (fun n => fst n =? 2) l), e ++ map snd (filter (fun n => fst n =? 1) l), i ++ map snd (filter (fun n => fst n =? 7) l)).
  Proof.
    intros fuel l fs. revert fuel. intros fuel d e i HL F. revert fuel d e i HL. induction F as [|n f l fs (cl & k & HE) F IH]; intros fuel d e i HL A S.
    { cbn. rewrite !app_nil_r. destruct fuel; reflexivity. }
    inversion A as [|? ? A1 A2]; subst. inversion S as [|? ? S1 S2]; subst. cbn [concat] in *.
    pose proof (element_size _ _ _ _ _ HE) as HS. pose proof (zlen_nonneg (snd n)). rewrite app_length in HL.
    destruct fuel as [|fuel]; [unfold zlen in HS; lia|].
    destruct (f ++ concat fs) as [|x rest] eqn:EF. { exfalso. apply app_eq_nil in EF. destruct EF as [-> _]. unfold zlen in HS. cbn in HS. lia. }
    cbn [sanValues]. rewrite <- EF. unfold unmarshal. rewrite (raw_parse (k_text K) noParams _ cl (fst n) k (snd n) f (concat fs) eq_refl eq_refl HE).
    assert (HL' : (List.length (concat fs) <= fuel)%nat) by (unfold zlen in HS; lia).
    cbn [filter]. destruct S1 as [S1 | [S1 | S1]]; rewrite S1 in *; cbn [Z.eqb Pos.eqb map].
    - rewrite IH by assumption. cbn [map]. rewrite <- !app_assoc. reflexivity.
    - rewrite IH by assumption. cbn [map]. rewrite <- !app_assoc. reflexivity.
    - assert ((zlen (snd n) =? 4) || (zlen (snd n) =? 16) = true) as ->. { apply orb_true_iff. destruct (A1 S1) as [HZ|HZ]; [left|right]; apply Z.eqb_eq; exact HZ. }
      rewrite IH by assumption. cbn [map]. rewrite <- !app_assoc. reflexivity.
  Qed.
  Definition short (ip : bytes) : bytes := match ipTo4 ip with Some x => x | None => ip end.
  Lemma short_size ip : zlen ip = 4 \/ zlen ip = 16 -> zlen (short ip) = 4 \/ zlen (short ip) = 16.
  Proof.
    intros H. unfold short, ipTo4. destruct (Z.eqb_spec (zlen ip) 4) as [E|N]; [now left|]. destruct H as [H|H]; [contradiction|].
    destruct ((zlen ip =? 16) && forallb (fun b => b2z b =? 0) (takeZ 10 ip) && (b2z (nth 10 ip x00) =? 255) && (b2z (nth 11 ip x00) =? 255)); [|now right].
    left. rewrite zlen_dropZ, H. reflexivity.
  Qed.
  Lemma filter_map {A} (t s : Z) (g : A -> bytes) l : map snd (filter (fun n => fst n =? t) (map (fun x => (s, g x)) l)) = if s =? t then map g l else [].
  Proof. induction l as [|x l IH]; [now destruct (s =? t)|]. cbn [map filter fst]. destruct (s =? t); cbn [map snd]; rewrite IH; reflexivity. Qed.
  Lemma read_sans dns emails ips b : Forall (fun n => zlen n < 2 ^ 30) (dns ++ emails) -> Forall (fun ip => zlen ip = 4 \/ zlen ip = 16) ips ->
    marshalSANs K dns emails ips = Some b -> zlen b < 2 ^ 31 -> parseSANs K b = Some (dns, emails, map short ips).
  Proof.
    intros F IP M L. apply Forall_app in F. destruct F as [F1 F2]. unfold marshalSANs in M. fold short in M.
    set (l := map (fun n => (2, n)) dns ++ map (fun n => (1, n)) emails ++ map (fun ip => (7, short ip)) ips).
    assert (EQ : map (otherName 2) dns ++ map (otherName 1) emails ++ map (fun ip => otherName 7 (short ip)) ips = map (fun x => otherName (fst x) (snd x)) l).
    { unfold l. rewrite !map_app, !map_map. reflexivity. }
    change (fun ip => otherName 7 match ipTo4 ip with Some x => x | None => ip end) with (fun ip => otherName 7 (short ip)) in M. rewrite EQ in M. clear EQ.
    assert (FL : Forall (fun x => 0 <= fst x < 31 /\ zlen (snd x) < 2 ^ 30 /\ alt_name_ok x /\ name_supported x) l).
    { unfold l. rewrite !Forall_app. split; [|split]; apply Forall_map.
      - eapply Forall_impl; [|exact F1]. intros n N. cbn [fst snd]. split; [lia|]. split; [exact N|]. split; [discriminate|]. right; now left.
      - eapply Forall_impl; [|exact F2]. intros n N. cbn [fst snd]. split; [lia|]. split; [exact N|]. split; [discriminate|]. now left.
      - eapply Forall_impl; [|exact IP]. intros n N. cbn [fst snd]. pose proof (short_size n N). split; [lia|]. split; [lia|]. split; [intros _; cbn [snd]; assumption|]. right; now right. }
    rewrite KX in M. unfold marshal in M. apply (proj1 makeField_der) in M; [| |exact L].
    2: { apply go_list; [now apply tags_plain|]. apply Forall_map. eapply Forall_impl; [|exact FL]. intros x (HH & _). now apply go_other. }
    cbn [der_of] in M. destruct M as [[LO _] | [_ (_ & _ & parts & HE & T)]]; [exfalso; eapply no_params_kept; exact LO|]. apply (der_slice TyRaw (map (fun x => otherName (fst x) (snd x)) l) parts) in HE.
    unfold tagged in T. cbn [fp_tag noParams orb fp_set] in T. apply element_small in T; [|exact L].
    assert (G : Forall2 general_name l parts).
    { clear - HE FL. revert parts HE. induction FL as [|x l (H1 & H2 & _) FL IH]; intros parts HE; inversion HE as [|? f ? parts' Hf Hp]; subst; constructor; [|now apply IH].
      cbn [der_of otherName] in Hf. destruct Hf as [[LO _] | [_ [[N0 _] | [_ D]]]]; [exfalso; eapply no_params_kept; exact LO | congruence|].
      exists 2, false. apply der_element_element; [exact D | lia]. }
    unfold parseSANs. assert (unmarshalAll K TyRaw b = Some (VRaw 0 16 true (concat parts) b)) as ->.
    { apply unmarshalAll_some. unfold unmarshal. rewrite <- (app_nil_r b) at 1. apply raw_parse; [reflexivity|reflexivity|exact T]. }
    change (negb true || negb (16 =? 16) || negb (0 =? 0)) with false. cbv iota.
    assert (Forall alt_name_ok l) as FL1 by (eapply Forall_impl; [|exact FL]; intros x (_ & _ & ? & _); assumption).
    assert (Forall name_supported l) as FL2 by (eapply Forall_impl; [|exact FL]; intros x (_ & _ & _ & ?); assumption).
    rewrite (san_split _ l parts) by first [exact G | exact FL1 | exact FL2 | lia].
    cbn [app]. unfold l. rewrite !filter_app, !map_app, !filter_map. cbn [Z.eqb Pos.eqb]. cbn [app]. rewrite !app_nil_r, !map_id. reflexivity.
  Qed.

  (** Distribution points *)
  Definition tyPoint : gotype := TyStruct false (FCons (pOptionalTag 0) (TyStruct false (FCons (pOptionalTag 0) TyRaw (FCons (pOptionalTag 1) tyRdnSequence FNil)))
    (FCons (pOptionalTag 1) TyBits (FCons (pOptionalTag 2) TyRaw FNil))).
  Lemma tags_n n : 0 <= n < 10 -> tags_fit (pOptionalTag n).
  Proof. intros H. apply (tags_small _ n); [now left | reflexivity | exact H]. Qed.
  Lemma zero_out ty t v : v = zeroVal ty -> left_out ty (pOptionalTag t) v.
  Proof. intros ->. right. split; [reflexivity|]. right. split; reflexivity. Qed.
  Lemma out_empty ty t v full : left_out ty (pOptionalTag t) v -> der_of ty (pOptionalTag t) v full -> full = [].
  Proof. intros LO D. destruct ty; cbn [der_of] in D; destruct D as [[_ D] | [N _]]; try exact D; contradiction. Qed.
  Lemma read_points l b : Forall (fun n => zlen n < 2 ^ 30) l -> marshal (k_text K) tyDistributionPoints (VSlice (map (pointVal K) l)) = Some b -> zlen b < 2 ^ 31 ->
    exists v, unmarshalAll K tyDistributionPoints b = Some v /\ crlNames K (asSlice v) = Some l.
  Proof.
    intros F M L. destruct (value_read tyDistributionPoints (VSlice (map (pointVal K) l)) b) as (v & U & S); try assumption.
    - apply go_list; [now apply tags_plain|]. apply Forall_map, Forall_forall. intros n _. unfold pointVal. cbn [go_value]. split; [now apply tags_plain|]. split; [reflexivity|].
      cbn [go_fields go_value]. split; [split; [apply tags_n; lia|]; split; [reflexivity|]|].
      + split; [split; [apply tags_n; lia | intros _; unfold max_int32; lia]|]. split; [split; [apply tags_n; lia | exact I] | exact I].
      + split; [split; [apply tags_n; lia | lia]|]. split; [split; [apply tags_n; lia | intros _; unfold max_int32; lia] | exact I].
    - cbn. intuition discriminate.
    - apply (rec_list tyPoint), Forall_map. eapply Forall_impl; [|exact F]. intros n N. cbv beta in N. unfold pointVal. rewrite other_written by lia.
      destruct (other_read 6 n _ ltac:(lia) N (other_written 6 n ltac:(lia))) as [_ SZ].
      apply rec_struct. cbn [recoverable_fields]. split; [|split; [|split; [|exact I]]].
      + intros after _ _. cbn [recoverable]. split; [now apply plain_two_way|]. split; [intros [[C _] | [_ [(d & C & _) | (_ & C)]]]; discriminate C|]. intros _. split; [reflexivity|].
        cbn [recoverable_fields]. split; [|split; [|exact I]].
        * intros a _ _. cbn [recoverable]. split; [now apply plain_two_way|]. split; [intros [[C _] | [_ [(d & C & _) | (_ & C)]]]; discriminate C|]. intros _.
          split; [lia|]. split; [now left|]. intros m C. injection C as <-. cbn [fp_explicit pOptionalTag]. split; reflexivity.
        * intros a D _. cbn [der_fields] in D. subst a. cbn [recoverable tyRdnSequence]. split; [now apply plain_two_way|]. split; [intros _; now left | intros _; exact I].
      + intros a D _. cbn [der_fields] in D. destruct D as (a1 & a2 & -> & D & ->). apply out_empty in D; [|now apply zero_out]. subst a1.
        cbn [recoverable]. split; [now apply plain_two_way|]. split; [intros _; now left|]. intros C. exfalso. apply C. now apply zero_out.
      + intros a D _. cbn [der_fields] in D. subst a. cbn [recoverable]. split; [now apply plain_two_way|]. split; [intros _; now left|]. intros C. exfalso. apply C. now apply zero_out.
    - exists v. split; [exact U|]. apply (same_slice tyPoint) in S. clear U M L. revert S. generalize (asSlice v). induction F as [|n l N F IH]; intros l' S; inversion S as [|? x ? l'' Hx Hl]; subst; [reflexivity|].
      apply same_struct in Hx. destruct Hx as (raw & vs & -> & Hx). destruct vs as [|x vs]; [destruct Hx|]. destruct Hx as [Hx _].
      apply same_struct in Hx. destruct Hx as (raw' & vs' & -> & Hx). destruct vs' as [|y vs']; [destruct Hx|]. destruct Hx as [Hx _].
      rewrite other_written in Hx by lia. destruct (other_read 6 n _ ltac:(lia) N (other_written 6 n ltac:(lia))) as [E _].
      assert (rawBytes y = el 2 6 false n) as RB by (destruct y; cbn [same_value] in Hx; try (destruct Hx as [H | [[H | [H | [H | H]]] _]]; discriminate); destruct Hx as (_ & _ & _ & -> & _); reflexivity).
      cbn [crlNames field nth]. rewrite RB. destruct (el 2 6 false n) as [|z e] eqn:EE; [exfalso; pose proof (element_size _ _ _ _ _ E) as HS; pose proof (zlen_nonneg n); cbn in HS; lia|]. rewrite <- EE in *.
      unfold unmarshal. rewrite <- (app_nil_r (el 2 6 false n)). rewrite (raw_parse (k_text K) noParams _ 2 6 false n _ [] eq_refl eq_refl E).
      rewrite (IH _ Hl). reflexivity.
  Qed.
End Values.

(** Key usages *)
Lemma usages_numbered us : Forall (fun u => 0 <= u <= 11) us -> exists l, usageOids us = Some l /\ Forall oid_fits l /\
  forall c rest, addUsages (l ++ rest) c = addUsages rest (set_eku (xe_eku c ++ us) (xe_unknownEku c) c).
Proof.
  induction 1 as [|u us H F (l & E & G & A)].
  - exists []. split; [reflexivity|]. split; [constructor|]. intros c rest. cbn [app]. rewrite app_nil_r. destruct c; reflexivity.
  - assert (exists o, oidFromExtKeyUsage u = Some o /\ oid_fits o /\ extKeyUsageFromOID o = Some u) as (o & E1 & E2 & E3).
    { assert (u = 0 \/ u = 1 \/ u = 2 \/ u = 3 \/ u = 4 \/ u = 5 \/ u = 6 \/ u = 7 \/ u = 8 \/ u = 9 \/ u = 10 \/ u = 11) as C by lia.
      repeat (destruct C as [-> | C]; [eexists; split; [reflexivity|]; split; [apply oid_fits_dec; reflexivity | reflexivity]|]). subst u. eexists; split; [reflexivity|]; split; [apply oid_fits_dec; reflexivity | reflexivity]. }
    exists (o :: l). cbn [usageOids]. rewrite E1, E. split; [reflexivity|]. split; [now constructor|]. intros c rest.
    cbn [app]. unfold addUsages at 1. cbn [fold_left]. rewrite E3. fold (addUsages (l ++ rest) (set_eku (xe_eku c ++ [u]) (xe_unknownEku c) c)). rewrite A.
    cbn [xe_eku xe_unknownEku set_eku]. rewrite <- app_assoc. reflexivity.
Qed.
Lemma unknown_usages l : Forall (fun o => ~ In o named_usages) l -> forall c, addUsages l c = set_eku (xe_eku c) (xe_unknownEku c ++ l) c.
Proof.
  induction 1 as [|o l N F IH]; intros c; [cbn; rewrite app_nil_r; destruct c; reflexivity|].
  unfold addUsages. cbn [fold_left]. assert (extKeyUsageFromOID o = None) as ->.
  { assert (H : forall l n, (forall x, In x l -> x <> o) -> ekuFrom o n l = None).
    { clear. induction l as [|x l IH]; intros n H; [reflexivity|]. cbn [ekuFrom]. rewrite oidEqual_neq; [apply IH; intros y Hy; apply H; now right | intros C; apply (H x); [now left | congruence]]. }
    apply H. intros x Hx ->. apply N. clear - Hx. cbn [In extKeyUsageOIDs] in Hx. unfold named_usages. cbn [map In]. tauto. }
  fold (addUsages l (set_eku (xe_eku c) (xe_unknownEku c ++ [o]) c)). rewrite IH. cbn [xe_eku xe_unknownEku set_eku]. rewrite <- app_assoc. reflexivity.
Qed.
Definition usageBits (ku : Z) : bytes :=
  let k0 := reverseBitsInAByte (ku mod 256) in let k1 := reverseBitsInAByte (ku / 256 mod 256) in map z2b (if k1 =? 0 then [k0] else [k0; k1]).
Definition usageLen (ku : Z) : Z :=
  let k0 := reverseBitsInAByte (ku mod 256) in let k1 := reverseBitsInAByte (ku / 256 mod 256) in bitLengthOf (rev (if k1 =? 0 then [k0] else [k0; k1])).
Definition usageFine (ku : Z) : bool :=
  let b := usageBits ku in let n := usageLen ku in let u := 8 * zlen b - n in
  (0 <=? u) && (u <? 8) && (b2z (last b x00) mod 2 ^ u =? 0) && (usageOf b n =? ku) && (0 <=? n) && (0 <? zlen b).
Lemma usage_fine ku : 0 < ku < 512 -> usageFine ku = true.
Proof.
  intros H. assert (A : forallb (fun n => usageFine (Z.of_nat n)) (seq 1 511) = true) by (vm_compute; reflexivity).
  rewrite forallb_forall in A. specialize (A (Z.to_nat ku)). rewrite Z2Nat.id in A by lia. apply A, in_seq. lia.
Qed.
Lemma read_usage K ku b : k_text K = goText -> 0 < ku < 512 -> marshal (k_text K) TyBits (VBits (usageBits ku) (usageLen ku)) = Some b -> zlen b < 2 ^ 31 ->
  exists v, unmarshalAll K TyBits b = Some v /\ match v with VBits b n => usageOf b n | _ => 0 end = ku.
Proof.
  intros KX H M L. pose proof (usage_fine ku H) as UF. unfold usageFine in UF. cbv zeta in UF. repeat (apply andb_true_iff in UF; destruct UF as [UF ?]).
  destruct (value_read K KX TyBits (VBits (usageBits ku) (usageLen ku)) b) as (v & U & S); try assumption.
  - cbn [go_value]. split; [now apply tags_plain | lia].
  - cbn. split; [discriminate | exact I].
  - cbn [recoverable]. split; [now apply plain_two_way|]. split; [intros C; exfalso; eapply no_params_kept; exact C|]. intros _.
    exists (8 * zlen (usageBits ku) - usageLen ku). split; [lia|]. split; [lia|]. split; [|intros _; lia]. intros C. exfalso. rewrite C in *. unfold zlen in *. cbn in *. lia.
  - exists v. split; [exact U|]. cbn [same_value] in S. destruct v; destruct S as [S | [[E | [E | [E | E]]] _]]; try discriminate. injection S as -> ->. lia.
Qed.

(** *** All of them *)
Section All.
  Variable K : xenv.
  Hypothesis KX : k_text K = goText.
  Definition small_value (e : goval) : Prop := zlen (asBytes (field 2 e)) < 2 ^ 31.

  Lemma ext_app l1 l2 c : certExtensions K (l1 ++ l2) c = match certExtensions K l1 c with Some c' => certExtensions K l2 c' | None => None end.
  Proof.
    revert c. induction l1 as [|e l1 IH]; intros c; [reflexivity|]. cbn [app certExtensions]. cbv zeta.
    destruct (oneExt K (asOid (field 0 e)) (asBool (field 1 e)) (asBytes (field 2 e)) c) as [[c' u]|]; [apply IH | reflexivity].
  Qed.
  Lemma ext_next l1 l2 c c' : certExtensions K l1 c = Some c' -> certExtensions K (l1 ++ l2) c = certExtensions K l2 c'.
  Proof. intros H. rewrite ext_app, H. reflexivity. Qed.
  Lemma step x cr m l c f : ext x cr m = Some l -> Forall small_value l -> (forall v, m = Some v -> zlen v < 2 ^ 31 -> knownExt K x cr v c = Some (f, false)) ->
    certExtensions K l c = Some f.
  Proof.
    intros E F H. unfold ext in E. destruct m as [v|]; [|discriminate]. injection E as <-. inversion F as [|? ? F1 _]; subst. unfold small_value in F1. cbn [field nth asBytes] in F1.
    specialize (H v eq_refl F1). cbn [certExtensions]. cbv zeta. cbn [field nth asOid asBool asBytes oneExt]. change ((2 =? 2) && (5 =? 5) && (29 =? 29)) with true. cbv iota. rewrite H, andb_false_r. reflexivity.
  Qed.
  Lemma do_unless b e l c f : unless b e = Some l -> Forall small_value l -> (b = true -> e = Some l -> certExtensions K l c = Some f) -> (b = false -> c = f) -> certExtensions K l c = Some f.
  Proof. intros U F H1 H2. unfold unless in U. destruct b; [now apply H1|]. injection U as <-. cbn. now rewrite H2. Qed.
  Lemma some_false {A} (l : list A) : negb (zlen l =? 0) = false -> l = [].
  Proof. destruct l; [reflexivity|]. unfold zlen. cbn. lia. Qed.
  Lemma andThen_some {A B} (x : option A) (f : A -> option B) r : andThen x f = Some r -> exists a, x = Some a /\ f a = Some r.
  Proof. destruct x as [a|]; [eauto | discriminate]. Qed.

  Definition pathOf (t : certExt) : Z := if (xe_maxPathLen t =? 0) && negb (xe_maxPathLenZero t) then -1 else xe_maxPathLen t.
  Definition constrained (t : certExt) : bool := negb (zlen (xe_permitted t) =? 0) || negb (zlen (xe_excluded t) =? 0).
  Definition whole (t : certExt) (aki : bytes) : certExt :=
    mkExt (xe_keyUsage t) (xe_bcValid t) (xe_bcValid t && xe_isCA t) (if xe_bcValid t then pathOf t else 0) (xe_bcValid t && (pathOf t =? 0)) (xe_ski t) aki
      (xe_ocsp t) (xe_issuing t) (xe_dns t) (xe_emails t) (map short (xe_ips t)) (constrained t && xe_permCritical t) (xe_permitted t) (xe_excluded t) (xe_crl t)
      (xe_policies t) (xe_eku t) (xe_unknownEku t) [].

  Theorem built_read t aki exts : template_ok t -> buildExtensions K t aki = Some exts -> Forall small_value exts -> certExtensions K exts noExt = Some (whole t aki).
  Proof.
    intros [T1 T2 T3 T4 T5 T6 T7 T8 T9] B F. unfold buildExtensions in B. cbv zeta in B.
    apply andThen_some in B as (e1 & B1 & B). apply andThen_some in B as (e2 & B2 & B). apply andThen_some in B as (e3 & B3 & B). apply andThen_some in B as (e4 & B4 & B).
    apply andThen_some in B as (e5 & B5 & B). apply andThen_some in B as (e6 & B6 & B). apply andThen_some in B as (e7 & B7 & B). apply andThen_some in B as (e8 & B8 & B).
    apply andThen_some in B as (e9 & B9 & B). apply andThen_some in B as (e10 & B10 & B). injection B as <-.
    rewrite !Forall_app in F. destruct F as (F1 & F2 & F3 & F4 & F5 & F6 & F7 & F8 & F9 & F10).
    rewrite !Forall_app in T9. destruct T9 as (N1 & N2 & N3 & N4 & N5).
    erewrite ext_next.
    2: { eapply do_unless; [exact B1 | exact F1 | |].
      - intros N E. eapply step; [exact E | exact F1|]. intros v M L. destruct (read_usage K (xe_keyUsage t) v KX ltac:(lia) M L) as (w & U & W).
        unfold knownExt. change (15 =? 15) with true. cbv iota. rewrite U, W. instantiate (1 := set_keyUsage (xe_keyUsage t) noExt). reflexivity.
      - intros N. assert (xe_keyUsage t = 0) as -> by lia. reflexivity. }
    clear B1 F1. erewrite ext_next.
    2: { eapply do_unless; [exact B2 | exact F2 | |].
      - intros N E. destruct (usages_numbered _ T3) as (l & E1 & E2 & E3). rewrite E1 in E. eapply step; [exact E | exact F2|]. intros v M L.
        destruct (read_oids K KX (l ++ xe_unknownEku t) v) as (w & U & W); [|exact M | exact L|].
        + apply Forall_app. split; [exact E2|]. eapply Forall_impl; [|exact T4]. intros o (H & _). exact H.
        + unfold knownExt. cbn [Z.eqb Pos.eqb]. rewrite U, W, E3, unknown_usages by (eapply Forall_impl; [|exact T4]; intros o (_ & H); exact H).
          cbn [xe_eku xe_unknownEku set_eku set_keyUsage noExt app]. instantiate (1 := set_eku (xe_eku t) (xe_unknownEku t) (set_keyUsage (xe_keyUsage t) noExt)). reflexivity.
      - intros N. apply orb_false_iff in N. destruct N as [A1 A2]. rewrite (some_false _ A1), (some_false _ A2). reflexivity. }
    clear B2 F2. erewrite ext_next.
    2: { eapply (do_unless _ _ _ _ (set_basic (xe_bcValid t) (xe_bcValid t && xe_isCA t) (if xe_bcValid t then pathOf t else 0) (xe_bcValid t && (pathOf t =? 0)) _)); [exact B3 | exact F3 | |].
      - intros N E. rewrite N. eapply step; [exact E | exact F3|]. intros v M L. fold (pathOf t) in M.
        destruct (read_basic K KX (xe_isCA t) (pathOf t) v) as (w & U & W1 & W2); [unfold pathOf; destruct ((xe_maxPathLen t =? 0) && negb (xe_maxPathLenZero t)); lia | exact M | exact L|].
        unfold knownExt. cbn [Z.eqb Pos.eqb]. rewrite U. cbv zeta. rewrite W1, W2. reflexivity.
      - intros ->. reflexivity. }
    clear B3 F3. erewrite ext_next.
    2: { eapply (do_unless _ _ _ _ (set_ski (xe_ski t) _)); [exact B4 | exact F4 | |].
      - intros N E. eapply step; [exact E | exact F4|]. intros v M L. destruct (read_ski K KX (xe_ski t) v M L) as (w & U & W).
        unfold knownExt. cbn [Z.eqb Pos.eqb]. rewrite U, W. reflexivity.
      - intros N. rewrite (some_false _ N). reflexivity. }
    clear B4 F4. erewrite ext_next.
    2: { eapply (do_unless _ _ _ _ (set_aki aki _)); [exact B5 | exact F5 | |].
      - intros N E. eapply step; [exact E | exact F5|]. intros v M L. destruct (read_aki K KX aki v) as (w & U & W); [intros ->; discriminate N | exact M | exact L|].
        unfold knownExt. cbn [Z.eqb Pos.eqb]. rewrite U, W. reflexivity.
      - intros N. rewrite (some_false _ N). reflexivity. }
    clear B5 F5. erewrite ext_next.
    2: { eapply (do_unless _ _ _ _ (set_aia (xe_ocsp t) (xe_issuing t) _)); [exact B6 | exact F6 | |].
      - intros N E. destruct (marshal (k_text K) tyAia (VSlice (map (accessVal oidAiaOcsp) (xe_ocsp t) ++ map (accessVal oidAiaIssuers) (xe_issuing t)))) as [v|] eqn:M; [|discriminate].
        injection E as <-. inversion F6 as [|? ? L _]; subst. unfold small_value in L. cbn [field nth asBytes] in L.
        match goal with |- certExtensions K _ ?c = _ => destruct (read_access K KX (xe_ocsp t) (xe_issuing t) v c) as (w & U & W); [rewrite Forall_app; now split | exact M | exact L|] end.
        cbn [certExtensions]. cbv zeta. cbn [field nth asOid asBool asBytes oneExt]. unfold oneExt. change (oidEqual oidAia oidAia) with true. cbv iota. unfold oidAia at 1. cbv iota. rewrite U, W. cbn [andb].
        reflexivity.
      - intros N. apply orb_false_iff in N. destruct N as [A1 A2]. rewrite (some_false _ A1), (some_false _ A2). reflexivity. }
    clear B6 F6. erewrite ext_next.
    2: { eapply (do_unless _ _ _ _ (set_san (xe_dns t) (xe_emails t) (map short (xe_ips t)) _)); [exact B7 | exact F7 | |].
      - intros N E. eapply step; [exact E | exact F7|]. intros v M L.
        pose proof (read_sans K KX (xe_dns t) (xe_emails t) (xe_ips t) v ltac:(rewrite Forall_app; now split) T6 M L) as W.
        unfold knownExt. cbn [Z.eqb Pos.eqb]. rewrite W. f_equal. f_equal. destruct (xe_dns t), (xe_emails t), (xe_ips t); try reflexivity. discriminate N.
      - intros N. apply orb_false_iff in N. destruct N as [N A3]. apply orb_false_iff in N. destruct N as [A1 A2]. rewrite (some_false _ A1), (some_false _ A2), (some_false _ A3). reflexivity. }
    clear B7 F7. erewrite ext_next.
    2: { eapply (do_unless _ _ _ _ (set_policies (xe_policies t) _)); [exact B8 | exact F8 | |].
      - intros N E. eapply step; [exact E | exact F8|]. intros v M L. destruct (read_policies K KX (xe_policies t) v T5 M L) as (w & U & W).
        unfold knownExt. cbn [Z.eqb Pos.eqb]. rewrite U, W. reflexivity.
      - intros N. rewrite (some_false _ N). reflexivity. }
    clear B8 F8. erewrite ext_next.
    2: { eapply (do_unless _ _ _ _ (set_constraints (xe_permitted t) (xe_excluded t) (constrained t && xe_permCritical t) _)); [exact B9 | exact F9 | |].
      - intros N E. fold (constrained t) in N. rewrite N. eapply step; [exact E | exact F9|]. intros v M L.
        destruct (read_constraints K KX (xe_permCritical t) (xe_permitted t) (xe_excluded t) v T7 T8 M L) as (w & U & W1 & W2).
        unfold knownExt. cbn [Z.eqb Pos.eqb]. rewrite U, W1, W2. reflexivity.
      - intros N. fold (constrained t) in N. rewrite N. unfold constrained in N. apply orb_false_iff in N. destruct N as [A1 A2]. rewrite (some_false _ A1), (some_false _ A2). reflexivity. }
    clear B9 F9. 
    eapply (do_unless _ _ _ _ (whole t aki)); [exact B10 | exact F10 | |].
    - intros N E. eapply step; [exact E | exact F10|]. intros v M L. destruct (read_points K KX (xe_crl t) v N5 M L) as (w & U & W).
      unfold knownExt. cbn [Z.eqb Pos.eqb]. rewrite U, W. reflexivity.
    - intros N. unfold whole. rewrite (some_false _ N). reflexivity.
  Qed.
  Lemma short_read ip : zlen ip = 4 \/ zlen ip = 16 -> address_read ip (short ip).
  Proof.
    intros H. unfold short, ipTo4. destruct (Z.eqb_spec (zlen ip) 4) as [E|N].
    - right. split; [|reflexivity]. intros (a & -> & L). unfold zlen in *. rewrite !app_length, repeat_length in E. cbn in E. lia.
    - destruct H as [H|H]; [contradiction|]. rewrite H. cbn [Z.eqb Pos.eqb andb].
      assert (D : exists b0 b1 b2 b3 b4 b5 b6 b7 b8 b9 b10 b11 r, ip = b0 :: b1 :: b2 :: b3 :: b4 :: b5 :: b6 :: b7 :: b8 :: b9 :: b10 :: b11 :: r).
      { clear N. unfold zlen in H. do 12 (destruct ip as [|? ip]; [cbn in H; lia|]). do 13 eexists; reflexivity. }
      destruct D as (b0 & b1 & b2 & b3 & b4 & b5 & b6 & b7 & b8 & b9 & b10 & b11 & r & ->).
      assert (L : zlen r = 4) by (rewrite !zlen_cons in H; lia).
      replace (takeZ 10 (b0 :: b1 :: b2 :: b3 :: b4 :: b5 :: b6 :: b7 :: b8 :: b9 :: b10 :: b11 :: r)) with [b0; b1; b2; b3; b4; b5; b6; b7; b8; b9] by (symmetry; apply (takeZ_app [b0; b1; b2; b3; b4; b5; b6; b7; b8; b9] (b10 :: b11 :: r)); reflexivity).
      replace (dropZ 12 (b0 :: b1 :: b2 :: b3 :: b4 :: b5 :: b6 :: b7 :: b8 :: b9 :: b10 :: b11 :: r)) with r by (symmetry; apply (dropZ_app [b0; b1; b2; b3; b4; b5; b6; b7; b8; b9; b10; b11] r); reflexivity). cbn [nth].
      destruct (forallb (fun b => b2z b =? 0) [b0; b1; b2; b3; b4; b5; b6; b7; b8; b9] && (b2z b10 =? 255) && (b2z b11 =? 255)) eqn:E.
      + apply andb_true_iff in E. destruct E as [E E3]. apply andb_true_iff in E. destruct E as [E1 E2]. rewrite forallb_forall in E1.
        left. split; [|exact L]. cbn [repeat app].
        assert (Q : forall b, In b [b0; b1; b2; b3; b4; b5; b6; b7; b8; b9] -> b = x00) by (intros b Hb; apply b2z_inj; apply Z.eqb_eq; apply E1; exact Hb).
        rewrite (Q b0), (Q b1), (Q b2), (Q b3), (Q b4), (Q b5), (Q b6), (Q b7), (Q b8), (Q b9) by (cbn; tauto).
        assert (b10 = xff) as -> by (apply b2z_inj; apply Z.eqb_eq; exact E2). assert (b11 = xff) as -> by (apply b2z_inj; apply Z.eqb_eq; exact E3). reflexivity.
      + right. split; [|reflexivity]. intros (a & C & _). cbn [repeat app] in C. injection C as -> -> -> -> -> -> -> -> -> -> -> -> _. discriminate E.
  Qed.
  Lemma whole_read_back t aki : template_ok t -> read_back t aki (whole t aki).
  Proof.
    intros T. constructor; cbn [whole xe_keyUsage xe_bcValid xe_isCA xe_maxPathLen xe_maxPathLenZero xe_ski xe_aki xe_ocsp xe_issuing xe_dns xe_emails xe_ips xe_permCritical xe_permitted xe_excluded xe_crl xe_policies xe_eku xe_unknownEku xe_unhandled]; try reflexivity.
    - intros -> H. unfold pathOf. destruct (Z.eqb_spec (xe_maxPathLen t) 0); [|reflexivity]. destruct H as [H | ->]; [contradiction | reflexivity].
    - intros -> H Z0. unfold pathOf. rewrite H, Z0. reflexivity.
    - intros ->. cbn [andb]. apply Z.eqb_eq.
    - pose proof (to_ips t T) as I. induction I as [|ip l H _ IH]; constructor; [now apply short_read | exact IH].
    - intros N. unfold constrained. destruct (xe_permitted t) as [|x l]; [|reflexivity]. destruct (xe_excluded t) as [|y l']; [now contradiction N | reflexivity].
  Qed.
End All.

(** Which extensions are built *)
Inductive picks {A} : list A -> list A -> Prop :=
| pk_nil : picks [] []
| pk_skip x l m : picks l m -> picks l (x :: m)
| pk_take x l m : picks l m -> picks (x :: l) (x :: m).
Lemma picks_in {A} (l m : list A) x : picks l m -> In x l -> In x m.
Proof. induction 1 as [|y l m P IH|y l m P IH]; cbn; intuition. Qed.
Lemma picks_nodup {A} (l m : list A) : picks l m -> NoDup m -> NoDup l.
Proof.
  induction 1 as [|y l m P IH|y l m P IH]; intros N; [constructor | inversion N; now apply IH|]. inversion N as [|? ? N1 N2]; subst. constructor; [|now apply IH]. intros C. apply N1. eapply picks_in; eassumption.
Qed.
Definition at_most_one (id : oid) (critical : bool) (l : list goval) : Prop := l = [] \/ exists v, l = [VStruct [] [VOid id; VBool critical; VBytes v]].
Lemma block_one b x cr m l : unless b (ext x cr m) = Some l -> at_most_one [2; 5; 29; x] cr l.
Proof. unfold unless, ext. destruct b; [|intros H; injection H as <-; now left]. destruct m as [v|]; [|discriminate]. intros H. injection H as <-. right. now exists v. Qed.
Lemma block_picks id cr l r m : at_most_one id cr l -> picks r m -> picks (map (fun e => asOid (field 0 e)) l ++ r) (id :: m).
Proof. intros [-> | (v & ->)] P; cbn; [now apply pk_skip | now apply pk_take]. Qed.
