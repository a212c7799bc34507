(** x509andr: extensions *)
From Coq Require Import Lia.
From Verif.Model Require Import Bytes Env Ber Asn1 Pkcs7 X509.
From Verif.Spec Require Import Ber Asn1 Asn1Value Pkcs7 X509.
From Verif.Proofs Require Import BytesFacts BerFacts Asn1Codec Asn1Header Asn1Value Asn1Decode DerFacts DerSize Pkcs7Facts Pkcs7Parse Pkcs7Honest X509Facts X509Keys X509Honest.

Definition supportedb (n : Z * bytes) : bool := (fst n =? 1) || (fst n =? 2) || (fst n =? 7).
Lemma supportedb_iff n : supportedb n = true <-> name_supported n.
Proof. unfold supportedb, name_supported. rewrite !orb_true_iff, !Z.eqb_eq. tauto. Qed.

Section K.
  Variable K : xenv.
  Notation X := (k_text K).

  Lemma san_loop : forall fuel found rest b, (List.length rest <= fuel)%nat ->
    (sanLoop K fuel found rest = Some b <-> exists l fs, rest = concat fs /\ Forall2 general_name l fs /\ Forall alt_name_ok l /\ b = found || existsb supportedb l).
  Proof.
    assert (B0 : forall found b, Some found = Some b <-> exists l fs, ([] : bytes) = concat fs /\ Forall2 general_name l fs /\ Forall alt_name_ok l /\ b = found || existsb supportedb l).
    { intros found b. split.
      - intros H. assert (b = found) as -> by congruence. exists [], []. repeat split; try constructor. cbn. rewrite orb_false_r. reflexivity.
      - intros (l & fs & E & F & _ & ->). destruct F as [|n f l fs (c & k & HE) F]; [cbn; rewrite orb_false_r; reflexivity|]. exfalso. symmetry in E. exact (element_nonempty _ _ _ _ _ _ HE E). }
    induction fuel as [|fuel IH]; intros found rest b HL.
    { destruct rest; [|cbn in HL; lia]. exact (B0 found b). }
    destruct rest as [|x rest']; [exact (B0 found b)|]. set (rest := x :: rest') in *. assert (HN : rest <> []) by discriminate.
    assert (EL : sanLoop K (Datatypes.S fuel) found rest = match unmarshal X TyRaw rest with
      | (VRaw _ tag _ b _, Some r) => if (tag =? 1) || (tag =? 2) then sanLoop K fuel true r else if tag =? 7 then (if (zlen b =? 4) || (zlen b =? 16) then sanLoop K fuel true r else None) else sanLoop K fuel found r | _ => None end) by reflexivity.
    rewrite EL. clear EL. split.
    - destruct (unmarshal X TyRaw rest) as [v [r|]] eqn:EU; [|destruct v; discriminate]. unfold unmarshal in EU. apply raw_parsed in EU; [|reflexivity|reflexivity|reflexivity]. destruct EU as (c & t & k & ct & full & -> & E & HE).
      pose proof (element_size _ _ _ _ _ HE) as HS. pose proof (zlen_nonneg ct). assert (HL' : (List.length r <= fuel)%nat). { rewrite E, app_length in HL. unfold zlen in *. lia. }
      assert (ST : forall b', sanLoop K fuel (found || supportedb (t, ct)) r = Some b' -> alt_name_ok (t, ct) -> exists l fs, rest = concat fs /\ Forall2 general_name l fs /\ Forall alt_name_ok l /\ b' = found || existsb supportedb l).
      { intros b' HB HO. apply IH in HB; [|exact HL']. destruct HB as (l & fs & -> & F & G & ->). exists ((t, ct) :: l), (full :: fs). split; [exact E|]. split; [constructor; [exists c, k; exact HE|exact F]|]. split; [constructor; assumption|].
        cbn [existsb]. rewrite orb_assoc. reflexivity. }
      unfold supportedb in ST. cbn [fst] in ST. unfold alt_name_ok in ST. cbn [fst snd] in ST.
      destruct (Z.eqb_spec t 1) as [-> |N1]; [cbn [orb]; intros HB; apply (ST b); [rewrite orb_true_r; exact HB|intros C; discriminate]|].
      destruct (Z.eqb_spec t 2) as [-> |N2]; [cbn [orb]; intros HB; apply (ST b); [rewrite orb_true_r; exact HB|intros C; discriminate]|].
      cbn [orb] in *. destruct (Z.eqb_spec t 7) as [-> |N7].
      + destruct ((zlen ct =? 4) || (zlen ct =? 16)) eqn:EZ; [|discriminate]. intros HB. apply (ST b); [rewrite orb_true_r; exact HB|]. intros _. apply orb_true_iff in EZ as [EZ|EZ]; apply Z.eqb_eq in EZ; [left|right]; exact EZ.
      + intros HB. apply (ST b); [rewrite orb_false_r; exact HB|intros C; contradiction].
    - intros (l & fs & E & F & G & ->). destruct F as [|n f l fs (c & k & HE) F]; [cbn in E; congruence|]. cbn [concat] in E. inversion G as [|? ? HO G']; subst.
      unfold unmarshal. rewrite E. rewrite (raw_parse X noParams _ c (fst n) k (snd n) f (concat fs) eq_refl eq_refl HE).
      pose proof (element_size _ _ _ _ _ HE) as HS. pose proof (zlen_nonneg (snd n)). assert (HL' : (List.length (concat fs) <= fuel)%nat). { rewrite E, app_length in HL. unfold zlen in *. lia. }
      assert (ST : forall fd, sanLoop K fuel fd (concat fs) = Some (fd || existsb supportedb l)). { intros fd. apply IH; [exact HL'|]. exists l, fs. repeat split; assumption. }
      cbn [existsb]. unfold supportedb at 1. destruct (Z.eqb_spec (fst n) 1) as [E1|N1]; [cbn [orb]; rewrite ST, orb_true_r; reflexivity|]. destruct (Z.eqb_spec (fst n) 2) as [E2|N2]; [cbn [orb]; rewrite ST, orb_true_r; reflexivity|]. cbn [orb].
      destruct (Z.eqb_spec (fst n) 7) as [E7|N7]; [|cbn [orb]; apply ST]. assert ((zlen (snd n) =? 4) || (zlen (snd n) =? 16) = true) as ->. { apply orb_true_iff. destruct (HO E7) as [HZ|HZ]; [left|right]; apply Z.eqb_eq; exact HZ. }
      cbn [orb]. rewrite ST, orb_true_r. reflexivity.
  Qed.
  Lemma san_iff v b : parseSANExtension K v = Some b <-> exists l, alt_names_value l v /\ Forall alt_name_ok l /\ b = existsb supportedb l.
  Proof.
    unfold parseSANExtension. split.
    - destruct (unmarshalAll K TyRaw v) as [w|] eqn:EU; [|discriminate]. apply unmarshalAll_some in EU. unfold unmarshal in EU. apply raw_parsed in EU; [|reflexivity|reflexivity|reflexivity]. destruct EU as (c & t & k & ct & full & -> & E & HE). rewrite app_nil_r in E. subst full.
      destruct k; [|discriminate]. destruct (Z.eqb_spec t 16) as [-> |]; [|discriminate]. destruct (Z.eqb_spec c 0) as [-> |]; [|discriminate]. cbn [negb orb]. intros HL. apply san_loop in HL; [|lia]. destruct HL as (l & fs & -> & F & G & ->). exists l. split; [exists fs; auto|]. auto.
    - intros (l & (fs & F & HE) & G & ->). assert (unmarshalAll K TyRaw v = Some (VRaw 0 16 true (concat fs) v)) as ->. { apply unmarshalAll_some. unfold unmarshal. rewrite <- (app_nil_r v) at 1. apply raw_parse; [reflexivity|reflexivity|exact HE]. }
      change (16 =? 16) with true. change (0 =? 0) with true. cbn [negb orb]. apply san_loop; [lia|]. exists l, fs. auto.
  Qed.
  Lemma alt_names_unique v l l' : alt_names_value l v -> alt_names_value l' v -> l = l'.
  Proof.
    intros (fs & F & HE) (fs' & F' & HE'). destruct (element_unique _ _ _ _ _ _ _ _ _ HE HE') as (_ & _ & _ & EC). clear HE HE' v.
    revert l' fs' F' EC. induction F as [|n f l fs (c & k & Hf) F IH]; intros l' fs' F' EC.
    - destruct F' as [|n' f' l' fs' (c' & k' & Hf') F']; [reflexivity|]. exfalso. cbn [concat] in EC. symmetry in EC. exact (element_nonempty _ _ _ _ _ _ Hf' EC).
    - destruct F' as [|n' f' l' fs' (c' & k' & Hf') F']; [exfalso; cbn [concat] in EC; exact (element_nonempty _ _ _ _ _ _ Hf EC)|]. cbn [concat] in EC.
      destruct (element_prefix _ _ _ _ _ _ _ _ _ _ _ _ Hf Hf' EC) as (_ & E1 & _ & E2 & _ & E3). f_equal; [destruct n, n'; cbn in *; congruence|]. apply (IH l' fs' F' E3).
  Qed.

  Lemma extension_cases id : (exists x, id = ce x) \/ (id = id_aia) \/ (~ (exists x, id = ce x) /\ id <> id_aia).
  Proof.
    destruct id as [|a [|b [|c [|x [|y t]]]]]; try (right; destruct (list_eq_dec Z.eq_dec (a :: b :: c :: x :: y :: t) id_aia) as [E|E]; [left; exact E|right; split; [intros (z & C); discriminate|exact E]]; fail);
      try (right; right; split; [intros (z & C); discriminate|discriminate]; fail).
    destruct (Z.eq_dec a 2) as [-> |Na]; [|right; right; split; [intros (z & C); unfold ce in C; congruence|discriminate]].
    destruct (Z.eq_dec b 5) as [-> |Nb]; [|right; right; split; [intros (z & C); unfold ce in C; congruence|discriminate]].
    destruct (Z.eq_dec c 29) as [-> |Nc]; [|right; right; split; [intros (z & C); unfold ce in C; congruence|discriminate]]. left. exists x. reflexivity.
  Qed.
  Lemma parse_known x crit v : parseExtension K (ce x) crit v = parseKnown K x crit v.
  Proof. reflexivity. Qed.
  Lemma parse_aia crit v : parseExtension K id_aia crit v = decodable K tyAia v.
  Proof. reflexivity. Qed.
  Lemma parse_other id crit v : ~ (exists x, id = ce x) -> id <> id_aia -> parseExtension K id crit v = Some true.
  Proof.
    intros H1 H2. assert (E2 : oidEqual id oidAia = false) by (apply oidEqual_neq; exact H2). unfold parseExtension.
    destruct id as [|a [|b [|c [|x [|y t]]]]]; try (rewrite E2; reflexivity). destruct (Z.eqb_spec a 2) as [-> |]; [|reflexivity]. destruct (Z.eqb_spec b 5) as [-> |]; [|reflexivity]. destruct (Z.eqb_spec c 29) as [-> |]; [|reflexivity].
    exfalso. apply H1. exists x. reflexivity.
  Qed.
  Lemma ce_recognised x : In (ce x) recognised <-> In x [14; 15; 17; 19; 30; 31; 32; 35; 37].
  Proof.
    unfold recognised. split.
    - intros [C|H]; [discriminate|]. apply in_map_iff in H as (y & E & H). assert (x = y) as -> by (unfold ce in E; congruence). exact H.
    - intros H. right. apply in_map. exact H.
  Qed.
  Lemma decodable_false ty v u : decodable K ty v = Some u -> u = false.
  Proof. unfold decodable. destruct (unmarshalAll K ty v); congruence. Qed.
  Lemma known_false x crit v u : parseKnown K x crit v = Some u -> In x [14; 15; 19; 30; 31; 32; 35; 37] -> u = false.
  Proof.
    intros H HI. repeat (destruct HI as [<-|HI]; [cbn [Z.eqb Pos.eqb parseKnown] in H; unfold parseKnown in H; cbn [Z.eqb Pos.eqb] in H|]); [..|contradiction]; try exact (decodable_false _ _ _ H).
    - destruct (unmarshalAll K tyNameConstraints v); [|discriminate]. destruct (_ && _); congruence.
    - destruct (unmarshalAll K tyDistributionPoints v); [|discriminate]. destruct (distributionPointsOk K _); congruence.
  Qed.
  Lemma known_other x crit v : ~ In x [14; 15; 17; 19; 30; 31; 32; 35; 37] -> parseKnown K x crit v = Some true.
  Proof.
    intros H. unfold parseKnown. cbn [In] in H.
    repeat match goal with |- (if ?x =? ?n then _ else _) = _ => destruct (Z.eqb_spec x n) as [C|_]; [exfalso; apply H; lia|] end. reflexivity.
  Qed.

  (* which extensions are left unhandled *)
  Lemma extension_unhandled id crit v u : parseExtension K id crit v = Some u ->
    (u = true <-> ~ In id recognised \/ (id = ce 17 /\ exists l, alt_names_value l v /\ Forall (fun n => ~ name_supported n) l)).
  Proof.
    intros H. destruct (extension_cases id) as [(x & ->)|[-> |(N1 & N2)]].
    - rewrite parse_known in H. destruct (in_dec Z.eq_dec x [14; 15; 17; 19; 30; 31; 32; 35; 37]) as [HI|HN].
      + destruct (Z.eq_dec x 17) as [-> |N17].
        * unfold parseKnown in H. cbn [Z.eqb Pos.eqb] in H. destruct (parseSANExtension K v) as [b|] eqn:ES; [|discriminate]. cbn [option_map] in H. assert (u = negb b) as -> by congruence. apply san_iff in ES as (l & HA & HO & ->). split.
          -- intros HU. right. split; [reflexivity|]. exists l. split; [exact HA|]. apply Forall_forall. intros n Hn HS. apply negb_true_iff in HU. apply supportedb_iff in HS.
             assert (existsb supportedb l = true) by (apply existsb_exists; eauto). congruence.
          -- intros [C|(_ & l' & HA' & HF)]; [exfalso; apply C; apply ce_recognised; exact HI|]. rewrite (alt_names_unique _ _ _ HA HA'). apply negb_true_iff. destruct (existsb supportedb l') eqn:EE; [|reflexivity].
             apply existsb_exists in EE as (n & Hn & Hs). apply supportedb_iff in Hs. rewrite Forall_forall in HF. exfalso. exact (HF n Hn Hs).
        * assert (u = false) as ->. { apply (known_false _ _ _ _ H). cbn [In] in HI |- *. intuition lia. }
          split; [discriminate|]. intros [C|(C & _)]; [exfalso; apply C; apply ce_recognised; exact HI|]. exfalso. apply N17. unfold ce in C. congruence.
      + rewrite known_other in H by exact HN. split; [|congruence]. intros _. left. intros C. apply HN, ce_recognised. exact C.
    - rewrite parse_aia in H. apply decodable_false in H as ->. split; [discriminate|]. intros [C|(C & _)]; [exfalso; apply C; left; reflexivity|discriminate].
    - rewrite parse_other in H by assumption. split; [|congruence]. intros _. left. intros [C|C]; [congruence|]. apply in_map_iff in C as (x & E & _). apply N1. exists x. congruence.
  Qed.
  Lemma extensions_unhandled l : forall u, parseExtensions K (map ext_val l) = Some u ->
    (u = true <-> exists x, In x l /\ x_critical x = true /\ (~ In (x_id x) recognised \/ (x_id x = ce 17 /\ exists ns, alt_names_value ns (x_value x) /\ Forall (fun n => ~ name_supported n) ns))).
  Proof.
    induction l as [|x l IH]; intros u H; cbn [map parseExtensions ext_val field nth asOid asBytes] in H.
    - assert (u = false) as -> by congruence. split; [discriminate|]. intros (x & [] & _).
    - destruct (parseExtension K (x_id x) (x_critical x) (x_value x)) as [u1|] eqn:E1; [|discriminate]. destruct (parseExtensions K (map ext_val l)) as [u2|]; [|discriminate]. cbn [option_map] in H. assert (u = (x_critical x && u1) || u2) as -> by congruence.
      specialize (IH u2 eq_refl). apply extension_unhandled in E1. rewrite orb_true_iff, andb_true_iff, E1, IH. split.
      + intros [(HC & HU)|(y & HY & HC & HU)]; [exists x; split; [left; reflexivity|auto]|exists y; split; [right; exact HY|auto]].
      + intros (y & [<-|HY] & HC & HU); [left; auto|right; exists y; auto].
  Qed.

  (* well-formed extensions are accepted *)
  Lemma unmarshal_all ty v f : (forall r, parseField X ty noParams (zeroVal ty) (f ++ r) = (v, Some r)) -> unmarshalAll K ty f = Some v.
  Proof. intros H. apply unmarshalAll_some. unfold unmarshal. rewrite <- (app_nil_r f). apply H. Qed.
  Lemma decodable_ok ty v f : (forall r, parseField X ty noParams (zeroVal ty) (f ++ r) = (v, Some r)) -> decodable K ty f = Some false.
  Proof. intros H. unfold decodable. rewrite (unmarshal_all ty v f H). reflexivity. Qed.
  Lemma oid_seqs_ok more ty (P : bytes -> Prop) v : (match more with FNil => True | _ => False end \/ more = FCons noParams TyRaw FNil /\ forall m, P m -> is_element m) -> ty = TySlice false (TyStruct false (FCons noParams TyOid more)) -> oid_seqs P v -> zlen v < 2 ^ 31 -> decodable K ty v = Some false.
  Proof.
    intros HM -> (fs & HF & HS) HL. pose proof (der_element_size _ _ _ _ _ HS) as HZ. pose proof (der_small _ _ _ _ _ HS HL) as HE.
    assert (HB : forall g, In g fs -> zlen g < 2 ^ 31) by (intros g Hg; pose proof (concat_bound fs g Hg); lia).
    assert (G : exists vs, Forall2 (fun v f => forall r, parseField X (TyStruct false (FCons noParams TyOid more)) noParams (zeroVal (TyStruct false (FCons noParams TyOid more))) (f ++ r) = (v, Some r)) vs fs /\ Forall (fun f => exists c, element 0 16 true c f) fs).
    { clear HS HE HZ HL. induction fs as [|f fs IH]; [exists []; split; constructor|]. inversion HF as [|? ? (o & i & m & HO & HV & HP & HQ) HF']; subst. destruct (IH HF') as (vs & F & G); [intros g Hg; apply HB; right; exact Hg|].
      assert (HLf : zlen f < 2 ^ 31) by (apply HB; left; reflexivity). pose proof (der_element_size _ _ _ _ _ HQ) as HZ. cbn [concat] in HZ. rewrite !zlen_app in HZ. change (zlen ([] : bytes)) with 0 in HZ. pose proof (zlen_nonneg i). pose proof (zlen_nonneg m).
      assert (exists w, forall r, parseField X (TyStruct false (FCons noParams TyOid more)) noParams (zeroVal (TyStruct false (FCons noParams TyOid more))) (f ++ r) = (w, Some r)) as (w & Hw).
      { destruct HM as [HM|(-> & HM)].
        - destruct more; [|contradiction]. exists (VStruct [] [VOid o]). intros r. apply (struct_field X _ _ (concat [i; m])); [exact HQ|exact HLf|]. cbn [concat]. rewrite parseFields_cons, (oid_field X _ o i) by (try assumption; lia). reflexivity.
        - destruct (HM m HP) as (c & t & k & b & HEm). exists (VStruct [] [VOid o; VRaw c t k b m]). intros r. apply (struct_field X _ _ (concat [i; m])); [exact HQ|exact HLf|]. cbn [concat]. rewrite parseFields_cons, (oid_field X _ o i) by (try assumption; lia).
          rewrite parseFields_cons, (raw_parse X noParams _ c t k b m []) by (try reflexivity; exact HEm). reflexivity. }
      exists (w :: vs). split; constructor; try assumption. eexists. apply (der_small _ _ _ _ _ HQ HLf). }
    destruct G as (vs & F & G). apply (decodable_ok _ (VSlice vs)). intros r.
    rewrite (field_parse X (TySlice false (TyStruct false (FCons noParams TyOid more))) noParams _ 0 16 true (concat fs) v r false TagSequence true); try exact HE; try reflexivity; try discriminate; try (right; auto; fail).
    apply (slice_content X false (TyStruct false (FCons noParams TyOid more)) TagSequence true); try reflexivity; try discriminate; assumption.
  Qed.
  Lemma collect (S : goval -> Prop) (P : goval -> bytes -> Prop) fs : (forall f, In f fs -> exists v, S v /\ P v f) -> exists vs, Forall S vs /\ Forall2 P vs fs.
  Proof.
    induction fs as [|f fs IH]; intros H; [exists []; split; constructor|]. destruct (H f (or_introl eq_refl)) as (v & Sv & Pv). destruct IH as (vs & S' & P'); [intros g Hg; apply H; right; exact Hg|].
    exists (v :: vs). split; constructor; assumption.
  Qed.
  (* what comes after an absent optional field *)
  Definition other (p : fparams) (any : bool) (ut : Z) (s : bytes) : Prop :=
    s = [] \/ exists c t k b f r, s = f ++ r /\ element c t k b f /\ let '(ec, et, anyTag) := expected p any (adjustTag p (hd c t (zlen b) k) ut) in anyTag = false /\ (c <> ec \/ t <> et).
  Lemma skipped ty p old s any ut comp : ty <> TyAny -> fp_optional p = true -> fp_default p = None -> fp_explicit p = false -> getUniversalType ty = Some (any, ut, comp) -> other p any ut s ->
    parseField X ty p old s = (old, Some s).
  Proof.
    intros H1 H2 H3 H4 H5 [-> |(c & t & k & b & f & r & -> & HE & HX)]; [|exact (field_absent X ty p old c t k b f r any ut comp H1 H2 H3 H4 H5 HE HX)].
    destruct ty; try congruence; cbn [parseField]; unfold setDefaultValue; rewrite H2, H3; reflexivity.
  Qed.
  Definition named (s : goval) : bool := match field 0 s with VString [] => false | _ => true end.
  Lemma subtree_read dns f : subtree_der dns f -> zlen f < 2 ^ 31 ->
    (exists c, element 0 16 true c f) /\ exists v, (forall c n, dns = Some (c :: n) -> named v = true) /\
      forall r, parseField X (TyStruct false (FCons (pIa5Tag 2) TyString FNil)) noParams (zeroVal (TyStruct false (FCons (pIa5Tag 2) TyString FNil))) (f ++ r) = (v, Some r).
  Proof.
    intros (base & more & HS & HB) HL. split; [eexists; exact (der_small _ _ _ _ _ HS HL)|].
    pose proof (der_element_size _ _ _ _ _ HS) as HZ. cbn [concat] in HZ. rewrite !zlen_app in HZ. change (zlen ([] : bytes)) with 0 in HZ. pose proof (zlen_nonneg base). pose proof (zlen_nonneg more).
    assert (G : exists w rest, (forall c n, dns = Some (c :: n) -> w = VString (c :: n)) /\ parseField X TyString (pIa5Tag 2) (zeroVal TyString) (base ++ more) = (w, Some rest)).
    { destruct dns as [n|].
      - destruct HB as (HA & HB). apply der_small in HB; [|lia]. exists (VString n), more. split; [intros c m E; congruence|].
        rewrite (field_parse X TyString (pIa5Tag 2) _ 2 2 false n base more false TagPrintableString false); try exact HB; try reflexivity; try discriminate; try (right; auto; fail).
        assert (HF : forallb (fun c => b2z c <? 128) n = true) by (apply forallb_forall; intros x Hx; rewrite Forall_forall in HA; apply Z.ltb_lt; exact (HA x Hx)).
        change (adjustTag (pIa5Tag 2) (hd 2 2 (zlen n) false) TagPrintableString) with TagIA5String. cbn [parseContent]. unfold parseString. cbn [Z.eqb Pos.eqb TagIA5String TagPrintableString TagNumericString]. rewrite HF. reflexivity.
      - destruct HB as (t & k & b & Ht & HB). exists (zeroVal TyString), (base ++ more). split; [discriminate|].
        apply (skipped TyString (pIa5Tag 2) _ _ false TagPrintableString false); try reflexivity; try discriminate. right. exists 2, t, k, b, base, more. split; [reflexivity|]. split; [exact HB|]. cbn. split; [reflexivity|right; exact Ht]. }
    destruct G as (w & rest & HW & HP). exists (VStruct [] [w]). split; [intros c n E; unfold named; cbn [field nth]; rewrite (HW c n E); reflexivity|].
    intros r. apply (struct_field X _ _ (concat [base; more])); [exact HS|exact HL|]. cbn [concat]. rewrite app_nil_r, parseFields_cons. match goal with |- context [parseField X TyString _ ?o _] => change o with (zeroVal TyString) end. rewrite HP. reflexivity.
  Qed.
  Lemma subtrees_read tag l f rest : 0 <= tag < 31 -> optional (subtrees_der tag) l f -> zlen f < 2 ^ 31 -> (l = None -> other (pOptionalTag tag) false TagSequence rest) ->
    exists v, (only_dns l -> forallb named (asSlice v) = true) /\ parseField X tySubtrees (pOptionalTag tag) (zeroVal tySubtrees) (f ++ rest) = (v, Some rest).
  Proof.
    intros HT HO HL HR. destruct l as [l|]; cbn [optional] in HO.
    - destruct HO as (fs & F & HD). pose proof (der_element_size _ _ _ _ _ HD) as HZ. apply der_small in HD; [|exact HL]. assert (HB : forall g, In g fs -> zlen g < 2 ^ 31) by (intros g Hg; pose proof (concat_bound fs g Hg); lia).
      assert (G : exists vs, Forall (fun f => exists c, element 0 16 true c f) fs /\ (only_dns (Some l) -> forallb named vs = true) /\
        Forall2 (fun v f => forall r, parseField X (TyStruct false (FCons (pIa5Tag 2) TyString FNil)) noParams (zeroVal (TyStruct false (FCons (pIa5Tag 2) TyString FNil))) (f ++ r) = (v, Some r)) vs fs).
      { clear HD HZ HR. induction F as [|d g l fs Hd F IH]; [exists []; repeat split; constructor|]. destruct IH as (vs & G1 & G2 & G3); [intros x Hx; apply HB; right; exact Hx|].
        destruct (subtree_read d g Hd (HB g (or_introl eq_refl))) as (HE & v & HN & HP). exists (v :: vs). split; [constructor; assumption|]. split; [|constructor; assumption].
        intros HO. cbn [forallb]. destruct (HO _ d eq_refl (or_introl eq_refl)) as (c & n & E). rewrite (HN c n E), G2; [reflexivity|]. intros x e E' He. assert (x = l) as -> by congruence. apply (HO _ e eq_refl). right. exact He. }
      destruct G as (vs & G1 & G2 & G3). exists (VSlice vs). split; [exact G2|].
      rewrite (field_parse X tySubtrees (pOptionalTag tag) _ 2 tag true (concat fs) f rest false TagSequence true); try exact HD; try reflexivity; try discriminate; try (right; auto; fail).
      apply (slice_content X false (TyStruct false (FCons (pIa5Tag 2) TyString FNil)) TagSequence true); try reflexivity; try discriminate; assumption.
    - subst f. exists (zeroVal tySubtrees). split; [reflexivity|]. apply (skipped tySubtrees (pOptionalTag tag) _ _ false TagSequence true); try reflexivity; try discriminate. exact (HR eq_refl).
  Qed.
  Lemma constraints_ok crit perm excl p e v : optional (subtrees_der 0) perm p -> optional (subtrees_der 1) excl e -> seq_der [p; e] v -> (crit = true -> only_dns perm /\ only_dns excl) -> zlen v < 2 ^ 31 ->
    parseKnown K 30 crit v <> None.
  Proof.
    intros HP HE HS HC HL. pose proof (der_element_size _ _ _ _ _ HS) as HZ. cbn [concat] in HZ. rewrite !zlen_app in HZ. change (zlen ([] : bytes)) with 0 in HZ. pose proof (zlen_nonneg p). pose proof (zlen_nonneg e).
    destruct (subtrees_read 1 excl e [] ltac:(lia) HE ltac:(lia) ltac:(left; reflexivity)) as (ve & NE & PE). rewrite app_nil_r in PE.
    destruct (subtrees_read 0 perm p e ltac:(lia) HP ltac:(lia)) as (vp & NP & PP).
    { intros _. destruct excl as [l|]; cbn [optional] in HE; [|left; exact HE]. destruct HE as (fs & _ & HD). apply der_small in HD; [|lia]. right. exists 2, 1, true, (concat fs), e, []. split; [rewrite app_nil_r; reflexivity|]. split; [exact HD|]. cbn. split; [reflexivity|right; discriminate]. }
    unfold parseKnown. cbn [Z.eqb Pos.eqb]. rewrite (unmarshal_all tyNameConstraints (VStruct [] [vp; ve]) v).
    - cbn [field nth]. assert (forall w o, (only_dns o -> forallb named (asSlice w) = true) -> (crit = true -> only_dns o) -> subtreesOk crit w = true) as G.
      { intros w o H1 H2. unfold subtreesOk. destruct crit; [|reflexivity]. exact (H1 (H2 eq_refl)). }
      rewrite (G vp perm NP), (G ve excl NE) by (intros C; apply HC; exact C). discriminate.
    - intros r. apply (struct_field X _ _ (concat [p; e])); [exact HS|exact HL|]. cbn [concat]. rewrite app_nil_r, parseFields_cons. match goal with |- context [parseField X tySubtrees (pOptionalTag 0) ?o _] => change o with (zeroVal tySubtrees) end. rewrite PP.
      rewrite parseFields_cons. match goal with |- context [parseField X tySubtrees (pOptionalTag 1) ?o _] => change o with (zeroVal tySubtrees) end. rewrite PE. reflexivity.
  Qed.

  Definition tyPoint : gotype := TyStruct false
    (FCons (pOptionalTag 0) (TyStruct false (FCons (pOptionalTag 0) TyRaw (FCons (pOptionalTag 1) tyRdnSequence FNil)))
    (FCons (pOptionalTag 1) TyBits (FCons (pOptionalTag 2) TyRaw FNil))).
  Definition tyPointName : gotype := TyStruct false (FCons (pOptionalTag 0) TyRaw (FCons (pOptionalTag 1) tyRdnSequence FNil)).
  Definition readable (b : bytes) : bool := match b with [] => true | b => match unmarshal X TyRaw b with (_, Some _) => true | _ => false end end.
  Lemma raw_tagged tag old b f r : der_element 2 tag true b f -> zlen f < 2 ^ 31 -> parseField X TyRaw (pOptionalTag tag) old (f ++ r) = (VRaw 2 tag true b f, Some r).
  Proof.
    intros HD HL. apply der_small in HD; [|exact HL]. rewrite (field_parse X TyRaw (pOptionalTag tag) old 2 tag true b f r true (-1) false); try exact HD; try reflexivity; try discriminate; try (left; reflexivity); try (right; auto; fail).
  Qed.
  Lemma point_read f : point_der f -> zlen f < 2 ^ 31 -> exists v, readable (rawBytes (field 0 (field 0 v))) = true /\ forall r, parseField X tyPoint noParams (zeroVal tyPoint) (f ++ r) = (v, Some r).
  Proof.
    intros (names & reasons & issuer & n & rs & i & HN & HR & HI & HS) HL. pose proof (der_element_size _ _ _ _ _ HS) as HZ. cbn [concat] in HZ. rewrite !zlen_app in HZ. change (zlen ([] : bytes)) with 0 in HZ.
    pose proof (zlen_nonneg n). pose proof (zlen_nonneg rs). pose proof (zlen_nonneg i).
    assert (OI : i = [] \/ exists b, element 2 2 true b i). { destruct issuer as [b|]; cbn [optional] in HI; [right; exists b; apply (der_small _ _ _ _ _ HI); lia|left; exact HI]. }
    assert (OR : rs ++ i = [] \/ exists t k b g r, rs ++ i = g ++ r /\ element 2 t k b g /\ t <> 0).
    { destruct reasons as [b|]; cbn [optional] in HR.
      - right. destruct HR as (_ & HR). apply der_small in HR; [|lia]. exists 1, false, (z2b (fst b) :: snd b), rs, i. split; [reflexivity|]. split; [exact HR|discriminate].
      - subst rs. cbn [app]. destruct OI as [OI|(b & OI)]; [left; exact OI|right]. exists 2, true, b, i, []. rewrite app_nil_r. split; [reflexivity|]. split; [exact OI|discriminate]. }
    assert (PI : exists w, parseField X TyRaw (pOptionalTag 2) (zeroVal TyRaw) i = (w, Some [])).
    { destruct issuer as [b|]; cbn [optional] in HI; [|subst i; eexists; reflexivity]. eexists. rewrite <- (app_nil_r i) at 1. apply raw_tagged; [exact HI|lia]. }
    destruct PI as (wi & PI).
    assert (PR : exists w, parseField X TyBits (pOptionalTag 1) (zeroVal TyBits) (rs ++ i) = (w, Some i)).
    { destruct reasons as [[pad b]|]; cbn [optional fst snd] in HR.
      - destruct HR as ((Hp & Hb0 & Hb1) & HD). apply der_small in HD; [|lia]. exists (VBits b (8 * zlen b - pad)).
        rewrite (field_parse X TyBits (pOptionalTag 1) _ 2 1 false (z2b pad :: b) rs i false TagBitString false); try exact HD; try reflexivity; try discriminate; try (right; auto; fail).
        cbn [parseContent]. assert (E : parseBitString (z2b pad :: b) = Some (b, 8 * zlen b - pad)) by (apply parseBits_iff; exists pad; repeat split; try lia; assumption). rewrite E. reflexivity.
      - subst rs. cbn [app]. eexists. apply (skipped TyBits (pOptionalTag 1) _ _ false TagBitString false); try reflexivity; try discriminate.
        destruct OI as [OI|(b & OI)]; [left; exact OI|right]. exists 2, 2, true, b, i, []. rewrite app_nil_r. split; [reflexivity|]. split; [exact OI|]. cbn. split; [reflexivity|right; discriminate]. }
    destruct PR as (wr & PR).
    assert (PN : exists w, readable (rawBytes (field 0 w)) = true /\ parseField X tyPointName (pOptionalTag 0) (zeroVal tyPointName) (n ++ rs ++ i) = (w, Some (rs ++ i))).
    { destruct names as [l|]; cbn [optional] in HN.
      - destruct HN as (HNE & HF & full & HD1 & HD2). pose proof (der_element_size _ _ _ _ _ HD2) as HZ2. apply der_small in HD2; [|lia].
        exists (VStruct [] [VRaw 2 0 true (concat l) full; zeroVal tyRdnSequence]). split.
        + cbn [field nth rawBytes]. destruct l as [|g l]; [congruence|]. inversion HF as [|? ? (c & t & k & b & HG) _]; subst. cbn [concat]. unfold readable.
          pose proof (raw_parse X noParams (zeroVal TyRaw) c t k b g (concat l) eq_refl eq_refl HG) as HP. fold (unmarshal X TyRaw (g ++ concat l)) in HP. rewrite HP. destruct (g ++ concat l); reflexivity.
        + rewrite (field_parse X tyPointName (pOptionalTag 0) _ 2 0 true full n (rs ++ i) false TagSequence true); try exact HD2; try reflexivity; try discriminate; try (right; auto; fail).
          unfold tyPointName. cbn [parseContent]. rewrite parseFields_cons. 
          pose proof (raw_tagged 0 (zeroVal TyRaw) (concat l) full [] HD1 ltac:(lia)) as HQ. rewrite app_nil_r in HQ. match goal with |- context [parseField X TyRaw (pOptionalTag 0) ?o _] => change o with (zeroVal TyRaw) end. rewrite HQ. reflexivity.
      - subst n. cbn [app]. exists (zeroVal tyPointName). split; [reflexivity|]. apply (skipped tyPointName (pOptionalTag 0) _ _ false TagSequence true); try reflexivity; try discriminate.
        destruct OR as [OR|(t & k & b & g & r & E & HG & Ht)]; [left; exact OR|right]. exists 2, t, k, b, g, r. split; [exact E|]. split; [exact HG|]. cbn. split; [reflexivity|right; exact Ht]. }
    destruct PN as (wn & HRn & PN). exists (VStruct [] [wn; wr; wi]). split; [exact HRn|]. intros r.
    apply (struct_field X _ _ (concat [n; rs; i])); [exact HS|exact HL|]. cbn [concat]. rewrite app_nil_r.
    rewrite parseFields_cons. match goal with |- context [parseField X ?t (pOptionalTag 0) ?o _] => change t with tyPointName end. match goal with |- context [parseField X tyPointName (pOptionalTag 0) ?o _] => change o with (zeroVal tyPointName) end. rewrite PN.
    rewrite parseFields_cons. match goal with |- context [parseField X TyBits (pOptionalTag 1) ?o _] => change o with (zeroVal TyBits) end. rewrite PR.
    rewrite parseFields_cons. match goal with |- context [parseField X TyRaw (pOptionalTag 2) ?o _] => change o with (zeroVal TyRaw) end. rewrite PI. reflexivity.
  Qed.
  Lemma points_ok crit l v : Forall point_der l -> seq_der l v -> zlen v < 2 ^ 31 -> parseKnown K 31 crit v <> None.
  Proof.
    intros HF HS HL. pose proof (der_element_size _ _ _ _ _ HS) as HZ. pose proof (der_small _ _ _ _ _ HS HL) as HE. assert (HB : forall g, In g l -> zlen g < 2 ^ 31) by (intros g Hg; pose proof (concat_bound l g Hg); lia).
    destruct (collect (fun v => readable (rawBytes (field 0 (field 0 v))) = true) (fun v f => forall r, parseField X tyPoint noParams (zeroVal tyPoint) (f ++ r) = (v, Some r)) l) as (vs & HV & HP).
    { intros f Hf. apply point_read; [rewrite Forall_forall in HF; exact (HF f Hf)|exact (HB f Hf)]. }
    unfold parseKnown. cbn [Z.eqb Pos.eqb]. rewrite (unmarshal_all tyDistributionPoints (VSlice vs) v).
    - assert (distributionPointsOk K (VSlice vs) = true) as ->; [|discriminate]. unfold distributionPointsOk. cbn [asSlice]. apply forallb_forall. intros w Hw. rewrite Forall_forall in HV. pose proof (HV w Hw) as HW. unfold readable in HW. destruct (rawBytes (field 0 (field 0 w))); exact HW.
    - intros r. change tyDistributionPoints with (TySlice false tyPoint).
      rewrite (field_parse X (TySlice false tyPoint) noParams _ 0 16 true (concat l) v r false TagSequence true); try exact HE; try reflexivity; try discriminate; try (right; auto; fail).
      apply (slice_content X false tyPoint TagSequence true); try reflexivity; try discriminate; try assumption.
      apply Forall_forall. intros f Hf. rewrite Forall_forall in HF. destruct (HF f Hf) as (? & ? & ? & ? & ? & ? & _ & _ & _ & HQ). eexists. exact (der_small _ _ _ _ _ HQ (HB f Hf)).
  Qed.
  Lemma relative_rejected crit v : relative_points v -> zlen v < 2 ^ 31 -> parseKnown K 31 crit v = None.
  Proof.
    intros (a & attrs & rel & n & more & p & points & HA & HR & HN & HP & HV) HL.
    pose proof (der_element_size _ _ _ _ _ HV) as Z1. cbn [concat] in Z1. rewrite zlen_app in Z1. pose proof (zlen_nonneg (concat points)).
    pose proof (der_element_size _ _ _ _ _ HP) as Z2. cbn [concat] in Z2. rewrite !zlen_app in Z2. change (zlen ([] : bytes)) with 0 in Z2. pose proof (zlen_nonneg more).
    pose proof (der_element_size _ _ _ _ _ HN) as Z3. pose proof (der_element_size _ _ _ _ _ HR) as Z4. cbn [concat] in Z4. rewrite zlen_app in Z4. pose proof (zlen_nonneg (concat attrs)).
    inversion HA as [|? ? (b & Ha) _]; subst. apply der_small in HV; [|lia]. apply der_small in HP; [|lia]. apply der_small in HN; [|lia]. apply der_small in HR; [|lia]. apply der_small in Ha; [|lia].
    assert (CE : forall elem, getUniversalType elem = Some (false, TagSet, true) -> countElements (List.length (a ++ concat attrs)) elem (a ++ concat attrs) = None).
    { intros elem EE. pose proof (element_nonempty _ _ _ _ _ (concat attrs) Ha) as NE. pose proof (element_parse _ _ _ _ _ (concat attrs) Ha) as EP. destruct (a ++ concat attrs) as [|x xs]; [congruence|]. cbn [List.length countElements]. rewrite EE, EP. reflexivity. }
    assert (PN : exists w, parseField X tyPointName (pOptionalTag 0) (zeroVal tyPointName) (n ++ more) = (w, None)).
    { rewrite (field_parse X tyPointName (pOptionalTag 0) _ 2 0 true rel n more false TagSequence true); try exact HN; try reflexivity; try discriminate; try (right; auto; fail).
      unfold tyPointName. cbn [parseContent]. rewrite parseFields_cons. rewrite (skipped TyRaw (pOptionalTag 0) _ rel true (-1) false); try reflexivity; try discriminate.
      - rewrite parseFields_cons. unfold tyRdnSequence.
        match goal with |- context [parseField X ?t (pOptionalTag 1) ?o _] => assert (exists w, parseField X t (pOptionalTag 1) o (rel ++ []) = (w, None)) as (w & HW) end; [|rewrite app_nil_r in *; rewrite HW; eexists; reflexivity].
        match goal with |- context [parseField X ?t (pOptionalTag 1) ?o _] => rewrite (field_parse X t (pOptionalTag 1) o 2 1 true (concat (a :: attrs)) rel [] false TagSequence true); try exact HR; try reflexivity; try discriminate; try (right; auto; fail) end.
        cbn [concat parseContent]. rewrite CE by reflexivity. eexists. reflexivity.
      - right. exists 2, 1, true, (concat (a :: attrs)), rel, []. rewrite app_nil_r. split; [reflexivity|]. split; [exact HR|]. cbn. split; [reflexivity|right; discriminate]. }
    destruct PN as (wn & PN).
    assert (PP : exists w, parseField X tyPoint noParams (zeroVal tyPoint) (p ++ concat points) = (w, None)).
    { rewrite (field_parse X tyPoint noParams _ 0 16 true (concat [n; more]) p (concat points) false TagSequence true); try exact HP; try reflexivity; try discriminate; try (right; auto; fail).
      unfold tyPoint. cbn [concat parseContent]. rewrite app_nil_r, parseFields_cons. match goal with |- context [parseField X ?t (pOptionalTag 0) ?o _] => change t with tyPointName end.
      match goal with |- context [parseField X tyPointName (pOptionalTag 0) ?o _] => change o with (zeroVal tyPointName) end. rewrite PN. eexists. reflexivity. }
    destruct PP as (wp & PP). unfold parseKnown. cbn [Z.eqb Pos.eqb]. destruct (unmarshalAll K tyDistributionPoints v) as [u|] eqn:EU; [|reflexivity]. exfalso. apply unmarshalAll_some in EU. unfold unmarshal in EU.
    change tyDistributionPoints with (TySlice false tyPoint) in EU. rewrite <- (app_nil_r v) in EU.
    rewrite (field_parse X (TySlice false tyPoint) noParams _ 0 16 true (concat (p :: points)) v [] false TagSequence true) in EU; try exact HV; try reflexivity; try discriminate; try (right; auto; fail).
    cbn [concat parseContent] in EU. destruct (countElements _ _ _) as [[|m]|] eqn:EC; [| |discriminate].
    - pose proof (element_nonempty _ _ _ _ _ (concat points) HP) as NE. destruct (p ++ concat points) as [|x xs]; [congruence|]. cbn [List.length countElements] in EC. destruct (getUniversalType tyPoint) as [[[? ?] ?]|]; [|discriminate].
      destruct (parseTagAndLength (x :: xs)) as [[? ?]|]; [|discriminate]. destruct (_ && _); [discriminate|]. destruct (_ <? _); [discriminate|]. destruct (countElements _ _ _); discriminate.
    - cbn [parseElems] in EU. rewrite PP in EU. discriminate.
  Qed.
  Lemma extensions_none l x : In x l -> parseExtension K (x_id x) (x_critical x) (x_value x) = None -> parseExtensions K (map ext_val l) = None.
  Proof.
    intros HI HN. induction l as [|y l IH]; [contradiction|]. cbn [map parseExtensions ext_val field nth asOid asBytes].
    destruct (parseExtension K (x_id y) (x_critical y) (x_value y)) as [u|] eqn:E1; [|reflexivity]. destruct HI as [-> |HI]; [congruence|]. rewrite (IH HI). reflexivity.
  Qed.
  Lemma value_accepted id crit v : value_ok crit id v -> zlen v < 2 ^ 31 -> parseExtension K id crit v <> None.
  Proof.
    intros H HL. assert (D : forall ty w, (forall r, parseField X ty noParams (zeroVal ty) (v ++ r) = (w, Some r)) -> decodable K ty v <> None). { intros ty w Hw. rewrite (decodable_ok ty w v Hw). discriminate. }
    destruct H as [b v HD|v (pad & b & Hp & Hb0 & Hb1 & HD)|l v HA HO|ca path c p v HC HP HS|perm excl p e v HP HE HS HC|l v HF HS|v HS|kid i more v HI HM HS|l v HF HS|v HS|id v HN].
    - rewrite parse_known. apply (D TyBytes (VBytes b)). intros r. apply bytes_field; assumption.
    - rewrite parse_known. apply (D TyBits (VBits b (8 * zlen b - pad))). intros r. apply der_small in HD; [|exact HL].
      rewrite (field_parse X TyBits noParams _ 0 3 false (z2b pad :: b) v r false TagBitString false); try exact HD; try reflexivity; try discriminate; try (right; auto; fail).
      cbn [parseContent]. assert (E : parseBitString (z2b pad :: b) = Some (b, 8 * zlen b - pad)) by (apply parseBits_iff; exists pad; repeat split; try lia; assumption). rewrite E. reflexivity.
    - rewrite parse_known. unfold parseKnown. cbn [Z.eqb Pos.eqb]. assert (E : parseSANExtension K v = Some (existsb supportedb l)) by (apply san_iff; exists l; auto). rewrite E. discriminate.
    - rewrite parse_known. pose proof (der_element_size _ _ _ _ _ HS) as HZ. cbn [concat] in HZ. rewrite !zlen_app in HZ. change (zlen ([] : bytes)) with 0 in HZ. pose proof (zlen_nonneg c). pose proof (zlen_nonneg p).
      assert (PP : exists w, forall old, parseField X TyInt (pOptionalDefault (-1)) old p = (w, Some [])).
      { destruct path as [n|]; cbn [optional] in HP.
        - destruct HP as (HR & oc & HO & HD). exists (VInt n). intros old. apply der_small in HD; [|lia]. rewrite <- (app_nil_r p).
          rewrite (field_parse X TyInt (pOptionalDefault (-1)) old 0 2 false oc p [] false TagInteger false); try exact HD; try reflexivity; try discriminate; try (right; auto; fail).
          cbn [parseContent]. assert (E : parseInt64 oc = Some n); [|rewrite E; reflexivity]. rewrite (integer_octets_unique _ _ _ HO (proj1 (encodeInt64_octets n HR))). apply parse_encode_int64. exact HR.
        - subst p. exists (VInt (-1)). intros old. reflexivity. }
      destruct PP as (wp & PP).
      assert (PC : exists w, parseField X TyBool pOptional (VBool false) (c ++ p) = (w, Some p)).
      { destruct ca as [b|]; cbn [optional] in HC.
        - exists (VBool b). apply der_small in HC; [|lia]. rewrite (field_parse X TyBool pOptional _ 0 1 false [if b then xff else x00] c p false TagBoolean false); try exact HC; try reflexivity; try discriminate; try (right; auto; fail). destruct b; reflexivity.
        - subst c. cbn [app]. exists (VBool false). destruct path as [n|]; cbn [optional] in HP; [|subst p; reflexivity]. destruct HP as (_ & oc & _ & HD). apply der_small in HD; [|lia]. rewrite <- (app_nil_r p).
          apply (field_absent X TyBool pOptional _ 0 2 false oc p [] false TagBoolean false); try exact HD; try reflexivity; try discriminate. cbn. split; [reflexivity|right; discriminate]. }
      destruct PC as (wc & PC). apply (D tyBasicConstraints (VStruct [] [wc; wp])). intros r. apply (struct_field X _ _ (concat [c; p])); [exact HS|exact HL|]. cbn [concat]. rewrite app_nil_r. rewrite parseFields_cons.
      match goal with |- context [parseField X TyBool pOptional ?o _] => change o with (VBool false) end. rewrite PC. rewrite parseFields_cons, PP. reflexivity.
    - rewrite parse_known. exact (constraints_ok crit perm excl p e v HP HE HS HC HL).
    - rewrite parse_known. exact (points_ok crit l v HF HS HL).
    - rewrite parse_known. unfold parseKnown. cbn [Z.eqb Pos.eqb]. rewrite (oid_seqs_ok FNil tyPolicies (fun _ => True) v); try assumption; try discriminate; [left; exact I|reflexivity].
    - rewrite parse_known. pose proof (der_element_size _ _ _ _ _ HS) as HZ. cbn [concat] in HZ. rewrite !zlen_app in HZ. change (zlen ([] : bytes)) with 0 in HZ. pose proof (zlen_nonneg i). pose proof (zlen_nonneg more).
      assert (PI : exists w rest, parseField X TyBytes (pOptionalTag 0) (zeroVal TyBytes) (i ++ more) = (w, Some rest)).
      { destruct kid as [b|]; cbn [optional] in HI.
        - exists (VBytes b), more. apply der_small in HI; [|lia]. rewrite (field_parse X TyBytes (pOptionalTag 0) _ 2 0 false b i more false TagOctetString false); try exact HI; try reflexivity; try discriminate; try (right; auto; fail).
        - subst i. cbn [app]. destruct HM as [-> |(e & rest & t & k & b & -> & HE & Ht)]; [do 2 eexists; reflexivity|]. do 2 eexists. apply (field_absent X TyBytes (pOptionalTag 0) _ 2 t k b e rest false TagOctetString false); try exact HE; try reflexivity; try discriminate. cbn. split; [reflexivity|right; exact Ht]. }
      destruct PI as (w & rest & PI). apply (D tyAuthKeyId (VStruct [] [w])). intros r. apply (struct_field X _ _ (concat [i; more])); [exact HS|exact HL|]. cbn [concat]. rewrite app_nil_r, parseFields_cons.
      match goal with |- context [parseField X TyBytes (pOptionalTag 0) ?o _] => change o with (zeroVal TyBytes) end. rewrite PI. reflexivity.
    - rewrite parse_known. pose proof (der_element_size _ _ _ _ _ HS) as HZ. pose proof (der_small _ _ _ _ _ HS HL) as HE. assert (HB : forall g, In g l -> zlen g < 2 ^ 31) by (intros g Hg; pose proof (concat_bound l g Hg); lia).
      assert (G : exists vs, Forall2 (fun v f => forall r, parseField X TyOid noParams (zeroVal TyOid) (f ++ r) = (v, Some r)) vs l /\ Forall (fun f => exists c, element 0 6 false c f) l).
      { clear HS HE HZ HL D. induction l as [|f fs IH]; [exists []; split; constructor|]. inversion HF as [|? ? (o & HO & HV) HF']; subst. destruct (IH HF') as (vs & F & G); [intros g Hg; apply HB; right; exact Hg|]. assert (HLf : zlen f < 2 ^ 31) by (apply HB; left; reflexivity).
        exists (VOid o :: vs). split; constructor; try assumption; [intros r; apply oid_field; assumption|]. destruct HO as (oc & _ & HO). eexists. apply (der_small _ _ _ _ _ HO HLf). }
      destruct G as (vs & F & G). apply (D (TySlice false TyOid) (VSlice vs)). intros r.
      rewrite (field_parse X (TySlice false TyOid) noParams _ 0 16 true (concat l) v r false TagSequence true); try exact HE; try reflexivity; try discriminate; try (right; auto; fail).
      apply (slice_content X false TyOid TagOID false); try reflexivity; try discriminate; assumption.
    - rewrite parse_aia. rewrite (oid_seqs_ok (FCons noParams TyRaw FNil) tyAia is_element v); try assumption; try discriminate; [right; split; [reflexivity|auto]|reflexivity].
    - destruct (extension_cases id) as [(x & ->)|[-> |(N1 & N2)]].
      + rewrite parse_known, known_other; [discriminate|]. intros C. apply HN, ce_recognised. exact C.
      + exfalso. apply HN. left. reflexivity.
      + rewrite parse_other by assumption. discriminate.
  Qed.
  Lemma extensions_accepted l : Forall (fun x => value_ok (x_critical x) (x_id x) (x_value x) /\ zlen (x_value x) < 2 ^ 31) l -> exists u, parseExtensions K (map ext_val l) = Some u.
  Proof.
    induction 1 as [|x l (HV & HL) F (u & IH)]; [exists false; reflexivity|]. cbn [map parseExtensions ext_val field nth asOid asBytes]. pose proof (value_accepted (x_id x) (x_critical x) (x_value x) HV HL) as HA.
    destruct (parseExtension K (x_id x) (x_critical x) (x_value x)); [|congruence]. rewrite IH. eexists. reflexivity.
  Qed.
End K.
