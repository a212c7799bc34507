(** pkix.Name and signature algorithms *)
From Coq Require Import Lia.
From Verif.Model Require Import Bytes Env Ber Asn1 Pkcs7 X509.
From Verif.Spec Require Import Ber Asn1 Asn1Value Pkcs7 X509.
From Verif.Proofs Require Import BytesFacts BerFacts Asn1Codec Asn1Header Asn1Value Asn1Decode DerFacts DerSize Pkcs7Facts Pkcs7Parse Pkcs7Honest X509Facts X509Keys X509Honest.

Lemma nameValues_doc t n : nameValues t (name_text n) = attribute_values t n.
Proof.
  unfold nameValues, attribute_values, name_text. rewrite !flat_map_concat_map, map_map. f_equal. apply map_ext. intros l. rewrite !flat_map_concat_map, map_map. f_equal. apply map_ext. intros a. cbn [at_value at_type].
  destruct a as [o w]. cbn [fst snd]. destruct (list_eq_dec Z.eq_dec o [2; 5; 4; t]) as [E|N]; [apply oidEqual_iff in E; rewrite E|apply oidEqual_neq in N; rewrite N]; reflexivity.
Qed.
Lemma nameValues_app t a b : nameValues t (a ++ b) = nameValues t a ++ nameValues t b.
Proof. unfold nameValues. apply flat_map_app. Qed.
Lemma nameValues_append t u l : nameValues t (appendRDNs u l) = if t =? u then l else [].
Proof.
  assert (G : flat_map (fun a => match at_value a with AvString s => if oidEqual (at_type a) [2; 5; 4; t] then [s] else [] | AvOther _ => [] end) (map (fun v => {| at_type := [2; 5; 4; u]; at_value := AvString v |}) l) = if t =? u then l else []).
  { induction l as [|x l IH]; [destruct (t =? u); reflexivity|]. cbn [map flat_map at_value at_type oidEqual]. rewrite IH. rewrite (Z.eqb_sym u t). destruct (t =? u); reflexivity. }
  unfold nameValues, appendRDNs. destruct l as [|x l]; [destruct (t =? u); reflexivity|]. cbn [flat_map]. rewrite app_nil_r. exact G.
Qed.
Lemma goName_values t n : nameValues t (goName n) =
  if existsb (Z.eqb t) [6; 10; 11; 7; 8; 9; 17] then nameValues t n else if existsb (Z.eqb t) [3; 5] then lastNonEmpty (nameValues t n) else [].
Proof.
  unfold goName. rewrite !nameValues_app, !nameValues_append.
  destruct (in_dec Z.eq_dec t [6; 10; 11; 7; 8; 9; 17; 3; 5]) as [HI|HN].
  - repeat (destruct HI as [<-|HI]; [cbn [Z.eqb Pos.eqb existsb orb app]; rewrite ?app_nil_r; reflexivity|]). contradiction.
  - cbn [In] in HN. cbn [existsb]. repeat match goal with |- context [?a =? ?b] => assert (a =? b = false) as -> by (apply Z.eqb_neq; intros C; apply HN; lia) end. reflexivity.
Qed.
Lemma lastNonEmpty_iff l l' : lastNonEmpty l = lastNonEmpty l' <-> last_value l = last_value l'.
Proof. unfold lastNonEmpty, last_value. destruct (last l []), (last l' []); split; congruence. Qed.
Lemma goName_iff n n' : goName (name_text n) = goName (name_text n') <-> same_for_go n n'.
Proof.
  split.
  - intros E. split; intros t HT.
    + apply (f_equal (nameValues t)) in E. rewrite !goName_values, !nameValues_doc in E. assert (existsb (Z.eqb t) [6; 10; 11; 7; 8; 9; 17] = true) as G by (apply existsb_exists; exists t; split; [exact HT|apply Z.eqb_refl]). rewrite G in E. exact E.
    + apply (f_equal (nameValues t)) in E. rewrite !goName_values, !nameValues_doc in E. apply lastNonEmpty_iff. cbn [In] in HT. destruct HT as [<-|[<-|[]]]; exact E.
  - intros [H1 H2]. unfold goName. rewrite !nameValues_doc. rewrite !H1 by (cbn; tauto).
    assert (E : forall t, In t [3; 5] -> lastNonEmpty (attribute_values t n) = lastNonEmpty (attribute_values t n')) by (intros t HT; apply lastNonEmpty_iff, H2, HT).
    rewrite (E 3) by (cbn; tauto). rewrite (E 5) by (cbn; tauto). reflexivity.
Qed.

Lemma plain_table o n : plain_algorithm o n <-> (o <> oidRSAPSS /\ exists e, find (fun e => oidEqual o (fst e)) signatureAlgorithms = Some e /\ snd e = n).
Proof.
  split.
  - intros H. destruct H; (split; [discriminate|eexists; split; [reflexivity|reflexivity]]).
  - intros (_ & e & HF & <-). apply find_some in HF as [HI HE]. apply oidEqual_iff in HE. subst o. repeat (destruct HI as [<-|HI]; [constructor|]). contradiction.
Qed.
Lemma plain_unknown o : o <> id_pss -> (forall n, ~ plain_algorithm o n) -> find (fun e => oidEqual o (fst e)) signatureAlgorithms = None.
Proof. intros HP H. destruct (find _ _) as [e|] eqn:E; [|reflexivity]. exfalso. apply (H (snd e)). apply plain_table. split; [exact HP|]. exists e. auto. Qed.

Section K.
  Variable K : xenv.
  Notation X := (k_text K).

  Lemma explicit_int p t old z i e r : fp_explicit p = true -> fp_application p = false -> fp_tag p = Some t -> fp_set p = false -> int64_element z i -> explicit t i e -> zlen e < 2 ^ 31 ->
    parseField X TyInt p old (e ++ r) = (VInt z, Some r).
  Proof.
    intros H1 H2 H3 H4 (HR & oc & HO & HD) HE HL. pose proof (der_element_size _ _ _ _ _ HE) as HZ. apply der_small in HE; [|exact HL]. apply der_small in HD; [|lia].
    rewrite (explicit_field X TyInt p old t 0 2 false oc i e _ false TagInteger false); try assumption; try reflexivity; try discriminate.
    - cbn [parseContent]. assert (E : parseInt64 oc = Some z); [|rewrite E; reflexivity]. rewrite (integer_octets_unique _ _ _ HO (proj1 (encodeInt64_octets z HR))). apply parse_encode_int64. exact HR.
    - unfold adjustTag, expected. rewrite H1, H3, H4. right. split; reflexivity.
    - right. reflexivity.
  Qed.
  Lemma explicit_algorithm t a f e : algorithm_der a f -> valid_oid (fst a) -> explicit t f e -> zlen e < 2 ^ 31 ->
    exists v, asOid (field 0 v) = fst a /\ rawFull (field 1 v) = (match snd a with Some e => e | None => [] end) /\ forall r, parseField X tyAlgorithm (pRequired t) (zeroVal tyAlgorithm) (e ++ r) = (v, Some r).
  Proof.
    intros HA HV HE HL. pose proof (der_element_size _ _ _ _ _ HE) as HZ. destruct (algorithm_value X a f HA HV ltac:(lia)) as (v & E1 & E2 & EP). exists v. split; [exact E1|]. split; [exact E2|]. intros r.
    destruct HA as (o & ps & _ & _ & HS). apply der_small in HS; [|lia]. apply der_small in HE; [|exact HL]. unfold tyAlgorithm in *.
    rewrite (explicit_field X (TyStruct false (FCons noParams TyOid (FCons pOptional TyRaw FNil))) (pRequired t) _ t 0 16 true (concat [o; ps]) f e r false TagSequence true); try exact HE; try exact HS; try reflexivity; try discriminate; try (right; auto; fail).
    specialize (EP r). rewrite (field_parse X (TyStruct false (FCons noParams TyOid (FCons pOptional TyRaw FNil))) noParams _ 0 16 true (concat [o; ps]) f r false TagSequence true) in EP; try exact HS; try reflexivity; try discriminate; try (right; auto; fail).
    cbn [parseContent] in *. exact EP.
  Qed.
  Lemma pss_value d f : pss_der d f -> zlen f < 2 ^ 31 ->
    exists p mgf, unmarshal X tyPss f = (p, Some []) /\ unmarshal X tyAlgorithm (rawFull (field 1 (field 1 p))) = (mgf, Some []) /\
      asOid (field 0 (field 0 p)) = fst (pss_hash d) /\ rawFull (field 1 (field 0 p)) = (match snd (pss_hash d) with Some e => e | None => [] end) /\ asOid (field 0 (field 1 p)) = pss_mgf d /\
      asOid (field 0 mgf) = fst (pss_mgf_hash d) /\ rawFull (field 1 mgf) = (match snd (pss_mgf_hash d) with Some e => e | None => [] end) /\
      asInt (field 2 p) = pss_salt d /\ asInt (field 3 p) = (match pss_trailer d with Some t => t | None => 1 end).
  Proof.
    intros (h & he & mh & m & me & s & se & te & Hh & Vh & Xh & Hmh & Vmh & Hm & Vm & Xm & Hs & Xs & Ht & HS) HL. pose proof (der_element_size _ _ _ _ _ HS) as HZ. cbn [concat] in HZ. rewrite !zlen_app in HZ. change (zlen ([] : bytes)) with 0 in HZ.
    pose proof (zlen_nonneg he). pose proof (zlen_nonneg me). pose proof (zlen_nonneg se). pose proof (zlen_nonneg te).
    destruct (explicit_algorithm 0 (pss_hash d) h he Hh Vh Xh ltac:(lia)) as (vh & E1 & E2 & Ph). destruct (explicit_algorithm 1 (pss_mgf d, Some mh) m me Hm Vm Xm ltac:(lia)) as (vm & E3 & E4 & Pm). cbn [fst snd] in *.
    assert (ZM : zlen mh < 2 ^ 31). { pose proof (der_element_size _ _ _ _ _ Xm). destruct Hm as (o & ps & _ & (_ & ->) & Hm). apply der_element_size in Hm. cbn [concat] in Hm. rewrite !zlen_app in Hm. change (zlen ([] : bytes)) with 0 in Hm. pose proof (zlen_nonneg o). lia. }
    destruct (algorithm_value X (pss_mgf_hash d) mh Hmh Vmh ZM) as (vg & E5 & E6 & Pg).
    assert (PT : exists w, asInt w = (match pss_trailer d with Some t => t | None => 1 end) /\ parseField X TyInt (pExplicitDefault 1 3) (VInt 0) te = (w, Some [])).
    { destruct (pss_trailer d) as [t|]; cbn [optional] in Ht.
      - destruct Ht as (i & Hi & Xi). exists (VInt t). split; [reflexivity|]. rewrite <- (app_nil_r te). apply (explicit_int (pExplicitDefault 1 3) 3 _ t i); try reflexivity; try assumption. lia.
      - subst te. exists (VInt 1). split; reflexivity. }
    destruct PT as (w & E7 & PT). exists (VStruct [] [vh; vm; VInt (pss_salt d); w]), vg. split.
    { unfold unmarshal. rewrite <- (app_nil_r f). apply (struct_field X _ _ (concat [he; me; se; te])); [exact HS|exact HL|]. cbn [concat]. rewrite app_nil_r.
      rewrite parseFields_cons. match goal with |- context [parseField X tyAlgorithm (pRequired 0) ?o _] => change o with (zeroVal tyAlgorithm) end. rewrite Ph.
      rewrite parseFields_cons. match goal with |- context [parseField X tyAlgorithm (pRequired 1) ?o _] => change o with (zeroVal tyAlgorithm) end. rewrite Pm.
      rewrite parseFields_cons. rewrite (explicit_int (pRequired 2) 2 _ (pss_salt d) s se) by (try reflexivity; try assumption; lia).
      rewrite parseFields_cons. match goal with |- context [parseField X TyInt (pExplicitDefault 1 3) ?o _] => change o with (VInt 0) end. rewrite PT. reflexivity. }
    cbn [field nth asInt]. split; [rewrite E4; unfold unmarshal; rewrite <- (app_nil_r mh); apply Pg|]. repeat split; assumption.
  Qed.
  Lemma params_null (o : option bytes) : (bytes_eqb (match o with Some e => e | None => [] end) nullBytes = true) <-> o = Some der_null.
  Proof. rewrite bytes_eqb_eq. unfold nullBytes, der_null. destruct o as [e|]; split; congruence. Qed.
  Lemma pss_algorithm d f n : pss_der d f -> zlen f < 2 ^ 31 -> 0 < n -> (pssAlgorithm K f = n <-> pss_kind d n).
  Proof.
    intros HD HL Hn. destruct (pss_value d f HD HL) as (p & mgf & EU & EG & E1 & E2 & E3 & E4 & E5 & E6 & E7). unfold pssAlgorithm. rewrite EU, EG, E1, E2, E3, E4, E5, E6, E7. clear EU EG E1 E2 E3 E4 E5 E6 E7 p mgf.
    destruct (bytes_eqb (match snd (pss_hash d) with Some e => e | None => [] end) nullBytes) eqn:B1; cbn [negb orb].
    2:{ split; [lia|]. intros (bits & _ & Eh & _). rewrite Eh in B1. cbn [snd] in B1. discriminate. }
    apply params_null in B1. destruct (oidEqual (pss_mgf d) oidMGF1) eqn:B2; cbn [negb orb].
    2:{ split; [lia|]. intros (bits & _ & _ & Em & _). rewrite Em in B2. discriminate. }
    apply oidEqual_iff in B2. destruct (oidEqual (fst (pss_mgf_hash d)) (fst (pss_hash d))) eqn:B3; cbn [negb orb].
    2:{ split; [lia|]. intros (bits & _ & Eh & _ & Em & _). rewrite Em, Eh in B3. cbn [fst] in B3. rewrite oidEqual_refl in B3. discriminate. }
    apply oidEqual_iff in B3. destruct (bytes_eqb (match snd (pss_mgf_hash d) with Some e => e | None => [] end) nullBytes) eqn:B4; cbn [negb orb].
    2:{ split; [lia|]. intros (bits & _ & _ & _ & Em & _). rewrite Em in B4. cbn [snd] in B4. discriminate. }
    apply params_null in B4. destruct (Z.eqb_spec (match pss_trailer d with Some t => t | None => 1 end) 1) as [B5|B5]; cbn [negb orb].
    2:{ split; [lia|]. intros (bits & _ & _ & _ & _ & _ & [Et|Et]); rewrite Et in B5; congruence. }
    assert (TR : pss_trailer d = None \/ pss_trailer d = Some 1) by (destruct (pss_trailer d); [right; congruence|left; reflexivity]).
    destruct (pss_hash d) as [h hp] eqn:Eh. destruct (pss_mgf_hash d) as [g gp] eqn:Eg. cbn [fst snd] in *. subst g hp gp. unfold pss_kind. rewrite Eh, Eg, B2.
    destruct (oidEqual h oidSHA256) eqn:S1; [apply oidEqual_iff in S1|].
    - destruct (Z.eqb_spec (pss_salt d) 32) as [Es|Es]; cbn [andb].
      + rewrite Es. split.
        * intros <-. exists 256. repeat split; try (subst h; reflexivity); auto.
        * intros (bits & [(-> & ->)|[(-> & _)|(-> & _)]] & _ & _ & _ & C & _); [reflexivity|discriminate|discriminate].
      + subst h. change (oidEqual oidSHA256 oidSHA384) with false. change (oidEqual oidSHA256 oidSHA512) with false. cbn [andb]. split; [lia|]. intros (bits & [(-> & ->)|[(-> & _)|(-> & _)]] & C1 & _ & _ & C & _); [exfalso; apply Es; exact C|discriminate|discriminate].
    - cbn [andb]. destruct (oidEqual h oidSHA384) eqn:S2; [apply oidEqual_iff in S2|].
      + subst h. destruct (Z.eqb_spec (pss_salt d) 48) as [Es|Es]; cbn [andb].
        * rewrite Es. split; [intros <-; exists 384; repeat split; try reflexivity; auto 6|]. intros (bits & [(-> & ->)|[(-> & ->)|(-> & _)]] & C1 & _ & _ & C & _); [discriminate|reflexivity|discriminate].
        * change (oidEqual oidSHA384 oidSHA512) with false. cbn [andb]. split; [lia|]. intros (bits & [(-> & ->)|[(-> & _)|(-> & _)]] & C1 & _ & _ & C & _); [discriminate|exfalso; apply Es; exact C|discriminate].
      + cbn [andb]. destruct (oidEqual h oidSHA512) eqn:S3; [apply oidEqual_iff in S3|].
        * subst h. destruct (Z.eqb_spec (pss_salt d) 64) as [Es|Es]; cbn [andb].
          -- rewrite Es. split; [intros <-; exists 512; repeat split; try reflexivity; auto 6|]. intros (bits & [(-> & ->)|[(-> & ->)|(-> & ->)]] & C1 & _ & _ & C & _); [discriminate|discriminate|reflexivity].
          -- split; [lia|]. intros (bits & [(-> & ->)|[(-> & _)|(-> & _)]] & C1 & _ & _ & C & _); [discriminate|discriminate|exfalso; apply Es; exact C].
        * cbn [andb]. split; [lia|]. intros (bits & [(-> & ->)|[(-> & _)|(-> & _)]] & C1 & _); exfalso.
          -- assert (h = oidSHA256) as -> by (unfold id_sha in C1; cbn in C1; unfold oidSHA256; congruence). discriminate.
          -- assert (h = oidSHA384) as -> by (unfold id_sha in C1; cbn in C1; unfold oidSHA384; congruence). discriminate.
          -- assert (h = oidSHA512) as -> by (unfold id_sha in C1; cbn in C1; unfold oidSHA512; congruence). discriminate.
  Qed.
End K.
