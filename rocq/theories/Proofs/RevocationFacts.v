(** Reading certificate revocation lists *)
From Coq Require Import Lia.
From Verif.Model Require Import Bytes Env Ber Asn1 Pkcs7 X509 Pkcs7Verify.
From Verif.Spec Require Import Ber Asn1 Asn1Value Pkcs7 X509 Revocation.
From Verif.Proofs Require Import BytesFacts BerFacts Asn1Codec Asn1Header Asn1Value Asn1Decode DerFacts DerSize Pkcs7Facts Pkcs7Parse Pkcs7Honest X509Facts X509Keys X509Honest.

Section R.
  Variable K : xenv.
  Notation X := (k_text K).

  Lemma values_of {A} (R : A -> bytes -> Prop) (P : goval -> bytes -> Prop) (S : A -> goval -> Prop) l fs :
    (forall a f, In f fs -> R a f -> exists v, S a v /\ P v f) -> Forall2 R l fs -> exists vs, Forall2 S l vs /\ Forall2 P vs fs.
  Proof.
    intros H F. induction F as [|a f l fs Ra F IH]; [exists []; split; constructor|].
    destruct (H a f (or_introl eq_refl) Ra) as (v & Sv & Pv). destruct IH as (vs & S' & P'); [intros b g Hg; apply H; right; exact Hg|].
    exists (v :: vs). split; constructor; assumption.
  Qed.
  Lemma map_says {A B} (g : goval -> B) (k : A -> B) l vs : Forall2 (fun a v => g v = k a) l vs -> map g vs = map k l.
  Proof. induction 1 as [|a v l vs E F IH]; [reflexivity|]. cbn [map]. rewrite E, IH. reflexivity. Qed.
  Lemma elements_of {A} (R : A -> bytes -> Prop) l fs : (forall a f, R a f -> zlen f < 2 ^ 31 -> exists c, element 0 16 true c f) ->
    (forall f, In f fs -> zlen f < 2 ^ 31) -> Forall2 R l fs -> Forall (fun f => exists c, element 0 16 true c f) fs.
  Proof.
    intros H B F. induction F as [|a f l fs Ra F IH]; [constructor|]. constructor; [exact (H a f Ra (B f (or_introl eq_refl)))|].
    apply IH. intros g Hg. apply B. right. exact Hg.
  Qed.

  Lemma slice_of {A} (R : A -> bytes -> Prop) fields (S : A -> goval -> Prop) p old c t l fs f r : fp_explicit p = false ->
    (let '(ec, et, anyTag) := expected p false (adjustTag p (hd c t (zlen (concat fs)) true) TagSequence) in anyTag = true \/ (c = ec /\ t = et)) ->
    (forall a f, R a f -> zlen f < 2 ^ 31 -> exists c, element 0 16 true c f) ->
    (forall a f, R a f -> zlen f < 2 ^ 31 -> exists v, S a v /\ forall r, parseField X (TyStruct false fields) noParams (zeroVal (TyStruct false fields)) (f ++ r) = (v, Some r)) ->
    Forall2 R l fs -> der_element c t true (concat fs) f -> zlen f < 2 ^ 31 ->
    exists vs, Forall2 S l vs /\ parseField X (TySlice false (TyStruct false fields)) p old (f ++ r) = (VSlice vs, Some r).
  Proof.
    intros He Hx HE HP HF HD HL. pose proof (der_element_size _ _ _ _ _ HD) as HZ.
    assert (HB : forall g, In g fs -> zlen g < 2 ^ 31) by (intros g Hg; pose proof (concat_bound fs g Hg); lia).
    destruct (values_of R (fun v f => forall r, parseField X (TyStruct false fields) noParams (zeroVal (TyStruct false fields)) (f ++ r) = (v, Some r)) S l fs) as (vs & Sv & Pv); [intros a g Hg Ra; exact (HP a g Ra (HB g Hg))|exact HF|].
    exists vs. split; [exact Sv|]. apply (slice_field X fields p old c t (concat fs) f r vs fs); [exact He|apply der_element_element; [exact HD|lia]|reflexivity|exact Hx| |exact Pv].
    exact (elements_of R l fs HE HB HF).
  Qed.

  Lemma ext_is_seq a f : extension_der a f -> zlen f < 2 ^ 31 -> exists c, element 0 16 true c f.
  Proof. intros (i & c & v & _ & _ & _ & _ & HS) HL. eexists. exact (der_small _ _ _ _ _ HS HL). Qed.
  Definition says_ext (e : ext_doc) (v : goval) : Prop := extensionOf v = kept_extension e.
  Lemma ext_read a f : extension_der a f -> zlen f < 2 ^ 31 -> exists v, says_ext a v /\ forall r, parseField X tyExtension noParams (zeroVal tyExtension) (f ++ r) = (v, Some r).
  Proof. intros H HL. exists (ext_val a). split; [reflexivity|]. exact (extension_field X a f H HL). Qed.
  Definition says_exts (x : option (list ext_doc)) (v : goval) : Prop := map extensionOf (asSlice v) = map kept_extension (listed x).

  (* optional extensions at the end of a revoked certificate *)
  Lemma entry_exts x f : optional extensions_der x f -> zlen f < 2 ^ 31 ->
    exists v, says_exts x v /\ parseField X (TySlice false tyExtension) pOptional VNil f = (v, Some []).
  Proof.
    intros H HL. destruct x as [l|]; cbn [optional] in H.
    - destruct H as (es & HF & HS). destruct (slice_of extension_der _ says_ext pOptional VNil 0 16 l es f [] eq_refl (or_intror (conj eq_refl eq_refl)) ext_is_seq ext_read HF HS HL) as (vs & Sv & P).
      rewrite app_nil_r in P. exists (VSlice vs). split; [|exact P]. exact (map_says extensionOf kept_extension l vs Sv).
    - subst f. exists VNil. split; [reflexivity|]. apply field_end; reflexivity.
  Qed.

  Definition says_revoked (d : revoked_doc) (v : goval) : Prop := revokedOf v = kept_revoked d.
  Lemma revoked_read d f : revoked_der X d f -> zlen f < 2 ^ 31 ->
    exists v, says_revoked d v /\ forall r, parseField X tyRevoked noParams (zeroVal tyRevoked) (f ++ r) = (v, Some r).
  Proof.
    intros (s & t & x & Hs & Ht & Hx & HS) HL. pose proof (der_element_size _ _ _ _ _ HS) as HZ. cbn [concat] in HZ. rewrite !zlen_app in HZ. change (zlen ([] : bytes)) with 0 in HZ.
    pose proof (zlen_nonneg s). pose proof (zlen_nonneg t). pose proof (zlen_nonneg x).
    destruct (entry_exts (rd_exts d) x Hx ltac:(lia)) as (v & Sv & P).
    exists (VStruct [] [VInt (rd_serial d); VTime (rd_date d); v]). split.
    { unfold says_revoked, revokedOf, kept_revoked. cbn [field nth asInt asTime]. rewrite Sv. reflexivity. }
    intros r. apply (struct_field X _ _ (concat [s; t; x])); [exact HS|exact HL|]. cbn [concat].
    rewrite parseFields_cons, (big_field X _ (rd_serial d) s) by (try assumption; lia). cbn [zeroVal zeroFields fieldsOf tl tyRevoked].
    rewrite parseFields_cons, (time_field X (rd_date d)) by (try assumption; lia). cbn [tl]. rewrite app_nil_r. rewrite parseFields_cons. cbn [List.hd]. rewrite P. reflexivity.
  Qed.
  Lemma revoked_is_seq d f : revoked_der X d f -> zlen f < 2 ^ 31 -> exists c, element 0 16 true c f.
  Proof. intros (s & t & x & _ & _ & _ & HS) HL. eexists. exact (der_small _ _ _ _ _ HS HL). Qed.

  (* the parts of a list *)
  Lemma version_field d f g r : optional int64_element d f -> zlen f < 2 ^ 31 -> (exists c, element 0 16 true c g) ->
    parseField X TyInt (pOptionalDefault 0) (VInt 0) (f ++ g ++ r) = (VInt (match d with Some v => v | None => 0 end), Some (g ++ r)).
  Proof.
    intros H HL (c & HG). destruct d as [v|]; cbn [optional] in H.
    - destruct H as (HR & oc & HO & HD). apply der_small in HD; [|exact HL].
      rewrite (field_parse X TyInt (pOptionalDefault 0) _ 0 2 false oc f _ false TagInteger false); try exact HD; try reflexivity; try discriminate; try (right; auto; fail).
      cbn [parseContent]. assert (E : parseInt64 oc = Some v); [|rewrite E; reflexivity].
      rewrite (integer_octets_unique _ _ _ HO (proj1 (encodeInt64_octets v HR))). apply parse_encode_int64. exact HR.
    - subst f. cbn [app]. assert (HH : parseHeader TyInt (pOptionalDefault 0) (g ++ r) = HMismatch).
      { apply (header_absent TyInt (pOptionalDefault 0) 0 16 true c g r false TagInteger false); try reflexivity; [exact HG|]. cbn. split; [reflexivity|right; discriminate]. }
      pose proof (element_nonempty _ _ _ _ _ r HG) as HN. destruct (g ++ r) as [|x xs]; [congruence|]. cbn [parseField]. rewrite HH. reflexivity.
  Qed.
  (* what may follow *)
  Definition follows (bad : list (Z * Z)) (s : bytes) : Prop :=
    s = [] \/ exists c t k b e r, s = e ++ r /\ element c t k b e /\ ~ In (c, t) bad.
  Lemma next_field d f s : optional (time_der X) d f -> zlen f < 2 ^ 31 -> follows [(0, 23); (0, 24)] s ->
    parseField X TyTime pOptional (zeroVal TyTime) (f ++ s) = (VTime (match d with Some t => t | None => - 62135596800 end), Some s).
  Proof.
    intros H HL HF. destruct d as [t|]; cbn [optional] in H.
    - destruct H as [tx f Hs HD|tx f Hs HD]; apply der_small in HD; try exact HL.
      + rewrite (field_parse X TyTime pOptional _ 0 23 false tx f s false TagUTCTime false); try exact HD; try reflexivity; try discriminate; try (right; auto; fail).
        cbn [parseContent]. change (adjustTag pOptional (hd 0 23 (zlen tx) false) TagUTCTime =? TagUTCTime) with true. cbv iota. rewrite Hs. reflexivity.
      + rewrite (field_parse X TyTime pOptional _ 0 24 false tx f s false TagUTCTime false); try exact HD; try reflexivity; try discriminate; try (right; auto; fail).
        cbn [parseContent]. change (adjustTag pOptional (hd 0 24 (zlen tx) false) TagUTCTime =? TagUTCTime) with false. cbv iota. rewrite Hs. reflexivity.
    - subst f. cbn [app]. destruct HF as [-> |(c & t & k & b & e & r & -> & HE & HN)]; [apply field_end; reflexivity|].
      apply (field_absent X TyTime pOptional _ c t k b e r false TagUTCTime false); try reflexivity; try discriminate; [exact HE|].
      unfold expected, adjustTag. cbn. destruct (Z.eq_dec c 0) as [-> |N]; [|split; [reflexivity|left; exact N]].
      assert (t <> 23 /\ t <> 24) as [N3 N4] by (split; intros ->; apply HN; [left|right; left]; reflexivity).
      apply Z.eqb_neq in N4. unfold TagGeneralizedTime. rewrite N4. cbn. split; [reflexivity|right; exact N3].
  Qed.
  Lemma revoked_field d f s : optional (fun l e => exists rs, Forall2 (revoked_der X) l rs /\ seq_der rs e) d f -> zlen f < 2 ^ 31 -> follows [(0, 16)] s ->
    exists v, map revokedOf (asSlice v) = map kept_revoked (listed d) /\ parseField X (TySlice false tyRevoked) pOptional VNil (f ++ s) = (v, Some s).
  Proof.
    intros H HL HF. destruct d as [l|]; cbn [optional] in H.
    - destruct H as (rs & HR & HS). destruct (slice_of (revoked_der X) _ says_revoked pOptional VNil 0 16 l rs f s eq_refl (or_intror (conj eq_refl eq_refl)) revoked_is_seq revoked_read HR HS HL) as (vs & Sv & P).
      exists (VSlice vs). split; [exact (map_says revokedOf kept_revoked l vs Sv)|exact P].
    - subst f. exists VNil. split; [reflexivity|]. cbn [app]. destruct HF as [-> |(c & t & k & b & e & r & -> & HE & HN)]; [apply field_end; reflexivity|].
      apply (field_absent X (TySlice false tyRevoked) pOptional _ c t k b e r false TagSequence true); try reflexivity; try discriminate; [exact HE|].
      cbn. split; [reflexivity|]. destruct (Z.eq_dec c 0) as [-> |N]; [right|left; exact N]. intros ->. apply HN. left. reflexivity.
  Qed.
  Lemma list_exts d f : optional (fun l e => exists s, extensions_der l s /\ der_element 2 0 true s e) d f -> zlen f < 2 ^ 31 ->
    exists v, says_exts d v /\ parseField X (TySlice false tyExtension) (pExplicitTag 0) VNil f = (v, Some []).
  Proof.
    intros H HL. destruct d as [l|]; cbn [optional] in H.
    - destruct H as (s & (es & HF & HS) & HD). pose proof (der_element_size _ _ _ _ _ HD) as HZ. pose proof (der_element_size _ _ _ _ _ HS) as HZ2.
      assert (HB : forall g, In g es -> zlen g < 2 ^ 31) by (intros g Hg; pose proof (concat_bound es g Hg); lia).
      destruct (values_of extension_der (fun v f => forall r, parseField X tyExtension noParams (zeroVal tyExtension) (f ++ r) = (v, Some r)) says_ext l es) as (vs & Sv & Pv); [intros a g Hg Ra; exact (ext_read a g Ra (HB g Hg))|exact HF|].
      exists (VSlice vs). split; [exact (map_says extensionOf kept_extension l vs Sv)|]. rewrite <- (app_nil_r f).
      assert (ZC : zlen (concat es) < 2 ^ 31) by lia. assert (ZS : zlen s < 2 ^ 31) by lia.
      apply (der_small _ _ _ _ _ HD) in HL. unfold seq_der in HS. apply der_small in HS; [|exact ZS].
      rewrite (explicit_field X (TySlice false tyExtension) (pExplicitTag 0) VNil 0 0 16 true (concat es) s f [] false TagSequence true); try reflexivity; try discriminate; [|exact HL|exact HS|right; split; reflexivity|right; reflexivity].
      apply (slice_content X false tyExtension 16 true); try reflexivity; try discriminate; [exact (elements_of extension_der l es ext_is_seq HB HF)|exact Pv].
    - subst f. exists VNil. split; [reflexivity|]. apply field_end; reflexivity.
  Qed.

  Definition says_list (d : crl_doc) (v : goval) : Prop := certListOf K v = kept_list d.
  Lemma algorithm_seq a f : algorithm_der a f -> zlen f < 2 ^ 31 -> exists c, element 0 16 true c f.
  Proof. intros (o & p & _ & _ & HS) HL. eexists. exact (der_small _ _ _ _ _ HS HL). Qed.
  Lemma crl_is_seq d f : crl_der X d f -> zlen f < 2 ^ 31 -> exists c, element 0 16 true c f.
  Proof. intros (? & ? & ? & ? & ? & ? & ? & ? & ? & _ & _ & _ & _ & _ & _ & _ & _ & _ & _ & _ & _ & HS) HL. eexists. exact (der_small _ _ _ _ _ HS HL). Qed.
  Lemma crl_read d f : crl_der X d f -> zlen f < 2 ^ 31 ->
    exists v, says_list d v /\ forall r, parseField X tyCrl noParams (zeroVal tyCrl) (f ++ r) = (v, Some r).
  Proof.
    intros (ver & alg & iss & this & next & rev & exts & outer & sig & HVer & HAlg & HVA & HIss & HThis & HNext & HRev & HExt & HT & HOut & HVO & HSig & HF) HL.
    pose proof (der_element_size _ _ _ _ _ HF) as Z1. cbn [concat] in Z1. rewrite !zlen_app in Z1. change (zlen ([] : bytes)) with 0 in Z1.
    pose proof (der_element_size _ _ _ _ _ HT) as Z2. cbn [concat] in Z2. rewrite !zlen_app in Z2. change (zlen ([] : bytes)) with 0 in Z2.
    pose proof (zlen_nonneg ver). pose proof (zlen_nonneg alg). pose proof (zlen_nonneg iss). pose proof (zlen_nonneg this). pose proof (zlen_nonneg next).
    pose proof (zlen_nonneg rev). pose proof (zlen_nonneg exts). pose proof (zlen_nonneg outer). pose proof (zlen_nonneg sig). pose proof (zlen_nonneg (rl_tbs d)).
    assert (Fx : exts = [] \/ exists c, element 2 0 true c exts).
    { clear -HExt Z1 Z2 HL H H0 H1 H2 H3 H4 H5 H6 H7 H8. destruct (rl_exts d); cbn [optional] in HExt; [right|left; exact HExt].
      destruct HExt as (s & _ & HD). eexists. apply (der_small _ _ _ _ _ HD). lia. }
    assert (F1 : follows [(0, 16)] exts).
    { destruct Fx as [-> |(c & Fx)]; [left; reflexivity|right]. exists 2, 0, true, c, exts, []. rewrite app_nil_r. split; [reflexivity|]. split; [exact Fx|]. intros [C|[]]. discriminate. }
    assert (F2 : follows [(0, 23); (0, 24)] (rev ++ exts)).
    { destruct (rl_revoked d) as [l|]; cbn [optional] in HRev.
      - destruct HRev as (rs & _ & HS). right. exists 0, 16, true, (concat rs), rev, exts. split; [reflexivity|]. split; [apply (der_small _ _ _ _ _ HS); lia|]. intros [C|[C|[]]]; discriminate.
      - subst rev. cbn [app]. destruct Fx as [-> |(c & Fx)]; [left; reflexivity|right]. exists 2, 0, true, c, exts, []. rewrite app_nil_r. split; [reflexivity|]. split; [exact Fx|]. intros [C|[C|[]]]; discriminate. }
    destruct (revoked_field _ rev exts HRev ltac:(lia) F1) as (vr & Sr & Pr).
    destruct (list_exts _ exts HExt ltac:(lia)) as (vx & Sx & Px).
    destruct (algorithm_value X (rl_alg d) alg HAlg HVA ltac:(lia)) as (va & Ea & Ea' & Pa).
    destruct (algorithm_value X (rl_outer d) outer HOut HVO ltac:(lia)) as (vo & Eo & Eo' & Po).
    set (tbsv := VStruct (rl_tbs d) [VInt (match rl_version d with Some v => v | None => 0 end); va; name_val (rl_issuer d); VTime (rl_this d);
      VTime (match rl_next d with Some t => t | None => - 62135596800 end); vr; vx]).
    exists (VStruct [] [tbsv; vo; VBits (rl_signature d) (8 * zlen (rl_signature d))]). split.
    { unfold says_list, certListOf, kept_list, tbsv, algorithmOf, with_params. cbn [field nth structRaw asInt asTime]. rewrite rdnSequence_val, Sr, Sx, Ea, Ea', Eo, Eo'. reflexivity. }
    assert (PT : forall r, parseField X tyTbsList noParams (zeroVal tyTbsList) (rl_tbs d ++ r) = (tbsv, Some r)).
    { intros r. apply (struct_field_raw X _ _ (concat [ver; alg; iss; this; next; rev; exts])); [exact HT|lia|]. cbn [concat]. rewrite app_nil_r.
      rewrite parseFields_cons. cbn [zeroVal zeroFields fieldsOf List.hd tl tyTbsList].
      rewrite (version_field _ ver alg _ HVer ltac:(lia) (algorithm_seq _ _ HAlg ltac:(lia))).
      rewrite parseFields_cons. cbn [List.hd tl]. match goal with |- context [parseField X tyAlgorithm _ ?o _] => change o with (zeroVal tyAlgorithm) end. rewrite Pa.
      rewrite parseFields_cons. cbn [List.hd tl]. match goal with |- context [parseField X tyRdnSequence _ ?o _] => change o with (zeroVal tyRdnSequence) end. rewrite (name_field X _ iss HIss) by lia.
      rewrite parseFields_cons. cbn [List.hd tl]. rewrite (time_field X (rl_this d)) by (try assumption; lia).
      rewrite parseFields_cons. cbn [List.hd tl]. match goal with |- context [parseField X TyTime pOptional ?o _] => change o with (zeroVal TyTime) end. rewrite (next_field _ next _ HNext ltac:(lia) F2).
      rewrite parseFields_cons. cbn [List.hd tl]. rewrite Pr. rewrite parseFields_cons. cbn [List.hd tl]. rewrite Px. reflexivity. }
    intros r. apply (struct_field X _ _ (concat [rl_tbs d; outer; sig])); [exact HF|exact HL|]. cbn [concat]. rewrite app_nil_r.
    rewrite parseFields_cons. cbn [zeroVal zeroFields fieldsOf List.hd tl tyCrl]. match goal with |- context [parseField X tyTbsList _ ?o _] => change o with (zeroVal tyTbsList) end. rewrite PT.
    rewrite parseFields_cons. cbn [List.hd tl]. match goal with |- context [parseField X tyAlgorithm _ ?o _] => change o with (zeroVal tyAlgorithm) end. rewrite Po.
    rewrite parseFields_cons. cbn [List.hd tl]. rewrite <- (app_nil_r sig). rewrite (bits_field X noParams 0 3 _ (rl_signature d) sig []); try reflexivity; [exact HSig|lia].
  Qed.
End R.
