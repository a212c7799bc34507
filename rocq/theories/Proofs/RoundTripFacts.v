(** What was written is read back (C116). *)
From Coq Require Import Lia ZifyBool.
From Verif.Model Require Import Bytes Env Asn1 GoTime GoUtf8.
From Verif.Spec Require Import Ber Asn1 Asn1Value Pkcs7 Time Text Asn1Der Asn1Read RoundTrip.
From Verif.Proofs Require Import BytesFacts BerFacts Asn1Codec Asn1Header Asn1Value Asn1Decode DerFacts Asn1DerFacts Asn1ReadFacts.

Lemma no_params_kept ty v : ~ left_out ty noParams v.
Proof. intros [[H _] | [H _]]; discriminate H. Qed.
Lemma element_small c t k b f : der_element c t k b f -> zlen f < 2 ^ 31 -> element c t k b f.
Proof. intros H L. apply der_element_element; [assumption|]. pose proof (der_element_size _ _ _ _ _ H). lia. Qed.
Lemma tagged_size p u k body full : tagged p u k body full -> zlen body + 2 <= zlen full.
Proof.
  unfold tagged. intros H. destruct (fp_tag p); [destruct (fp_explicit p)|].
  - destruct H as (inner & H1 & H2). apply der_element_size in H1, H2. lia.
  - now apply der_element_size in H.
  - now apply der_element_size in H.
Qed.
(** The kind of the contents: the universal tag, or under an implicit tag what the reader takes it for *)
Definition kind_of (p : fparams) (u kind : Z) : Prop :=
  kind = u \/ (fp_tag p <> None /\ fp_explicit p = false /\ kind = if fp_stringType p =? 0 then 19 else fp_stringType p).
Lemma tagged_present ty p u body full after :
  tagged p u (constructed ty) body full -> zlen full < 2 ^ 31 -> two_way p -> ty <> TyRaw -> ty <> TyTime -> own_tag ty p u ->
  exists class tag kind, present ty p (full ++ after) class tag (constructed ty) kind body after /\ kind_of p u kind.
Proof.
  intros H L (E1 & E2 & _) NR NT O. unfold tagged in H. unfold present.
  destruct (fp_tag p) as [n|] eqn:T; [destruct (fp_explicit p) eqn:X|].
  - destruct H as (inner & H1 & H2). pose proof (der_element_size _ _ _ _ _ H1) as S1. pose proof (der_element_size _ _ _ _ _ H2) as S2.
    destruct (E1 eq_refl) as [_ PV]. exists 0, u, u. split; [|now left]. right. split; [assumption|].
    assert (element (tag_class p) n true inner full) as (id & len & -> & I & D) by (apply element_small; assumption).
    exists (tag_class p), n, true, (zlen inner), inner. split; [exists id, len; split; [now rewrite <- !app_assoc | split; assumption]|].
    split; [|split; [pose proof (zlen_nonneg body); lia|split; [apply element_small; [assumption | lia]|]]].
    + unfold wrapper, tag_class, explicit_class. rewrite PV. split; [destruct (fp_application p); reflexivity|]. split; [assumption | now right].
    + unfold fits. rewrite T, X. right. repeat split; assumption.
  - exists (tag_class p), n, (if fp_stringType p =? 0 then 19 else fp_stringType p). split; [|right; repeat split; congruence].
    exists full. split; [reflexivity|]. split; [apply element_small; assumption|]. unfold fits. rewrite T, X.
    split; [|split; [reflexivity|split; [reflexivity|]]].
    + unfold tag_class, implicit_class. destruct (fp_private p); [rewrite E2 by reflexivity|]; destruct (fp_application p); reflexivity.
    + unfold implied_kind. destruct ty; try exact I; [congruence | reflexivity].
  - destruct (fp_explicit p) eqn:X. { destruct (E1 eq_refl) as [C _]. congruence. }
    exists 0, u, u. split; [|now left]. exists full. split; [reflexivity|]. split; [apply element_small; assumption|].
    unfold fits. rewrite T. right. repeat split; assumption.
Qed.

(** ** The same value *)
Lemma same_list elem l : forall l', same_value (TySlice false elem) (VSlice l) (VSlice l') <-> Forall2 (same_value elem) l l'.
Proof.
  induction l as [|x l IH]; intros [|y l']; cbn [same_value].
  - split; [constructor | reflexivity].
  - split; [contradiction | intros H; inversion H].
  - split; [contradiction | intros H; inversion H].
  - specialize (IH l'). cbn [same_value] in IH. rewrite IH. split; [intros [H1 H2]; now constructor | intros H; now inversion H].
Qed.
Lemma same_name b elem v v' : same_value (TySlice b elem) v v' <-> same_value (TySlice false elem) v v'.
Proof. reflexivity. Qed.
Lemma same_refl : (forall ty p v, go_value ty p v -> same_value ty v v) /\ (forall fs vs, go_fields fs vs -> same_fields fs vs vs).
Proof.
  apply types_mind.
  1-13: intros p v H; destruct v; cbn [same_value]; tauto.
  - intros b elem IH p v H. destruct v as [| | | | | | | | |l| |]; try (cbn [same_value]; tauto).
    apply same_name, same_list. apply go_slice in H. destruct H as [_ H]. induction H as [|x l Hx H IHl]; constructor; [eapply IH; exact Hx | exact IHl].
  - intros keeps fs IH p v H. destruct v; try (cbn [same_value]; tauto). cbn [go_value same_value] in *. apply IH. tauto.
  - intros [|v vs] H; [exact I | destruct H].
  - intros p t IHt fs IHf [|v vs] H; [destruct H|]. cbn [go_fields same_fields] in *. split; [eapply IHt; apply H | apply IHf, H].
Qed.
Lemma left_out_same ty p v : go_value ty p v -> left_out ty p v -> two_way p -> fp_optional p = true /\ same_value ty v (default_value ty p).
Proof.
  intros G L (_ & _ & W). destruct L as [(O & T & V) | (O & [(d & D & T & ->) | (D & ->)])].
  - split; [now apply W|]. unfold default_value.
    assert ((match fp_default p with Some _ => zeroVal ty | None => zeroVal ty end) = VNil) as Z by (destruct ty; try contradiction; destruct (fp_default p); reflexivity).
    destruct ty; try contradiction; (destruct (fp_default p); cbn [zeroVal]; destruct V as [-> | [-> | [-> | ->]]]; cbn [same_value]; try (right; split; unfold empty_list; tauto); left; reflexivity).
  - split; [assumption|]. unfold default_value. rewrite D. destruct T as [-> | [-> | ->]]; cbn [same_value]; left; reflexivity.
  - split; [assumption|]. unfold default_value. rewrite D. eapply (proj1 same_refl). eassumption.
Qed.

(** ** Contents *)
Lemma oid_back o b : oid_der o b -> Forall (fun n => 0 <= n <= max_int32) o -> (forall x y r, o = x :: y :: r -> x * 40 + y <= max_int32) -> oid_content o b.
Proof.
  intros (x & y & r & -> & Hx & Hy & Hxy & N) B S. specialize (S x y r eq_refl).
  assert (F : Forall (fun n => 0 <= n <= max_int32) (x * 40 + y :: r)) by (constructor; [lia|]; inversion B as [|? ? _ B1]; now inversion B1).
  assert (H : forall l b, numbers_shortest l b -> Forall (fun n => 0 <= n <= max_int32) l -> exists bs, b = concat bs /\ Forall2 (fun n c => base128_octets c n /\ zlen c <= 5 /\ n <= max_int32) l bs).
  { clear. intros l b H. induction H as [| n b l bs H1 H IH]; intros F; [exists []; now split|].
    inversion F as [|? ? Hn F']; subst. destruct (IH F') as (cs & -> & G). exists (b :: cs). split; [reflexivity|]. constructor; [|exact G].
    destruct (appendBase128_octets n Hn) as [A1 A2]. rewrite (base128_shortest_unique _ _ _ H1 A1) in *. split; [apply A1 | lia]. }
  destruct (H _ _ N F) as (bs & -> & G). exists x, y, r, bs. tauto.
Qed.
Lemma text_back p s u kind : string_kind p s u -> text_kind p s -> kind_of p u kind -> text_content kind s s.
Proof.
  intros K (T1 & T2) [-> | (_ & _ & ->)].
  - right. destruct K as [(E & -> & _) | [(E & -> & _ & U) | (E & -> & A & B & C)]]; unfold string_text.
    + left. tauto.
    + right. right. right. left. tauto.
    + cbn [In] in T1. destruct T1 as [T1 | [T1 | [T1 | [T1 | [T1 | []]]]]]; [congruence|..]; rewrite <- T1 in *; intuition.
  - right. destruct (Z.eqb_spec (fp_stringType p) 0); unfold string_text; [left; tauto|].
    destruct K as [(E & _) | [(E & _) | (E & -> & A & B & C)]]; [congruence | congruence|].
    cbn [In] in T1. destruct T1 as [T1 | [T1 | [T1 | [T1 | [T1 | []]]]]]; [congruence|..]; rewrite <- T1 in *; intuition.
Qed.
Lemma string_tag p s u : string_kind p s u -> text_kind p s -> In u [12; 18; 19; 20; 22; 27; 30].
Proof.
  intros [(_ & -> & _) | [(_ & -> & _) | (E & -> & _)]] [T _]; cbn [In] in *; tauto || (destruct T as [T | [T | [T | [T | [T | []]]]]]; tauto || congruence).
Qed.

(** ** The round trip *)
Lemma left_case ty p v after : go_value ty p v -> two_way p -> (left_out ty p v -> absent ty p after) -> left_out ty p v ->
  exists v', reads ty p after v' after /\ same_value ty v v'.
Proof.
  intros G W A L. destruct (left_out_same ty p v G L W) as [O S]. exists (default_value ty p). split; [|exact S].
  specialize (A L). destruct ty; cbn [reads]; left; (split; [exact A | split; [exact O | split; reflexivity]]).
Qed.
Lemma element_any_after elem x after : recoverable elem noParams x [] -> recoverable elem noParams x after.
Proof.
  intros H. pose proof (no_params_kept elem x) as N.
  destruct elem; cbn [recoverable] in *; destruct H as (W & _ & H); split; try exact W; (split; [intros L; contradiction|]); intros _; specialize (H N); destruct x; try exact H.
Qed.
Lemma der_slice elem l : forall parts,
  (fix each (l : list goval) (parts : list bytes) : Prop := match l, parts with [], [] => True | x :: t, f :: r => der_of elem noParams x f /\ each t r | _, _ => False end) l parts ->
  Forall2 (der_of elem noParams) l parts.
Proof. induction l as [|x l IH]; intros [|f parts] H; try contradiction; constructor; [apply H | apply IH, H]. Qed.
Lemma recoverable_list elem l :
  (fix all (l : list goval) : Prop := match l with [] => True | x :: t => recoverable elem noParams x [] /\ all t end) l -> Forall (fun x => recoverable elem noParams x []) l.
Proof. induction l as [|x l IH]; intros H; constructor; [apply H | apply IH, H]. Qed.
Definition round ty := forall p v b after, go_value ty p v -> well_described ty p -> zlen b < 2 ^ 31 -> der_of ty p v b -> recoverable ty p v after ->
  exists v', reads ty p (b ++ after) v' after /\ same_value ty v v'.
Definition round_fields fs := forall vs b, go_fields fs vs -> well_described_fields fs -> zlen b < 2 ^ 31 -> der_fields fs vs b -> recoverable_fields fs vs ->
  exists vs', reads_fields fs b vs' [] /\ same_fields fs vs vs'.

Ltac leaf := intros p v b after G W L D R; cbn [recoverable] in R; destruct R as (TW & RA & R); cbn [der_of] in D;
  destruct D as [[LO ->] | [NL D]]; [now apply left_case|].
Lemma leaf_present ty p u body b after : tagged p u false body b -> zlen b < 2 ^ 31 -> two_way p -> plain p -> constructed ty = false -> ty <> TyRaw -> ty <> TyTime ->
  (fp_set p = false -> own_tag ty p u) -> exists class tag kind, present ty p (b ++ after) class tag false kind body after.
Proof.
  intros D L TW [_ PL] C N1 N2 O. rewrite <- C in D. destruct (tagged_present ty p u body b after D L TW N1 N2 (O PL)) as (c & t & k & H & _).
  rewrite C in H. exists c, t, k. exact H.
Qed.
Ltac present_leaf T u x b after D :=
  destruct (leaf_present T _ u x b after D) as (class & tag & kind & HP);
    [assumption | assumption | assumption | reflexivity | discriminate | discriminate | intros SF; unfold own_tag; rewrite SF; reflexivity|];
  right; right; right; exists class, tag, false, kind; eexists; split; [exact HP|].
(** A leaf: what is written is the contents under the tags of the field, and they are read back to the same value. *)
Lemma round_trip : (forall ty, round ty) /\ (forall fs, round_fields fs).
Proof.
  apply types_mind.
  - (* TyAny *) intros p v b after G. destruct G as [_ G]. destruct v; contradiction.
  - (* TyRaw *) intros p v b after G W L D R. cbn [recoverable] in R. destruct R as (TW & RA & R). cbn [der_of] in D.
    destruct D as [[LO ->] | [NL D]]; [now apply left_case|]. destruct v as [|class tag compound content whole| | | | | | | | | |]; try contradiction.
    destruct (R NL) as (LC & RW & RF). exists (VRaw class tag compound content b). split.
    2: { cbn [same_value]. repeat split. destruct D as [[_ ->] | [-> _]]; tauto. }
    assert (EL : element class tag compound content b).
    { destruct D as [[N ->] | [-> D]]; [destruct RW; [contradiction | assumption] | now apply der_element_element]. }
    cbn [reads]. right. right. right. exists class, tag, compound, tag, content. split; [|repeat split].
    unfold present. destruct TW as (E1 & _ & _). specialize (RF). unfold raw_fits in RF. destruct (fp_explicit p) eqn:X.
    + left. destruct (E1 eq_refl) as [T _]. destruct (fp_tag p) as [n|] eqn:T'; [|congruence]. destruct (RF n eq_refl) as (-> & -> & C & N).
      split; [reflexivity|]. split; [exact N|]. split; [|exists b; split; [reflexivity | exact EL]].
      unfold wrapper. split; [reflexivity|]. split; [exact T'|]. destruct C as [-> | C]; [now left | now right].
    + exists b. split; [reflexivity|]. split; [exact EL|]. unfold fits. rewrite X. destruct (fp_tag p) as [n|] eqn:T'; [|now left].
      destruct (RF n eq_refl) as (-> & ->). split; [reflexivity|]. split; [reflexivity|]. split; [congruence | exact I].
  - (* TyOid *) leaf. destruct v as [| |o| | | | | | | | |]; try contradiction. destruct D as (PL & octets & O & D).
    exists (VOid o). split; [|cbn [same_value]; now left]. cbn [reads]. present_leaf TyOid 6 octets b after D.
    destruct G as [_ [G1 G2]]. now apply oid_back.
  - (* TyBits *) leaf. destruct v as [| | |bits n| | | | | | | |]; try contradiction. destruct D as (PL & unused & U1 & U2 & D).
    exists (VBits bits n). split; [|cbn [same_value]; now left]. cbn [reads]. present_leaf TyBits 3 (z2b unused :: bits) b after D.
    destruct (R NL) as (u & B1 & -> & B2 & B3). exists unused. assert (unused = u) as <-.
    { replace (8 * zlen bits - u + unused) with ((unused - u) + zlen bits * 8) in U2 by lia. rewrite Z.mod_add in U2 by lia.
      apply Z.mod_divide in U2; [|lia]. destruct U2 as [k U2]. lia. }
    repeat split; try tauto; lia.
  - (* TyTime *) intros p v b after G. destruct G as [_ G]. destruct v; contradiction.
  - (* TyEnum *) leaf. destruct v as [| | | | |z| | | | | |]; try contradiction. destruct D as (PL & octets & O & D).
    exists (VInt z). split; [|cbn [same_value]; now left]. cbn [reads]. present_leaf TyEnum 10 octets b after D. split; [exact O | exact (R NL)].
  - (* TyFlag *) leaf. destruct v as [| | | | | |x| | | | |]; try contradiction. destruct D as (PL & D).
    exists (VBool x). split; [|cbn [same_value]; now left]. cbn [reads]. present_leaf TyFlag 1 (@nil byte) b after D. exact (R NL).
  - (* TyBig *) leaf. destruct v as [| | | | |z| | | | | |]; try contradiction. destruct D as (PL & octets & O & D).
    exists (VInt z). split; [|cbn [same_value]; now left]. cbn [reads]. present_leaf TyBig 2 octets b after D. exact O.
  - (* TyBool *) leaf. destruct v as [| | | | | |x| | | | |]; try contradiction. destruct D as (PL & D).
    exists (VBool x). split; [|cbn [same_value]; now left]. cbn [reads]. present_leaf TyBool 1 [if x then xff else x00] b after D. reflexivity.
  - (* TyInt *) leaf. destruct v as [| | | | |z| | | | | |]; try contradiction. destruct D as (PL & octets & O & D).
    exists (VInt z). split; [|cbn [same_value]; now left]. cbn [reads]. present_leaf TyInt 2 octets b after D. split; [exact O | apply G].
  - (* TyInt32 *) leaf. destruct v as [| | | | |z| | | | | |]; try contradiction. destruct D as (PL & octets & O & D).
    exists (VInt z). split; [|cbn [same_value]; now left]. cbn [reads]. present_leaf TyInt32 2 octets b after D. split; [exact O | apply G].
  - (* TyBytes *) leaf. destruct v as [| | | | | | |s| | | |]; try contradiction; destruct D as (PL & D).
    + exists (VBytes []). split; [|cbn [same_value]; right; unfold empty_list; tauto]. cbn [reads]. present_leaf TyBytes 4 (@nil byte) b after D. reflexivity.
    + exists (VBytes s). split; [|cbn [same_value]; now left]. cbn [reads]. present_leaf TyBytes 4 s b after D. reflexivity.
  - (* TyString *) leaf. destruct v as [| | | | | | | |s| | |]; try contradiction. destruct D as (PS & u & K & D).
    apply (tagged_present TyString p u s b after) in D; try assumption; try discriminate.
    2: { unfold own_tag. rewrite PS. eapply string_tag; [exact K | exact (R NL)]. }
    destruct D as (class & tag & kind & HP & HK). exists (VString s). split; [|cbn [same_value]; now left]. cbn [reads]. right. right. right.
    exists class, tag, false, kind, s. split; [exact HP|]. eapply text_back; [exact K | exact (R NL) | exact HK].
  - (* TySlice *) intros setName elem IH. leaf.
    assert (OT : own_tag (TySlice setName elem) p (if setName || fp_set p then 17 else 16)).
    { unfold own_tag. destruct (fp_set p), setName; reflexivity. }
    destruct v as [| | | | | | | | |l| |]; try contradiction.
    + destruct D as (PS & SN & D).
      apply (tagged_present (TySlice setName elem) p _ [] b after) in D; try assumption; try discriminate.
      destruct D as (class & tag & kind & HP & _). exists (VSlice []). split; [|cbn [same_value]; right; unfold empty_list; tauto].
      cbn [reads]. right. right. right. exists class, tag, true, kind, []. split; [exact HP|]. split; [reflexivity|reflexivity].
    + destruct D as (PS & SN & parts & HE & D). apply der_slice in HE. apply go_slice in G. destruct G as [_ G].
      cbn [well_described] in W. destruct W as [_ W]. pose proof (recoverable_list _ _ (R NL)) as RL.
      pose proof (tagged_size _ _ _ _ _ D) as SZ.
      apply (tagged_present (TySlice setName elem) p _ (concat parts) b after) in D; try assumption; try discriminate.
      destruct D as (class & tag & kind & HP & _).
      assert (HB : exists l', (fix each (l : list goval) (b : bytes) : Prop :=
           match l with [] => b = [] | x :: t => exists r, reads elem noParams b x r /\ each t r end) l' (concat parts) /\ Forall2 (same_value elem) l l').
      { assert (SZ' : zlen (concat parts) < 2 ^ 31) by lia. clear - IH W HE G RL SZ'.
        revert G RL SZ'. induction HE as [|x f l parts D HE IHl]; intros G RL SZ; [exists []; now split|].
        inversion G as [|? ? Gx G']; subst. inversion RL as [|? ? Rx RL']; subst. cbn [concat] in *. rewrite zlen_app in SZ.
        pose proof (zlen_nonneg f). pose proof (zlen_nonneg (concat parts)).
        destruct (IHl G' RL') as (l' & E' & S'); [lia|].
        destruct (IH noParams x f (concat parts) Gx W) as (x' & Rd & Sx); [lia | exact D | now apply element_any_after|].
        exists (x' :: l'). split; [exists (concat parts); split; assumption | now constructor]. }
      destruct HB as (l' & HR & HS). exists (VSlice l'). split; [|apply same_name, same_list; exact HS].
      cbn [reads]. right. right. right. exists class, tag, true, kind, (concat parts). split; [exact HP|]. split; [|exact HR].
      intros ->. destruct l as [|x l]; [inversion HS; reflexivity|]. inversion G as [|? ? Gx _]. destruct Gx as [_ Gx]. destruct x; contradiction.
  - (* TyStruct *) intros keeps fs IH. leaf. destruct v as [| | | | | | | | | |raw vs|]; try contradiction.
    destruct D as (PS & body & HB & D). destruct (R NL) as [-> RF].
    assert (DF : der_fields fs vs body) by (destruct HB as [[N _] | [_ H]]; [now elim N | exact H]).
    pose proof (tagged_size _ _ _ _ _ D) as SZ.
    apply (tagged_present (TyStruct keeps fs) p _ body b after) in D; try assumption; try discriminate.
    2: { unfold own_tag. destruct (fp_set p); reflexivity. }
    destruct D as (class & tag & kind & HP & _). cbn [go_value well_described] in G, W.
    destruct (IH vs body) as (vs' & Rf & Sf); try tauto; [lia|].
    exists (VStruct (if keeps then b else []) vs'). split; [|exact Sf].
    cbn [reads]. right. right. right. exists class, tag, true, kind, body. split; [exact HP|]. split; [destruct keeps; reflexivity | exists []; exact Rf].
  - intros vs b G W L D R. cbn [der_fields] in D. destruct vs; [|contradiction]. subst b. exists []. split; [reflexivity | exact I].
  - intros p t IHt fs IHf vs b G W L D R. destruct vs as [|v vs]; [contradiction|]. cbn [der_fields] in D. destruct D as (a & c & -> & Da & Dc).
    cbn [go_fields well_described_fields recoverable_fields] in *. rewrite zlen_app in L. pose proof (zlen_nonneg a). pose proof (zlen_nonneg c).
    destruct (IHt p v a c) as (v' & Rv & Sv); try tauto; [lia | apply R; [assumption | lia]|].
    destruct (IHf vs c) as (vs' & Rf & Sf); try tauto; [lia|].
    exists (v' :: vs'). split; [|cbn [same_fields]; tauto]. cbn [reads_fields]. exists c. split; assumption.
Qed.
