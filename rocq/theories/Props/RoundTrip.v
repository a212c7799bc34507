(** C116: what Marshal writes, Unmarshal reads back. *)
From Coq Require Import Lia ZifyBool.
From Verif.Model Require Import Bytes Env Asn1 GoTime GoUtf8.
From Verif.Spec Require Import Ber Asn1 Asn1Value Pkcs7 Text Time Asn1Der Asn1Read RoundTrip.
From Verif.Proofs Require Import BytesFacts Asn1DerFacts Asn1ReadFacts RoundTripFacts.
From Verif.Props Require Import Marshal Unmarshal.

(** C116.  A value that was encoded is decoded to the same value, and the bytes after it remain, if it can be read back
    ([recoverable]: tags that mean the same in both directions, numbers and characters in range, and after a field that is
    left out nothing that can be taken for it).  Missing from the full property: times inside structures (C99 and C23 have them at
    the top), RawContent that is set, and the values of the refutations below. *)
Theorem C116_round_trip_partial : forall ty v b rest, go_value ty noParams v -> well_described ty noParams -> recoverable ty noParams v rest ->
  marshal goText ty v = Some b -> zlen b < 2 ^ 31 ->
  exists v', unmarshal goText ty (b ++ rest) = (v', Some rest) /\ same_value ty v v'.
Proof.
  intros ty v b rest G W R M L. apply C99_marshal_partial in M; [|exact G | exact L].
  destruct (proj1 round_trip ty noParams v b rest G W L M R) as (v' & H & S). exists v'. split; [|exact S]. now apply C109_unmarshal.
Qed.
Print Assumptions C116_round_trip_partial.
(** The same with field parameters (UnmarshalWithParams). *)
Theorem C116_field_partial : forall ty p v b rest, go_value ty p v -> well_described ty p -> recoverable ty p v rest ->
  makeField goText ty p v = Some b -> zlen b < 2 ^ 31 ->
  exists v', parseField goText ty p (zeroVal ty) (b ++ rest) = (v', Some rest) /\ same_value ty v v'.
Proof.
  intros ty p v b rest G W R M L. apply C99_marshal_partial in M; [|exact G | exact L].
  destruct (proj1 round_trip ty p v b rest G W L M R) as (v' & H & S). exists v'. split; [|exact S]. now apply C109_field.
Qed.
Print Assumptions C116_field_partial.
(** So two values with the same encoding are the same value. *)
Theorem C116_injective : forall ty v w b, go_value ty noParams v -> go_value ty noParams w -> well_described ty noParams ->
  recoverable ty noParams v [] -> recoverable ty noParams w [] -> marshal goText ty v = Some b -> marshal goText ty w = Some b -> zlen b < 2 ^ 31 ->
  exists u, same_value ty v u /\ same_value ty w u.
Proof.
  intros ty v w b Gv Gw W Rv Rw Mv Mw L.
  destruct (C116_round_trip_partial ty v b [] Gv W Rv Mv L) as (u & U & Sv). destruct (C116_round_trip_partial ty w b [] Gw W Rw Mw L) as (u' & U' & Sw).
  rewrite U in U'. injection U' as <-. exists u. split; assumption.
Qed.
Print Assumptions C116_injective.
(** No encoding is the start of another one: a reader knows where it ends. *)
Theorem C116_prefix_free : forall ty v w b more, go_value ty noParams v -> go_value ty noParams w -> well_described ty noParams ->
  recoverable ty noParams v more -> recoverable ty noParams w [] -> marshal goText ty v = Some b -> marshal goText ty w = Some (b ++ more) -> zlen (b ++ more) < 2 ^ 31 -> more = [].
Proof.
  intros ty v w b more Gv Gw W Rv Rw Mv Mw L.
  assert (zlen b < 2 ^ 31) by (rewrite zlen_app in L; pose proof (zlen_nonneg more); lia).
  destruct (C116_round_trip_partial ty v b more Gv W Rv Mv) as (u & U & Sv); [assumption|]. destruct (C116_round_trip_partial ty w (b ++ more) [] Gw W Rw Mw L) as (u' & U' & Sw).
  rewrite app_nil_r in U'. rewrite U in U'. congruence.
Qed.
Print Assumptions C116_prefix_free.

(** ** What is not read back *)
Ltac small := cbn; unfold tags_fit; cbn; unfold max_int32; intuition (try lia; try discriminate; repeat (match goal with H : Some _ = Some _ |- _ => injection H; clear H; intros | H : _ :: _ = _ :: _ |- _ => injection H; clear H; intros | |- Forall _ _ => constructor end; subst; try lia)); try (repeat constructor; lia).
(** Explicit private tags: the encoder writes the private class, the decoder expects a context-specific one. *)
Definition private3 : fparams := {| fp_optional := false; fp_explicit := true; fp_application := false; fp_private := true; fp_default := None; fp_tag := Some 3; fp_stringType := 0; fp_set := false; fp_omitEmpty := false |}.
Theorem C116_private_refuted : exists b, go_value TyInt private3 (VInt 5) /\ makeField goText TyInt private3 (VInt 5) = Some b /\
  snd (parseField goText TyInt private3 (zeroVal TyInt) b) = None.
Proof. exists (map z2b [227; 3; 2; 1; 5]). split; [small|]. split; vm_compute; reflexivity. Qed.
Print Assumptions C116_private_refuted.
(** An ENUMERATED value may be any int, but only 32 bits are read. *)
Theorem C116_enum_refuted : exists b, go_value TyEnum noParams (VInt (2 ^ 31)) /\ marshal goText TyEnum (VInt (2 ^ 31)) = Some b /\ snd (unmarshal goText TyEnum b) = None.
Proof. exists (map z2b [10; 5; 0; 128; 0; 0; 0]). split; [small|]. split; vm_compute; reflexivity. Qed.
Print Assumptions C116_enum_refuted.
(** A false Flag that is not optional is read as true. *)
Theorem C116_flag_refuted : exists b, go_value TyFlag noParams (VBool false) /\ marshal goText TyFlag (VBool false) = Some b /\ unmarshal goText TyFlag b = (VBool true, Some []).
Proof. exists (map z2b [1; 0]). split; [small|]. split; vm_compute; reflexivity. Qed.
Print Assumptions C116_flag_refuted.
(** Two optional numbers with a default, of which the first is left out: the second is taken for the first. *)
Theorem C116_left_out_refuted : exists v b, go_value ex_ty noParams v /\ marshal goText ex_ty v = Some b /\
  exists w, unmarshal goText ex_ty b = (w, Some []) /\ ~ same_value ex_ty v w.
Proof.
  exists ex_val, ex_der. split; [apply ex_ok|]. split; [apply ex_ok|].
  exists (VStruct [] [VInt 5; VInt (-129); VInt 7; VString (map z2b [195; 169]); VBits (map z2b [160]) 3; VBytes (map z2b [1; 2]); VSlice [VBool true; VBool false]]).
  split; [vm_compute; reflexivity|]. intros H. cbn in H. destruct H as (_ & [H | [[H | [H | [H | H]]] _]] & _); discriminate.
Qed.
Print Assumptions C116_left_out_refuted.

(** ** Example: the default and the empty list are left out, the rest comes back. *)
Definition omit6 : fparams := {| fp_optional := true; fp_explicit := false; fp_application := false; fp_private := false; fp_default := None; fp_tag := Some 6; fp_stringType := 0; fp_set := false; fp_omitEmpty := true |}.
Definition rt_type : gotype :=
  TyStruct false
    (FCons (params true true (Some 7) (Some 0) 0 false) TyInt
    (FCons noParams (TySlice false TyOid)
    (FCons (params true false None (Some 5) 0 false) TyFlag
    (FCons omit6 TyBytes
    (FCons (params true false None (Some 1) 12 false) TyString
    (FCons (params false false None None 0 true) (TySlice false TyInt)
    (FCons noParams TyRaw FNil))))))).
Definition rt_value : goval :=
  VStruct [] [VInt 7; VSlice [VOid [1; 2; 3]]; VBool true; VNil; VString (map z2b [195; 169]); VSlice [VInt 9; VInt (-300)]; VRaw 1 5 false [z2b 8] []].
Definition rt_bytes : bytes := map z2b [48; 24; 48; 4; 6; 2; 42; 3; 133; 0; 129; 2; 195; 169; 49; 7; 2; 1; 9; 2; 2; 254; 212; 69; 1; 8].
Lemma begins_der class tag (compound : bool) body after (rest : bytes) : 0 <= class < 4 -> 0 <= tag < 31 -> zlen body < 128 ->
  after = z2b (class * 64 + (if compound then 32 else 0) + tag) :: z2b (zlen body) :: body ++ rest ->
  begins after class tag compound (zlen body) (body ++ rest).
Proof.
  intros HC HT HB ->. pose proof (zlen_nonneg body). exists [z2b (class * 64 + (if compound then 32 else 0) + tag)], [z2b (zlen body)].
  split; [reflexivity|]. split; [split; [exact HC|]; left; split; [exact HT | reflexivity] | left; split; [lia | reflexivity]].
Qed.
Lemma rt_go : go_value rt_type noParams rt_value.
Proof. small. Qed.
Lemma next fs vs after b : go_fields fs vs -> makeFields goText fs vs = Some b -> zlen b < 2 ^ 31 -> der_fields fs vs after -> zlen after < 2 ^ 31 -> after = b.
Proof. intros G M L D LA. apply (proj2 makeField_der) in D; [congruence | exact G | exact LA]. Qed.
Theorem C116_nonvacuous : go_value rt_type noParams rt_value /\ well_described rt_type noParams /\ recoverable rt_type noParams rt_value [z2b 99] /\
  marshal goText rt_type rt_value = Some rt_bytes /\
  exists v', unmarshal goText rt_type (rt_bytes ++ [z2b 99]) = (v', Some [z2b 99]) /\ same_value rt_type rt_value v'.
Proof.
  assert (G : go_value rt_type noParams rt_value) by exact rt_go.
  assert (W : well_described rt_type noParams) by (cbn; intuition discriminate).
  assert (M : marshal goText rt_type rt_value = Some rt_bytes) by (vm_compute; reflexivity).
  assert (R : recoverable rt_type noParams rt_value [z2b 99]); [|split; [exact G|split; [exact W|split; [exact R|split; [exact M|]]]]].
  2: { apply C116_round_trip_partial; try assumption. vm_compute; reflexivity. }
  assert (T : forall p, fp_private p = false -> (fp_explicit p = true -> fp_tag p <> None) -> (fp_omitEmpty p = true -> fp_optional p = true) -> two_way p).
  { intros p H1 H2 H3. split; [tauto|]. split; [congruence | exact H3]. }
  split; [apply T; cbn; congruence|]. split; [intros [[N _] | [N _]]; discriminate N|]. intros _. split; [reflexivity|].
  cbn [go_value rt_type rt_value] in G. destruct G as (_ & _ & G). cbn [go_fields] in G.
  cbn [recoverable_fields rt_type rt_value]. refine (conj _ (conj _ (conj _ (conj _ (conj _ (conj _ (conj _ I))))))).
  - intros after D L. apply (next _ _ _ (dropZ 2 rt_bytes)) in D; [|cbn [go_fields]; tauto | vm_compute; reflexivity | vm_compute; reflexivity | exact L]. subst after.
    split; [apply T; cbn; congruence|]. split; [|intros N; exfalso; apply N; right; split; [reflexivity|]; left; exists 7; tauto].
    intros _. right. split; [discriminate|]. exists 0, 16, true, (zlen (map z2b [6; 2; 42; 3])), (map z2b [6; 2; 42; 3] ++ dropZ 8 rt_bytes).
    split; [apply begins_der; try lia; vm_compute; reflexivity|]. cbn [fp_explicit params]. split; [discriminate|]. left. intros [C _]. discriminate C.
  - intros after _ _. split; [apply T; cbn; congruence|]. split; [intros [[N _] | [N _]]; discriminate N|]. intros _.
    split; [|exact I]. split; [apply T; cbn; congruence|]. split; [intros [[N _] | [N _]]; discriminate N | intros _; exact I].
  - intros after _ _. split; [apply T; cbn; congruence|]. split; [|intros _; reflexivity].
    intros [[N _] | [_ [(d & N & _) | (_ & N)]]]; discriminate N.
  - intros after D L. apply (next _ _ _ (dropZ 10 rt_bytes)) in D; [|cbn [go_fields]; tauto | vm_compute; reflexivity | vm_compute; reflexivity | exact L]. subst after.
    split; [apply T; cbn; congruence|]. split; [|intros _; exact I].
    intros _. right. split; [discriminate|]. exists 2, 1, false, (zlen (map z2b [195; 169])), (map z2b [195; 169] ++ dropZ 14 rt_bytes).
    split; [apply begins_der; try lia; vm_compute; reflexivity|]. cbn [fp_explicit omit6]. intros (kind & F). destruct F as (_ & F & _). discriminate F.
  - intros after _ _. split; [apply T; cbn; congruence|]. split; [intros [[N _] | [_ [(d & N & _) | (_ & N)]]]; discriminate N|].
    intros _. split; [cbn; tauto|]. intros _. exists [233]. split; [constructor; [split; lia | constructor]|].
    exists [map z2b [195; 169]]. split; [|reflexivity]. constructor; [|constructor]. exact (utf8_2 233 3 41 ltac:(lia) ltac:(lia) ltac:(lia)).
  - intros after _ _. split; [apply T; cbn; congruence|]. split; [intros [[N _] | [N _]]; discriminate N|].
    intros _. refine (conj _ (conj _ I)); (split; [apply T; cbn; congruence|]); (split; [intros [[N _] | [N _]]; discriminate N | intros _; exact I]).
  - intros after _ _. split; [apply T; cbn; congruence|]. split; [intros [[N _] | [N _]]; discriminate N|].
    intros _. split; [vm_compute; reflexivity|]. split; [now left|]. intros n N. discriminate N.
Qed.
