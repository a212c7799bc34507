(** Lemmas about Model/Manifest.v *)
From Coq Require Import String Lia.
From Verif.Model Require Import Bytes Env Manifest.
From Verif.Spec Require Import JarManifest.
From Verif.Proofs Require Import BytesFacts.

(** ** Forward: parsing an encoded manifest *)

Lemma byte_eqb_neq a b : a <> b -> byte_eqb a b = false.
Proof. intro H. destruct (byte_eqb a b) eqn:E; [|reflexivity]. apply byte_eqb_eq in E. congruence. Qed.
Lemma byte_eqb_refl a : byte_eqb a a = true.
Proof. apply byte_eqb_eq. reflexivity. Qed.

Lemma isValidNameByte_iff b : isValidNameByte b = true <-> name_byte b.
Proof.
  unfold isValidNameByte, name_byte.
  assert (U : b = "_"%byte <-> b2z b = 95) by (split; [intros ->; reflexivity | intro H; apply b2z_inj; exact H]).
  assert (D : b = "-"%byte <-> b2z b = 45) by (split; [intros ->; reflexivity | intro H; apply b2z_inj; exact H]).
  rewrite U, D, !orb_true_iff, !andb_true_iff, !Z.leb_le, !Z.eqb_eq. lia.
Qed.
Lemma isValidName_iff n : isValidName n = true <-> name_ok n.
Proof.
  unfold isValidName, name_ok. rewrite !andb_true_iff, !negb_true_iff, Z.eqb_neq, Z.ltb_ge, forallb_forall, Forall_forall.
  assert (P := zlen_nonneg n).
  split.
  - intros [[A B] C]. split; [lia|]. intros x Hx. apply isValidNameByte_iff, C, Hx.
  - intros [A C]. split; [lia|]. intros x Hx. apply isValidNameByte_iff, C, Hx.
Qed.
Lemma asciiLower_eq n : asciiLower n = lower n.
Proof. reflexivity. Qed.

Lemma name_byte_not b : name_byte b -> b <> ":"%byte /\ b <> x00 /\ b <> x0a /\ b <> x0d /\ b <> x20.
Proof.
  intro H. repeat split; intros ->; unfold name_byte in H;
  repeat match type of H with _ \/ _ => destruct H as [H|H] end; try discriminate H; vm_compute in H; lia || (destruct H; congruence).
Qed.

Lemma findColon_app n r : Forall name_byte n -> findColon (n ++ ":"%byte :: r) = Some (n, r).
Proof.
  induction 1 as [|b n Hb Hn IH]; cbn [app findColon].
  - reflexivity.
  - destruct (name_byte_not _ Hb) as [H _]. rewrite (byte_eqb_neq _ _ H), IH. reflexivity.
Qed.

(** What may follow a complete header: nothing, or a byte that starts a new header. *)
Definition stops (t : bytes) : Prop :=
  match t with [] => True | c :: _ => c <> x00 /\ c <> x0a /\ c <> x0d /\ c <> x20 end.

Lemma valueLoop_piece p : forall t s, Forall text_byte p -> vl_clb s = 0%nat -> vl_junk s = [] ->
  (p = [] -> True) ->
  valueLoop (p ++ t) s =
  valueLoop t (mkV (vl_value s) (vl_cur s ++ p) [] (match p with [] => vl_ok s | _ => true end) (vl_cr s) 0).
Proof.
  induction p as [|c p IH]; intros t s Hp Hc Hj _.
  - cbn [app]. destruct s as [v cu j ok cr clb]. cbn [vl_value vl_cur vl_junk vl_ok vl_cr vl_clb] in *. subst.
    rewrite app_nil_r. reflexivity.
  - apply Forall_cons_iff in Hp. destruct Hp as [[H0 [Ha Hd]] Hp].
    cbn [app valueLoop]. rewrite (byte_eqb_neq _ _ H0), (byte_eqb_neq _ _ Ha), (byte_eqb_neq _ _ Hd), Hc, Hj.
    cbn [Nat.eqb Nat.leb]. rewrite andb_false_r.
    rewrite IH; [|exact Hp|reflexivity|reflexivity|trivial].
    cbn [vl_value vl_cur vl_junk vl_ok vl_cr vl_clb app]. rewrite <- app_assoc.
    f_equal. f_equal. destruct p; reflexivity.
Qed.

Definition crAfter (st : eol_style) : bool := match st with CR => true | _ => false end.

Lemma valueLoop_eol st t s : (vl_cr s = true -> st = CR) ->
  valueLoop (eol st ++ t) s =
  valueLoop t (mkV (vl_value s) (vl_cur s) (vl_junk s ++ eol st) (vl_ok s) (crAfter st) (S (vl_clb s))).
Proof.
  intro H. destruct st; cbn [eol app crAfter]; cbn [valueLoop];
  repeat (first [ rewrite (byte_eqb_refl x0a) | rewrite (byte_eqb_refl x0d)
                | rewrite (byte_eqb_neq x0a x00) by discriminate | rewrite (byte_eqb_neq x0d x00) by discriminate
                | rewrite (byte_eqb_neq x0d x0a) by discriminate ]);
  cbn [vl_value vl_cur vl_junk vl_ok vl_cr vl_clb].
  - destruct (vl_cr s); [discriminate (H eq_refl)|]. reflexivity.
  - reflexivity.
  - rewrite <- app_assoc. reflexivity.
Qed.

Lemma valueLoop_eols st n : forall t s, (vl_cr s = true -> st = CR) ->
  valueLoop (concat (repeat (eol st) n) ++ t) s =
  valueLoop t (mkV (vl_value s) (vl_cur s) (vl_junk s ++ concat (repeat (eol st) n)) (vl_ok s)
                   (match n with O => vl_cr s | _ => crAfter st end) (n + vl_clb s)).
Proof.
  induction n as [|n IH]; intros t s H.
  - cbn [repeat concat app Nat.add]. rewrite app_nil_r. destruct s. reflexivity.
  - cbn [repeat concat]. rewrite <- app_assoc, valueLoop_eol by exact H.
    rewrite IH by (cbn [vl_cr]; destruct st; cbn [crAfter]; congruence).
    cbn [vl_value vl_cur vl_junk vl_ok vl_cr vl_clb]. rewrite <- app_assoc.
    replace (n + S (vl_clb s))%nat with (S n + vl_clb s)%nat by lia.
    destruct n; reflexivity.
Qed.

Lemma valueLoop_stop t s : stops t -> (1 <= vl_clb s)%nat -> valueLoop t s = Ret (Some (s, t)).
Proof.
  intros Ht Hc. destruct t as [|c t]; [reflexivity|]. destruct Ht as (H0 & Ha & Hd & Hs).
  cbn [valueLoop]. rewrite (byte_eqb_neq _ _ H0), (byte_eqb_neq _ _ Ha), (byte_eqb_neq _ _ Hd), (byte_eqb_neq _ _ Hs).
  cbn [andb]. apply Nat.leb_le in Hc. rewrite Hc. reflexivity.
Qed.

Lemma valueLoop_cont t v cu j cr :
  valueLoop (x20 :: t) (mkV v cu j true cr 1) = valueLoop t (mkV (v ++ cu) [] [] false cr 0).
Proof. reflexivity. Qed.

Lemma valueLoop_more st more : forall n t v cu ok j cr,
  Forall (Forall text_byte) more -> Forall (fun p => p <> []) (removelast more) ->
  (more <> [] -> ok = true) -> (cr = true -> st = CR) -> stops t -> j = [] ->
  exists j' ok' cr',
  valueLoop (flat_map (fun p => eol st ++ [x20] ++ p) more ++ eol st ++ concat (repeat (eol st) n) ++ t)
            (mkV v cu j ok cr 0) =
  Ret (Some (mkV (match more with [] => v | _ => v ++ cu ++ concat (removelast more) end)
                 (match more with [] => cu | _ => last more [] end) j' ok' cr' (S n), t)).
Proof.
  induction more as [|p more IH]; intros n t v cu ok j cr Hm Hr Hok Hcr Ht ->.
  - cbn [flat_map app]. rewrite valueLoop_eol by exact Hcr. cbn [vl_value vl_cur vl_junk vl_ok vl_clb app].
    rewrite valueLoop_eols by (cbn [vl_cr]; destruct st; cbn [crAfter]; congruence).
    rewrite valueLoop_stop; [|exact Ht|cbn [vl_clb]; lia].
    cbn [vl_value vl_cur vl_junk vl_ok vl_cr vl_clb]. rewrite Nat.add_1_r. do 3 eexists. reflexivity.
  - apply Forall_cons_iff in Hm. destruct Hm as [Hp Hm].
    cbn [flat_map]. rewrite <- !app_assoc. rewrite valueLoop_eol by exact Hcr. cbn [vl_value vl_cur vl_junk vl_ok vl_clb app].
    rewrite (Hok ltac:(discriminate)), valueLoop_cont.
    rewrite valueLoop_piece; [|exact Hp|reflexivity|reflexivity|trivial].
    cbn [vl_value vl_cur vl_junk vl_ok vl_cr vl_clb app].
    destruct more as [|p2 more].
    + edestruct (IH n t (v ++ cu) p (match p with [] => false | _ => true end) [] (crAfter st)) as (j' & ok' & cr' & E);
        [constructor | constructor | congruence | destruct st; cbn [crAfter]; congruence | exact Ht | reflexivity |].
      cbn [app] in E. rewrite E. do 3 eexists. cbn [removelast last concat]. rewrite app_nil_r. reflexivity.
    + cbn [removelast] in Hr. apply Forall_cons_iff in Hr. destruct Hr as [Hp0 Hr].
      edestruct (IH n t (v ++ cu) p (match p with [] => false | _ => true end) [] (crAfter st)) as (j' & ok' & cr' & E);
        [exact Hm | exact Hr | destruct p; [congruence|reflexivity] | destruct st; cbn [crAfter]; congruence | exact Ht | reflexivity |].
      cbn [app] in E. rewrite E. do 3 eexists.
      change (removelast (p :: p2 :: more)) with (p :: removelast (p2 :: more)).
      change (last (p :: p2 :: more) []) with (last (p2 :: more) []).
      cbn [concat]. rewrite <- !app_assoc. reflexivity.
Qed.

Lemma concat_removelast_last (l : list bytes) : l <> [] -> concat (removelast l) ++ last l [] = concat l.
Proof.
  intro H. rewrite (app_removelast_last [] H) at 3. rewrite concat_app. cbn [concat]. rewrite app_nil_r. reflexivity.
Qed.

Lemma valueLoop_attr st first more n t :
  Forall text_byte first -> Forall (Forall text_byte) more -> Forall (fun p => p <> []) (removelast more) -> stops t ->
  exists s, valueLoop (first ++ flat_map (fun p => eol st ++ [x20] ++ p) more ++ eol st ++ concat (repeat (eol st) n) ++ t) v0
            = Ret (Some (s, t)) /\ vl_value s ++ vl_cur s = first ++ concat more /\ vl_clb s = S n.
Proof.
  intros Hf Hm Hr Ht. unfold v0. rewrite valueLoop_piece; [|exact Hf|reflexivity|reflexivity|trivial].
  cbn [vl_value vl_cur vl_junk vl_ok vl_cr vl_clb app].
  destruct (valueLoop_more st more n t [] first (match first with [] => true | _ => true end) [] false) as (j & ok & cr & E);
    [exact Hm | exact Hr | destruct first; reflexivity | discriminate | exact Ht | reflexivity |].
  cbn [app] in E. rewrite E. eexists. split; [reflexivity|]. cbn [vl_value vl_cur vl_clb]. split; [|reflexivity].
  destruct more as [|p more]; [cbn [concat app]; rewrite app_nil_r; reflexivity|].
  cbn [app]. rewrite <- app_assoc. f_equal. apply concat_removelast_last. discriminate.
Qed.

Lemma readHeader_attr st a n t clb : attr_ok a -> stops t -> (clb <= 1)%nat ->
  readHeader (enc_attr st a ++ concat (repeat (eol st) n) ++ t) clb
  = Ret (inl (mkHdr (lower (ja_name a)) (ja_value a) true t (S n))).
Proof.
  intros (Hn & Hf & Hm & Hr) Ht Hc. unfold readHeader.
  replace (Nat.ltb 1 clb) with false by (symmetry; apply Nat.ltb_ge; exact Hc).
  unfold enc_attr. rewrite <- !app_assoc. cbn [app].
  rewrite findColon_app by (apply Hn).
  rewrite byte_eqb_refl. cbn [negb]. apply isValidName_iff in Hn. rewrite Hn. cbn [negb].
  destruct (valueLoop_attr st (ja_first a) (ja_more a) n t Hf Hm Hr Ht) as (s & E & V & C).
  cbn [app] in E. rewrite E. cbn [obind]. rewrite V, C. reflexivity.
Qed.

Lemma stops_enc_attr st a t : attr_ok a -> stops (enc_attr st a ++ t).
Proof.
  intros ((Hl & Hn) & _). unfold enc_attr. destruct (ja_name a) as [|c n]; [rewrite zlen_nil in Hl; lia|].
  apply Forall_cons_iff in Hn. destruct Hn as [Hc _]. destruct (name_byte_not _ Hc) as (_ & H). exact H.
Qed.

(** the attribute map built by the parser *)
Definition attrs_map (l : list jattr) (m : attrs) : attrs :=
  fold_left (fun m a => sset (lower (ja_name a)) (ja_value a) m) l m.

Lemma readHeader_nil_clb1 clb : (clb <= 1)%nat -> readHeader [] clb = Ret (inl (mkHdr [] [] false [] 0)).
Proof. intro H. unfold readHeader. replace (Nat.ltb 1 clb) with false by (symmetry; apply Nat.ltb_ge; exact H). reflexivity. Qed.
Lemma readHeader_clb2 r clb : (1 < clb)%nat -> readHeader r clb = Ret (inl (mkHdr [] [] false r 0)).
Proof. intro H. unfold readHeader. apply Nat.ltb_lt in H. rewrite H. reflexivity. Qed.

Lemma enc_attr_length st a : (1 <= List.length (enc_attr st a))%nat.
Proof. unfold enc_attr. rewrite !app_length. cbn [List.length]. lia. Qed.

(** reading all the attributes of a section (after its first [k] ones) *)
Lemma attrsLoop_enc st l : forall fuel blank t clb m,
  l <> [] -> Forall attr_ok l -> (clb <= 1)%nat -> (t <> [] -> (1 <= blank)%nat) -> stops t ->
  (List.length l < fuel)%nat ->
  attrsLoop fuel (flat_map (enc_attr st) l ++ concat (repeat (eol st) blank) ++ t) clb m
  = Ret (inl (attrs_map l m, t, 0%nat)).
Proof.
  induction l as [|a l IH]; intros fuel blank t clb m Hne Hl Hc Hb Ht Hfuel; [congruence|].
  destruct fuel as [|fuel]; [cbn [List.length] in Hfuel; lia|].
  apply Forall_cons_iff in Hl. destruct Hl as [Ha Hl].
  cbn [attrsLoop flat_map]. rewrite <- app_assoc.
  destruct l as [|a2 l].
  - cbn [flat_map app]. rewrite readHeader_attr by assumption. cbn [obind h_single h_rest h_clb h_name h_value].
    destruct fuel as [|fuel]; [cbn [List.length] in Hfuel; lia|]. cbn [attrsLoop].
    destruct blank as [|blank].
    + destruct t as [|c t]; [|specialize (Hb ltac:(discriminate)); lia].
      rewrite readHeader_nil_clb1 by lia. reflexivity.
    + rewrite readHeader_clb2 by lia. reflexivity.
  - assert (St : stops (flat_map (enc_attr st) (a2 :: l) ++ concat (repeat (eol st) blank) ++ t)).
    { cbn [flat_map]. rewrite <- app_assoc. apply stops_enc_attr. apply Forall_inv in Hl. exact Hl. }
    pose proof (readHeader_attr st a 0 _ clb Ha St Hc) as E. cbn [repeat concat app] in E. rewrite E.
    cbn [obind h_single h_rest h_clb h_name h_value].
    rewrite IH; [reflexivity | discriminate | exact Hl | lia | exact Hb | exact Ht | cbn [List.length] in Hfuel |- *; lia].
Qed.

(** the rest of a section: possibly no attribute left *)
Lemma attrsLoop_enc_rest st l fuel blank t m :
  Forall attr_ok l -> (t <> [] -> (1 <= blank)%nat) -> stops t -> (List.length l < fuel)%nat ->
  attrsLoop fuel (match l with [] => t | _ => flat_map (enc_attr st) l ++ concat (repeat (eol st) blank) ++ t end)
            (match l with [] => S blank | _ => 1 end) m
  = Ret (inl (attrs_map l m, t, 0%nat)).
Proof.
  intros Hl Hb Ht Hf. destruct l as [|a l].
  - destruct fuel as [|fuel]; [lia|]. cbn [attrsLoop].
    destruct blank as [|blank].
    + destruct t as [|c t]; [|specialize (Hb ltac:(discriminate)); lia].
      rewrite readHeader_nil_clb1 by lia. reflexivity.
    + rewrite readHeader_clb2 by lia. reflexivity.
  - apply attrsLoop_enc; try assumption; [discriminate|lia].
Qed.

Lemma flat_map_enc_length st l : (List.length l <= List.length (flat_map (enc_attr st) l))%nat.
Proof.
  induction l as [|a l IH]; [reflexivity|]. cbn [flat_map List.length]. rewrite app_length.
  pose proof (enc_attr_length st a). lia.
Qed.

Lemma sset_fresh {V} k (v : V) m : sget k m = None -> sset k v m = m ++ [(k, v)].
Proof.
  induction m as [|[k' v'] m IH]; cbn [mget mset]; [reflexivity|].
  destruct (bytes_eqb k k'); [discriminate|]. intro H. rewrite IH by exact H. reflexivity.
Qed.
Lemma sget_app_none {V} k (m m' : list (bytes * V)) : sget k m = None -> sget k (m ++ m') = sget k m'.
Proof.
  induction m as [|[k' v'] m IH]; cbn [mget app]; [reflexivity|].
  destruct (bytes_eqb k k'); [discriminate|]. exact IH.
Qed.

Lemma consumed_app a b : consumed (a ++ b) b = a.
Proof. unfold consumed. apply takeZ_app. rewrite zlen_app. lia. Qed.

Lemma enc_section_cons st a l n : enc_section st {| js_attrs := a :: l; js_blank := n |} =
  enc_attr st a ++ flat_map (enc_attr st) l ++ concat (repeat (eol st) n).
Proof. unfold enc_section. cbn [js_attrs js_blank flat_map]. rewrite <- app_assoc. reflexivity. Qed.

Definition sec_ok (p : bytes * jsection) : Prop :=
  section_named (snd p) (fst p) /\ Forall attr_ok (js_attrs (snd p)).

Lemma stops_sections st (l : list (bytes * jsection)) :
  Forall sec_ok l -> stops (concat (map (fun p => enc_section st (snd p)) l)).
Proof.
  intro H. destruct l as [|[n [as_ bl]] l]; [exact I|]. apply Forall_inv in H. destruct H as [(a & t & E & _) Ha].
  cbn [snd js_attrs] in *. subst as_. cbn [map concat snd]. rewrite enc_section_cons, <- app_assoc.
  apply stops_enc_attr. apply Forall_inv in Ha. exact Ha.
Qed.

Lemma bytes_eqb_sym a b : bytes_eqb a b = bytes_eqb b a.
Proof.
  destruct (bytes_eqb a b) eqn:E; [apply bytes_eqb_eq in E; subst; rewrite bytes_eqb_refl; reflexivity|].
  symmetry. apply bytes_eqb_neq. apply bytes_eqb_neq in E. congruence.
Qed.
Lemma sget_none_in {V} k (m : list (bytes * V)) : sget k m = None <-> ~ In k (map fst m).
Proof. apply mget_none. exact bytes_eqb_eq. Qed.

(** one section *)
Lemma section_step st wc fuel n x t entries chunks :
  sec_ok (n, x) -> stops t -> (t <> [] -> (1 <= js_blank x)%nat) ->
  sget n entries = None -> sget n chunks = None ->
  sectionsLoop (S fuel) wc (enc_section st x ++ t) (enc_section st x ++ t) 0 entries chunks =
  sectionsLoop fuel wc (if wc then t else enc_section st x ++ t) t 0
    (entries ++ [(n, attrs_map (section_attrs x) [])]) (if wc then chunks ++ [(n, enc_section st x)] else chunks).
Proof.
  intros [(a & l & El & En & Ev) Ha] Ht Hb He Hch. cbn [snd fst] in *. unfold section_attrs.
  destruct x as [as_ bl]. cbn [js_attrs js_blank tl] in *. subst as_. cbn [tl].
  apply Forall_cons_iff in Ha. destruct Ha as [Ha Hl].
  assert (RH : readHeader (enc_section st {| js_attrs := a :: l; js_blank := bl |} ++ t) 0 =
      Ret (inl (mkHdr (lower (ja_name a)) (ja_value a) true
                      (match l with [] => t | _ => flat_map (enc_attr st) l ++ concat (repeat (eol st) bl) ++ t end)
                      (match l with [] => S bl | _ => 1 end)))).
  { rewrite enc_section_cons, <- !app_assoc. destruct l as [|a2 l].
    - cbn [flat_map app]. rewrite readHeader_attr by (assumption || lia). reflexivity.
    - assert (St : stops (flat_map (enc_attr st) (a2 :: l) ++ concat (repeat (eol st) bl) ++ t)).
      { cbn [flat_map]. rewrite <- app_assoc. apply stops_enc_attr. apply Forall_inv in Hl. exact Hl. }
      pose proof (readHeader_attr st a 0 _ 0 Ha St ltac:(lia)) as E. cbn [repeat concat app] in E. rewrite E. reflexivity. }
  cbn [sectionsLoop]. rewrite RH. cbn [obind h_single h_name h_value h_rest h_clb negb].
  rewrite En, Ev. replace (bytes_eqb (lower (map z2b [78; 97; 109; 101])) attrName) with true by reflexivity. cbn [negb].
  rewrite He.
  rewrite attrsLoop_enc_rest.
  2: exact Hl. 2: exact Hb. 2: exact Ht.
  2: { destruct l as [|a2 l]; [cbn [List.length]; lia|]. rewrite app_length.
       pose proof (flat_map_enc_length st (a2 :: l)). lia. }
  cbn [obind]. rewrite (sset_fresh n _ entries He). destruct wc; [|reflexivity].
  rewrite Hch, (sset_fresh n _ chunks Hch), consumed_app. reflexivity.
Qed.

Lemma sectionsLoop_nil fuel wc mk entries chunks :
  sectionsLoop (S fuel) wc mk [] 0 entries chunks = Ret (inl (entries, chunks)).
Proof. cbn [sectionsLoop]. rewrite readHeader_nil_clb1 by lia. reflexivity. Qed.

Lemma NoDup_app_cons_notin {A} (l1 l2 : list A) x : NoDup (l1 ++ x :: l2) -> ~ In x l1.
Proof. intros H Hin. apply NoDup_remove_2 in H. apply H, in_or_app. left. exact Hin. Qed.

(** withChunks = false keeps mark; the value of mark is irrelevant then. *)
Lemma sectionsLoop_mark fuel : forall mk mk' r clb e c,
  sectionsLoop fuel false mk r clb e c = sectionsLoop fuel false mk' r clb e c.
Proof.
  induction fuel as [|fuel IH]; intros; [reflexivity|]. cbn [sectionsLoop].
  destruct (readHeader r clb) as [[h|]|]; cbn [obind]; try reflexivity.
  destruct (negb (h_single h)); [reflexivity|]. destruct (negb (bytes_eqb (h_name h) attrName)); [reflexivity|].
  destruct (attrsLoop _ _ _ _) as [[[[e' r'] clb']|]|]; cbn [obind]; try reflexivity. apply IH.
Qed.

Lemma sectionsLoop_enc st wc (l : list (bytes * jsection)) : forall fuel entries chunks,
  Forall sec_ok l -> blanks_ok (map snd l) ->
  NoDup (map fst entries ++ map fst l) -> NoDup (map fst chunks ++ map fst l) -> (List.length l < fuel)%nat ->
  let r := concat (map (fun p => enc_section st (snd p)) l) in
  sectionsLoop fuel wc r r 0 entries chunks =
  Ret (inl (entries ++ map (fun p => (fst p, attrs_map (section_attrs (snd p)) [])) l,
            if wc then chunks ++ map (fun p => (fst p, enc_section st (snd p))) l else chunks)).
Proof.
  induction l as [|[n x] l IH]; intros fuel entries chunks Hs Hb Hn Hnc Hf r.
  - destruct fuel as [|fuel]; [cbn [List.length] in Hf; lia|]. subst r. cbn [map concat].
    rewrite sectionsLoop_nil, !app_nil_r. destruct wc; reflexivity.
  - destruct fuel as [|fuel]; [cbn [List.length] in Hf; lia|]. subst r.
    apply Forall_cons_iff in Hs. destruct Hs as [Hx Hs].
    cbn [map concat snd fst]. cbn [map fst] in Hn, Hnc.
    rewrite (section_step st wc fuel n x).
    + assert (B : blanks_ok (map snd l)).
      { cbn [map snd] in Hb. destruct (map snd l) eqn:E; [exact I|]. exact (proj2 Hb). }
      assert (K : forall V (m : list (bytes * V)) (v : V), NoDup (map fst m ++ n :: map fst l) ->
                NoDup (map fst (m ++ [(n, v)]) ++ map fst l)).
      { intros V m v H. rewrite map_app. cbn [map fst]. rewrite <- app_assoc. exact H. }
      assert (KE := K _ _ (attrs_map (section_attrs x) []) Hn).
      assert (KC := K _ _ (enc_section st x) Hnc).
      assert (F : (List.length l < fuel)%nat) by (cbn [List.length] in Hf; lia).
      destruct wc.
      * etransitivity; [exact (IH fuel _ _ Hs B KE KC F)|]. rewrite <- !app_assoc. reflexivity.
      * rewrite (sectionsLoop_mark _ _ (concat (map (fun p => enc_section st (snd p)) l))).
        assert (KC' : NoDup (map fst chunks ++ map fst l)).
        { apply NoDup_remove_1 in Hnc. exact Hnc. }
        etransitivity; [exact (IH fuel _ _ Hs B KE KC' F)|]. rewrite <- !app_assoc. reflexivity.
    + exact Hx.
    + apply stops_sections. exact Hs.
    + intro Ht. cbn [map snd] in Hb. destruct (map snd l) eqn:E.
      * apply map_eq_nil in E. subst l. cbn [map concat] in Ht. congruence.
      * exact (proj1 Hb).
    + apply sget_none_in. eapply NoDup_app_cons_notin. exact Hn.
    + apply sget_none_in. eapply NoDup_app_cons_notin. exact Hnc.
Qed.

Lemma enc_section_length st x : (List.length (js_attrs x) <= List.length (enc_section st x))%nat.
Proof. unfold enc_section. rewrite app_length. pose proof (flat_map_enc_length st (js_attrs x)). lia. Qed.
Lemma sections_length st (l : list (bytes * jsection)) : Forall sec_ok l ->
  (List.length l <= List.length (concat (map (fun p => enc_section st (snd p)) l)))%nat.
Proof.
  induction 1 as [|[n x] l [(a & t & E & _) _] Hl IH]; [reflexivity|]. cbn [map concat List.length]. rewrite app_length.
  pose proof (enc_section_length st x). cbn [snd] in *. rewrite E in H. cbn [List.length] in H. lia.
Qed.

Theorem parse_encoded st wc main (secs : list (bytes * jsection)) :
  js_attrs main <> [] -> Forall attr_ok (js_attrs main) -> Forall sec_ok secs ->
  blanks_ok (main :: map snd secs) -> NoDup (map fst secs) ->
  let data := enc_section st main ++ concat (map (fun p => enc_section st (snd p)) secs) in
  parseBytes wc data = Ret (inl (mkManifest data (attrs_map (js_attrs main) [])
     (map (fun p => (fst p, attrs_map (section_attrs (snd p)) [])) secs)
     (if wc then map (fun p => (fst p, enc_section st (snd p))) secs else [])
     (zlen (enc_section st main)))).
Proof.
  intros Hne Hm Hs Hb Hn data. unfold parseBytes.
  assert (St := stops_sections st secs Hs).
  set (t := concat (map (fun p => enc_section st (snd p)) secs)) in *.
  assert (A : attrsLoop (S (List.length data)) data 0 [] = Ret (inl (attrs_map (js_attrs main) [], t, 0%nat))).
  { unfold data, enc_section. rewrite <- app_assoc. apply attrsLoop_enc; try assumption; [lia| |].
    - intro Ht. destruct secs as [|s secs]; [unfold t in Ht; cbn [map concat] in Ht; congruence|]. exact (proj1 Hb).
    - rewrite app_length. pose proof (flat_map_enc_length st (js_attrs main)). lia. }
  rewrite A. cbn [obind].
  unfold t. rewrite (sectionsLoop_enc st wc secs). fold t.
  - cbn [obind app]. unfold data. rewrite zlen_app. repeat f_equal. lia.
  - exact Hs.
  - destruct (map snd secs); [exact I | exact (proj2 Hb)].
  - exact Hn.
  - exact Hn.
  - apply Nat.lt_succ_r. apply sections_length. exact Hs.
Qed.

(** reading the map *)
Lemma sget_sset {V} k k' (v : V) m : sget k (sset k' v m) = if bytes_eqb k k' then Some v else sget k m.
Proof.
  destruct (bytes_eqb k k') eqn:E.
  - apply bytes_eqb_eq in E. subst. apply (mget_mset_same bytes_eqb bytes_eqb_eq).
  - apply bytes_eqb_neq in E. apply (mget_mset_other bytes_eqb bytes_eqb_eq). exact E.
Qed.
Lemma find_app' {A} (f : A -> bool) l1 l2 : find f (l1 ++ l2) = match find f l1 with Some x => Some x | None => find f l2 end.
Proof. induction l1 as [|a l1 IH]; [reflexivity|]. cbn [app find]. destruct (f a); [reflexivity | exact IH]. Qed.

Lemma attrs_map_get l : forall m k,
  sget k (attrs_map l m) = match attr_value l k with Some v => Some v | None => sget k m end.
Proof.
  induction l as [|a l IH]; intros m k; [reflexivity|].
  unfold attrs_map. cbn [fold_left]. change (fold_left _ l ?m') with (attrs_map l m'). rewrite IH.
  unfold attr_value. cbn [rev]. rewrite find_app'. cbn [find].
  destruct (find _ (rev l)); [reflexivity|]. rewrite sget_sset. destruct (bytes_eqb k (lower (ja_name a))); reflexivity.
Qed.
