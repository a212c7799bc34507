(** The sections of a parsed manifest partition it (Model/Manifest.v, withChunks = true) *)
From Coq Require Import String Lia.
From Verif.Model Require Import Bytes Env Manifest.
From Verif.Spec Require Import JarManifest.
From Verif.Proofs Require Import BytesFacts ManifestFacts.

(** Data after which the value loop stops in a state with [clb] line breaks. *)
Definition follow (clb : nat) (t : bytes) : Prop :=
  match t with
  | [] => True
  | c :: _ => (1 <= clb)%nat /\ c <> x00 /\ c <> x0a /\ c <> x0d /\ (c = x20 -> clb <> 1%nat)
  end.
Lemma stops_follow clb t : stops t -> (1 <= clb)%nat -> follow clb t.
Proof. destruct t; [trivial|]. intros (A & B & C & D) H. repeat (split; [assumption|]). congruence. Qed.
Lemma follow_prefix clb c t : follow clb (c ++ t) -> follow clb c.
Proof. destruct c; [intros _; exact I|]. exact (fun H => H). Qed.

Lemma valueLoop_follow t s : follow (vl_clb s) t -> valueLoop t s = Ret (Some (s, t)).
Proof.
  destruct t as [|c t]; [reflexivity|]. intros (Hc & H0 & Ha & Hd & Hs). cbn [valueLoop].
  rewrite (byte_eqb_neq _ _ H0), (byte_eqb_neq _ _ Ha), (byte_eqb_neq _ _ Hd).
  destruct (byte_eqb c x20 && Nat.eqb (vl_clb s) 1) eqn:E.
  - apply andb_true_iff in E. destruct E as [E1 E2]. apply byte_eqb_eq in E1. apply Nat.eqb_eq in E2.
    destruct (Hs E1 E2).
  - apply Nat.leb_le in Hc. rewrite Hc. reflexivity.
Qed.

Lemma valueLoop_local r : forall s s' r', valueLoop r s = Ret (Some (s', r')) ->
  follow (vl_clb s') r' /\
  exists c, r = c ++ r' /\ forall t, follow (vl_clb s') t -> valueLoop (c ++ t) s = Ret (Some (s', t)).
Proof.
  induction r as [|c r IH]; intros s s' r' H.
  - cbn [valueLoop] in H. assert (s' = s /\ r' = []) as [-> ->] by (split; congruence).
    split; [exact I|]. exists []. split; [reflexivity|]. intros t Ht. cbn [app]. apply valueLoop_follow. exact Ht.
  - cbn [valueLoop] in H.
    destruct (byte_eqb c x00) eqn:E0; [discriminate|].
    destruct (byte_eqb c x0a) eqn:Ea.
    { destruct (vl_cr s) eqn:Ecr; apply IH in H; destruct H as [F (c' & -> & L)]; (split; [exact F|]);
      exists (c :: c'); (split; [reflexivity|]); intros t Ht; cbn [app valueLoop]; rewrite E0, Ea, Ecr; apply L, Ht. }
    destruct (byte_eqb c x0d) eqn:Ed.
    { apply IH in H; destruct H as [F (c' & -> & L)]; (split; [exact F|]);
      exists (c :: c'); (split; [reflexivity|]); intros t Ht; cbn [app valueLoop]; rewrite E0, Ea, Ed; apply L, Ht. }
    destruct (byte_eqb c x20 && Nat.eqb (vl_clb s) 1) eqn:Es.
    { destruct (vl_ok s) eqn:Eo; [|discriminate]. apply IH in H; destruct H as [F (c' & -> & L)]; (split; [exact F|]);
      exists (c :: c'); (split; [reflexivity|]); intros t Ht; cbn [app valueLoop]; rewrite E0, Ea, Ed, Es, Eo; apply L, Ht. }
    destruct (Nat.leb 1 (vl_clb s)) eqn:El.
    { assert (s' = s /\ r' = c :: r) as [-> ->] by (split; congruence). split.
      - apply Nat.leb_le in El.
        assert (Nb : forall b, byte_eqb c b = false -> c <> b) by (intros b Hb ->; rewrite byte_eqb_refl in Hb; discriminate).
        repeat (split; [first [assumption | apply Nb; assumption]|]).
        intros -> E. rewrite E, byte_eqb_refl in Es. discriminate.
      - exists []. split; [reflexivity|]. intros t Ht. cbn [app]. apply valueLoop_follow. exact Ht. }
    { apply IH in H; destruct H as [F (c' & -> & L)]; (split; [exact F|]);
      exists (c :: c'); (split; [reflexivity|]); intros t Ht; cbn [app valueLoop]; rewrite E0, Ea, Ed, Es, El; apply L, Ht. }
Qed.

Lemma findColon_some r : forall p q, findColon r = Some (p, q) ->
  r = p ++ ":"%byte :: q /\ forall t, findColon (p ++ ":"%byte :: t) = Some (p, t).
Proof.
  induction r as [|c r IH]; intros p q H; [discriminate|]. cbn [findColon] in H.
  destruct (byte_eqb c ":"%byte) eqn:E.
  - apply byte_eqb_eq in E. subst c. assert (p = [] /\ q = r) as [-> ->] by (split; congruence). split; [reflexivity|].
    intro t. reflexivity.
  - destruct (findColon r) as [[p' q']|]; [|discriminate]. assert (p = c :: p' /\ q = q') as [-> ->] by (split; congruence).
    destruct (IH p' q' eq_refl) as [-> L]. split; [reflexivity|]. intro t. cbn [app findColon]. rewrite E, L. reflexivity.
Qed.

(** a header that was read *)
Lemma readHeader_single r clb h : readHeader r clb = Ret (inl h) -> h_single h = true ->
  (clb <= 1)%nat /\ (1 <= h_clb h)%nat /\ follow (h_clb h) (h_rest h) /\ stops r /\
  exists c, c <> [] /\ r = c ++ h_rest h /\
    forall t clb', (clb' <= 1)%nat -> follow (h_clb h) t ->
      readHeader (c ++ t) clb' = Ret (inl (mkHdr (h_name h) (h_value h) true t (h_clb h))).
Proof.
  unfold readHeader. destruct (Nat.ltb 1 clb) eqn:Ec.
  { intros H Hs. assert (E : h = mkHdr [] [] false r 0) by congruence. rewrite E in Hs. discriminate. }
  apply Nat.ltb_ge in Ec.
  destruct (findColon r) as [[name after]|] eqn:Ef.
  2: { cbn [valueLoop obind v0 vl_value vl_cur vl_clb app Nat.ltb Nat.leb]. intros H Hs.
       assert (E : h = mkHdr [] [] false [] 0) by congruence. rewrite E in Hs. discriminate. }
  destruct after as [|b rest]; [discriminate|].
  destruct (negb (byte_eqb b x20)) eqn:Eb; [discriminate|].
  destruct (negb (isValidName name)) eqn:En; [discriminate|].
  intros H Hs.
  destruct (valueLoop rest v0) as [[[s r']|]|] eqn:Ev; cbn [obind] in H; try discriminate.
  assert (E : h = mkHdr (asciiLower name) (vl_value s ++ vl_cur s) (Nat.ltb 0 (vl_clb s)) r' (vl_clb s)) by congruence.
  subst h. cbn [h_single h_clb h_rest h_name h_value] in *. apply Nat.ltb_lt in Hs.
  apply valueLoop_local in Ev. destruct Ev as [F (c & -> & L)].
  destruct (findColon_some _ _ _ Ef) as [Er Lf].
  split; [exact Ec|]. split; [lia|]. split; [exact F|]. split.
  { apply negb_false_iff, isValidName_iff in En. destruct En as [Hl Hn].
    rewrite Er. destruct name as [|n0 name]; [rewrite zlen_nil in Hl; lia|]. apply Forall_cons_iff in Hn.
    destruct Hn as [Hn _]. destruct (name_byte_not _ Hn) as (_ & Q). exact Q. }
  exists (name ++ ":"%byte :: b :: c). split; [destruct name; discriminate|]. split.
  { rewrite Er, <- app_assoc. reflexivity. }
  intros t clb' Hc' Ht. replace (Nat.ltb 1 clb') with false by (symmetry; apply Nat.ltb_ge; exact Hc').
  rewrite <- app_assoc. cbn [app]. rewrite Lf, Eb, En, (L t Ht). cbn [obind].
  apply Nat.ltb_lt in Hs. rewrite Hs. reflexivity.
Qed.

(** a header that was not complete *)
Lemma readHeader_last r clb h : readHeader r clb = Ret (inl h) -> h_single h = false ->
  h_clb h = 0%nat /\ ((1 < clb)%nat /\ h_rest h = r \/ (clb <= 1)%nat /\ h_rest h = []).
Proof.
  unfold readHeader. destruct (Nat.ltb 1 clb) eqn:Ec.
  { intros H Hs. assert (E : h = mkHdr [] [] false r 0) by congruence. subst h. apply Nat.ltb_lt in Ec. auto. }
  apply Nat.ltb_ge in Ec.
  destruct (findColon r) as [[name after]|] eqn:Ef.
  2: { cbn [valueLoop obind v0 vl_value vl_cur vl_clb app Nat.ltb Nat.leb]. intros H Hs.
       assert (E : h = mkHdr [] [] false [] 0) by congruence. subst h. auto. }
  destruct after as [|b rest]; [discriminate|].
  destruct (negb (byte_eqb b x20)) eqn:Eb; [discriminate|].
  destruct (negb (isValidName name)) eqn:En; [discriminate|].
  intros H Hs.
  destruct (valueLoop rest v0) as [[[s r']|]|] eqn:Ev; cbn [obind] in H; try discriminate.
  assert (E : h = mkHdr (asciiLower name) (vl_value s ++ vl_cur s) (Nat.ltb 0 (vl_clb s)) r' (vl_clb s)) by congruence.
  subst h. cbn [h_single h_clb h_rest h_name h_value] in *. apply Nat.ltb_ge in Hs.
  apply valueLoop_local in Ev. destruct Ev as [F _].
  split; [lia|]. right. split; [exact Ec|]. destruct r'; [reflexivity|]. destruct F as [F _]. lia.
Qed.

Lemma attrsLoop_local fuel : forall r clb m m' r' clb', attrsLoop fuel r clb m = Ret (inl (m', r', clb')) ->
  clb' = 0%nat /\
  exists c, r = c ++ r' /\ (r' <> [] -> c = [] -> (1 < clb)%nat) /\
    forall t fuel', (t = [] \/ r' <> [] /\ stops t) -> (List.length c < fuel')%nat ->
      attrsLoop fuel' (c ++ t) clb m = Ret (inl (m', t, 0%nat)).
Proof.
  induction fuel as [|fuel IH]; intros r clb m m' r' clb' H; [discriminate|]. cbn [attrsLoop] in H.
  destruct (readHeader r clb) as [[h|e]|] eqn:Er; cbn [obind] in H; try discriminate.
  destruct (h_single h) eqn:Es.
  - destruct (readHeader_single _ _ _ Er Es) as (Hc & H1 & Hf & Hst & c1 & Hc1 & -> & L).
    apply IH in H. destruct H as [-> (c2 & E2 & Hd & L2)]. split; [reflexivity|].
    exists (c1 ++ c2). split; [rewrite E2, app_assoc; reflexivity|].
    split; [intros _ E; destruct c1; [congruence|discriminate]|].
    intros t fuel' Ht Hfu. rewrite <- app_assoc. destruct fuel' as [|fuel']; [lia|]. cbn [attrsLoop].
    rewrite app_length in Hfu. destruct c1 as [|b1 c1]; [congruence|]. cbn [List.length] in Hfu.
    rewrite (L (c2 ++ t) clb Hc).
    + cbn [obind h_single h_rest h_clb h_name h_value]. apply L2; [exact Ht|]. lia.
    + destruct c2 as [|b2 c2].
      * cbn [app]. destruct Ht as [-> | [Hr Hs]]; [exact I|]. specialize (Hd Hr eq_refl). apply stops_follow; [exact Hs|lia].
      * rewrite E2 in Hf. exact Hf.
  - destruct (readHeader_last _ _ _ Er Es) as [E0 D].
    assert (m' = m /\ r' = h_rest h /\ clb' = h_clb h) as (-> & -> & ->) by (repeat split; congruence).
    split; [exact E0|].
    destruct D as [[D1 D2] | [D1 D2]].
    + rewrite D2. exists []. split; [reflexivity|]. split; [auto|]. intros t fuel' _ Hfu.
      destruct fuel' as [|fuel']; [cbn [List.length] in Hfu; lia|]. cbn [attrsLoop app]. rewrite readHeader_clb2 by exact D1. reflexivity.
    + rewrite D2. exists r. split; [rewrite app_nil_r; reflexivity|]. split; [congruence|].
      intros t fuel' Ht Hfu. destruct Ht as [-> | [Hr _]]; [|congruence].
      rewrite app_nil_r. destruct fuel' as [|fuel']; [lia|]. cbn [attrsLoop]. rewrite Er. cbn [obind]. rewrite Es, D2, E0. reflexivity.
Qed.

(** what one section's bytes say on their own *)
Definition section_reads (nm ch : bytes) (at_ : attrs) : Prop :=
  exists h, readHeader ch 0 = Ret (inl h) /\ h_single h = true /\ h_name h = attrName /\ h_value h = nm /\
    attrsLoop (S (List.length (h_rest h))) (h_rest h) (h_clb h) [] = Ret (inl (at_, [], 0%nat)).

Definition same_keys (entries : list (bytes * attrs)) (chunks : list (bytes * bytes)) : Prop :=
  map fst entries = map fst chunks.

Lemma sectionsLoop_sound fuel : forall r entries chunks entries' chunks',
  same_keys entries chunks -> NoDup (map fst chunks) ->
  sectionsLoop fuel true r r 0 entries chunks = Ret (inl (entries', chunks')) ->
  exists secs tail,
    r = concat (map (fun s => snd (fst s)) secs) ++ tail /\
    entries' = entries ++ map (fun s => (fst (fst s), snd s)) secs /\
    chunks' = chunks ++ map (fun s => fst s) secs /\
    NoDup (map fst chunks') /\
    Forall (fun s => section_reads (fst (fst s)) (snd (fst s)) (snd s) /\ stops (snd (fst s))) secs /\
    (exists h, readHeader tail 0 = Ret (inl h) /\ h_single h = false).
Proof.
  induction fuel as [|fuel IH]; intros r entries chunks entries' chunks' Hk Hn H; [discriminate|].
  cbn [sectionsLoop] in H.
  destruct (readHeader r 0) as [[h|e]|] eqn:Er; cbn [obind] in H; try discriminate.
  destruct (h_single h) eqn:Es; cbn [negb] in H.
  2: { assert (entries' = entries /\ chunks' = chunks) as [-> ->] by (split; congruence).
       exists [], r. cbn [map concat app]. rewrite !app_nil_r. repeat (split; [first [reflexivity|assumption|constructor]|]).
       exists h. split; assumption. }
  destruct (bytes_eqb (h_name h) attrName) eqn:En; cbn [negb] in H; [|discriminate].
  destruct (readHeader_single _ _ _ Er Es) as (Hc & H1 & Hf & Hst & c1 & Hc1 & E1 & L).
  destruct (attrsLoop _ _ _ _) as [[[[entry r'] clb']|e]|] eqn:Ea; cbn [obind] in H; try discriminate.
  destruct (sget (h_value h) chunks) eqn:Eg; [discriminate|].
  assert (Ege : sget (h_value h) entries = None).
  { apply sget_none_in. rewrite Hk. apply sget_none_in. exact Eg. }
  rewrite Ege in Ea.
  destruct (attrsLoop_local _ _ _ _ _ _ _ Ea) as [-> (c2 & E2 & Hd & L2)].
  rewrite (sset_fresh _ _ _ Eg), (sset_fresh _ _ _ Ege) in H.
  assert (Ec : consumed r r' = c1 ++ c2).
  { rewrite E1, E2, app_assoc. apply consumed_app. }
  rewrite Ec in H.
  apply IH in H.
  2: { unfold same_keys. rewrite !map_app, Hk. reflexivity. }
  2: { rewrite map_app. cbn [map fst]. apply sget_none_in in Eg.
       apply NoDup_rev in Hn. rewrite <- (rev_involutive (map fst chunks ++ [h_value h])). apply NoDup_rev.
       rewrite rev_app_distr. cbn [rev app]. constructor; [|exact Hn]. rewrite <- in_rev. exact Eg. }
  destruct H as (secs & tail & Hr & He & Hch & Hnd & Hse & Ht).
  exists ((h_value h, c1 ++ c2, entry) :: secs), tail. cbn [map concat fst snd].
  split; [rewrite E1, E2, Hr, <- !app_assoc; reflexivity|].
  split; [rewrite He, <- app_assoc; reflexivity|].
  split; [rewrite Hch, <- app_assoc; reflexivity|].
  split; [exact Hnd|]. split; [|exact Ht].
  constructor; [|exact Hse]. cbn [fst snd]. split.
  - exists (mkHdr (h_name h) (h_value h) true c2 (h_clb h)). cbn [h_single h_name h_value h_rest h_clb].
    split; [|split; [reflexivity|split; [apply bytes_eqb_eq; exact En|split; [reflexivity|]]]].
    + apply L; [lia|]. rewrite E2 in Hf. apply follow_prefix in Hf. exact Hf.
    + specialize (L2 [] (S (List.length c2)) (or_introl eq_refl) ltac:(lia)). rewrite app_nil_r in L2. exact L2.
  - rewrite E1, E2 in Hst. destruct c1 as [|b c1]; [congruence|]. exact Hst.
Qed.

Theorem parse_sections data m : parseBytes true data = Ret (inl m) ->
  m_rawData m = data /\ 0 <= m_mainEnd m <= zlen data /\
  NoDup (map fst (m_entries m)) /\ map fst (m_entries m) = map fst (m_chunks m) /\
  (exists tail, data = takeZ (m_mainEnd m) data ++ concat (map snd (m_chunks m)) ++ tail /\
     (forall st a t, attr_ok a -> stops t -> tail <> enc_attr st a ++ t)) /\
  (forall nm ch at_, sget nm (m_chunks m) = Some ch -> sget nm (m_entries m) = Some at_ ->
     parseBytes true (takeZ (m_mainEnd m) data ++ ch) =
     Ret (inl (mkManifest (takeZ (m_mainEnd m) data ++ ch) (m_main m) [(nm, at_)] [(nm, ch)] (m_mainEnd m)))).
Proof.
  unfold parseBytes at 1. intro H.
  destruct (attrsLoop _ data _ _) as [[[[main r] clb]|e]|] eqn:Ea; cbn [obind] in H; try discriminate.
  destruct (attrsLoop_local _ _ _ _ _ _ _ Ea) as [-> (c & Ec & Hd & L)].
  destruct (sectionsLoop _ _ _ _ _ _ _) as [[[entries chunks]|e]|] eqn:Es; cbn [obind] in H; try discriminate.
  assert (Em : m = mkManifest data main entries chunks (zlen data - zlen r)) by congruence. subst m. clear H.
  cbn [m_rawData m_main m_entries m_chunks m_mainEnd].
  assert (P := zlen_nonneg c).
  assert (El : zlen data - zlen r = zlen c) by (rewrite Ec, zlen_app; lia). rewrite El.
  assert (Et : takeZ (zlen c) data = c) by (rewrite Ec; apply takeZ_app; reflexivity). rewrite Et.
  destruct (sectionsLoop_sound _ _ [] [] _ _ eq_refl (NoDup_nil _) Es) as (secs & tail & Hr & He & Hch & Hn & Hse & Ht).
  cbn [app] in He, Hch.
  assert (Hk : map fst entries = map fst chunks) by (rewrite He, Hch, !map_map; reflexivity).
  split; [reflexivity|]. split; [rewrite Ec, zlen_app; pose proof (zlen_nonneg r); lia|].
  split; [rewrite Hk; exact Hn|]. split; [exact Hk|]. split.
  { exists tail. split; [rewrite Ec at 1; f_equal; rewrite Hr at 1; f_equal; rewrite Hch, map_map; reflexivity|].
    intros st a t Ha Hs ->. destruct Ht as (h & Eh & Eq).
    pose proof (readHeader_attr st a 0 t 0 Ha Hs ltac:(lia)) as R. cbn [repeat concat app] in R. rewrite R in Eh.
    assert (X : h_single h = true) by (assert (Y : h = mkHdr (lower (ja_name a)) (ja_value a) true t 1) by congruence; rewrite Y; reflexivity).
    congruence. }
  intros nm ch at_ Hc Ha.
  assert (In3 : exists s, In s secs /\ fst s = (nm, ch) /\ snd s = at_).
  { apply (mget_in bytes_eqb bytes_eqb_eq) in Hc. rewrite Hch in Hc. apply in_map_iff in Hc. destruct Hc as (s & E & Hin).
    exists s. split; [exact Hin|]. split; [exact E|].
    assert (I2 : In (nm, snd s) entries).
    { rewrite He. apply in_map_iff. exists s. split; [rewrite E; reflexivity|exact Hin]. }
    apply (in_mget bytes_eqb bytes_eqb_eq) in I2; [congruence|]. rewrite Hk. exact Hn. }
  destruct In3 as (s & Hin & E1 & E2).
  rewrite Forall_forall in Hse. specialize (Hse s Hin). rewrite E1, E2 in Hse. cbn [fst snd] in Hse.
  destruct Hse as [(h & Eh & Esg & Enm & Ev & Ea2) Hst].
  assert (Hr0 : r <> []).
  { intro Z. rewrite Hr in Z. apply app_eq_nil in Z. destruct Z as [Z _].
    assert (ch = []) as ->.
    { apply in_split in Hin. destruct Hin as (l1 & l2 & ->). rewrite map_app, concat_app in Z. apply app_eq_nil in Z.
      destruct Z as [_ Z]. cbn [map concat] in Z. apply app_eq_nil in Z. destruct Z as [Z _]. rewrite E1 in Z. exact Z. }
    rewrite readHeader_nil_clb1 in Eh by lia. assert (X : h = mkHdr [] [] false [] 0) by congruence. rewrite X in Esg. discriminate. }
  unfold parseBytes. rewrite (L ch).
  2: { right. split; assumption. }
  2: { rewrite app_length. lia. }
  cbn [obind sectionsLoop]. rewrite Eh. cbn [obind]. rewrite Esg, Enm, bytes_eqb_refl. cbn [negb mget].
  rewrite Ea2. cbn [obind mset].
  assert (Ecs : consumed ch [] = ch) by (pose proof (consumed_app ch []) as Q; rewrite app_nil_r in Q; exact Q).
  destruct ch as [|b ch'].
  { rewrite readHeader_nil_clb1 in Eh by lia. assert (X : h = mkHdr [] [] false [] 0) by congruence. rewrite X in Esg. discriminate. }
  cbn [List.length]. rewrite sectionsLoop_nil. cbn [obind]. rewrite Ev, Ecs. repeat f_equal. rewrite zlen_app. lia.
Qed.

(** The parser never runs out of fuel. *)
Lemma attrsLoop_fuel fuel : forall fuel' r clb m, (List.length r < fuel)%nat -> (List.length r < fuel')%nat ->
  attrsLoop fuel r clb m = attrsLoop fuel' r clb m.
Proof.
  induction fuel as [|fuel IH]; intros fuel' r clb m H H'; [lia|]. destruct fuel' as [|fuel']; [lia|].
  cbn [attrsLoop]. destruct (readHeader r clb) as [[h|e]|] eqn:Er; cbn [obind]; try reflexivity.
  destruct (h_single h) eqn:Es; [|reflexivity].
  destruct (readHeader_single _ _ _ Er Es) as (_ & _ & _ & _ & c & Hc & E & _).
  assert (List.length r = (List.length c + List.length (h_rest h))%nat) by (rewrite E at 1; apply app_length).
  destruct c as [|b c]; [congruence|]. cbn [List.length] in *. apply IH; lia.
Qed.
Lemma attrsLoop_not_oof fuel : forall r clb m, (List.length r < fuel)%nat ->
  attrsLoop fuel r clb m <> Ret (inr (MErr "out of fuel")).
Proof.
  induction fuel as [|fuel IH]; intros r clb m H; [lia|]. cbn [attrsLoop].
  destruct (readHeader r clb) as [[h|e]|] eqn:Er; cbn [obind].
  - destruct (h_single h) eqn:Es; [|discriminate].
    destruct (readHeader_single _ _ _ Er Es) as (_ & _ & _ & _ & c & Hc & E & _).
    assert (List.length r = (List.length c + List.length (h_rest h))%nat) by (rewrite E at 1; apply app_length).
    destruct c as [|b c]; [congruence|]. cbn [List.length] in *. apply IH; lia.
  - intro X. assert (e = MErr "out of fuel") as -> by congruence. revert Er. unfold readHeader.
    destruct (Nat.ltb 1 clb); [discriminate|]. destruct (findColon r) as [[n [|c0 rest]]|]; try discriminate.
    + destruct (negb _); [discriminate|]. destruct (negb _); [discriminate|].
      destruct (valueLoop rest v0) as [[[]|]|]; cbn [obind]; discriminate.
  - discriminate.
Qed.
Lemma readHeader_not_oof r clb : readHeader r clb <> Ret (inr (MErr "out of fuel")).
Proof.
  unfold readHeader. destruct (Nat.ltb 1 clb); [discriminate|].
  destruct (findColon r) as [[n [|c0 rest]]|]; try discriminate.
  destruct (negb _); [discriminate|]. destruct (negb _); [discriminate|].
  destruct (valueLoop rest v0) as [[[]|]|]; cbn [obind]; discriminate.
Qed.
Lemma sectionsLoop_not_oof fuel : forall wc mk r clb e c, (List.length r < fuel)%nat ->
  sectionsLoop fuel wc mk r clb e c <> Ret (inr (MErr "out of fuel")).
Proof.
  induction fuel as [|fuel IH]; intros wc mk r clb e c H; [lia|]. cbn [sectionsLoop].
  destruct (readHeader r clb) as [[h|er]|] eqn:Er; cbn [obind]; [|intro X; apply (readHeader_not_oof r clb); congruence|discriminate].
  destruct (h_single h) eqn:Es; cbn [negb]; [|discriminate].
  destruct (negb (bytes_eqb (h_name h) attrName)); [discriminate|].
  destruct (readHeader_single _ _ _ Er Es) as (_ & _ & _ & _ & ch & Hc & E & _).
  assert (L1 : List.length r = (List.length ch + List.length (h_rest h))%nat) by (rewrite E at 1; apply app_length).
  destruct ch as [|b ch]; [congruence|]. cbn [List.length] in L1.
  destruct (attrsLoop _ _ _ _) as [[[[e' r'] clb']|er]|] eqn:Ea; cbn [obind]; [| |discriminate].
  - destruct (attrsLoop_local _ _ _ _ _ _ _ Ea) as [_ (c2 & E2 & _)].
    assert (L2 : List.length (h_rest h) = (List.length c2 + List.length r')%nat) by (rewrite E2 at 1; apply app_length).
    destruct wc; [destruct (sget (h_value h) c); [discriminate|]|]; apply IH; lia.
  - intro X. eapply attrsLoop_not_oof; [|rewrite Ea; congruence]. lia.
Qed.
Theorem parseBytes_not_oof wc data : parseBytes wc data <> Ret (inr (MErr "out of fuel")).
Proof.
  unfold parseBytes. destruct (attrsLoop _ data _ _) as [[[[main r] clb]|e]|] eqn:Ea; cbn [obind]; [| |discriminate].
  - destruct (sectionsLoop _ _ _ _ _ _ _) as [[[en ch]|e]|] eqn:Es; cbn [obind]; try discriminate.
    intro X. eapply sectionsLoop_not_oof; [|rewrite Es; congruence]. lia.
  - intro X. eapply attrsLoop_not_oof; [|rewrite Ea; congruence]. lia.
Qed.
