(** What a manifest section says depends on its bytes only, and not on a trailing blank line. *)
From Coq Require Import String Lia.
From Verif.Model Require Import Bytes Env Manifest.
From Verif.Spec Require Import JarManifest JarSigned.
From Verif.Proofs Require Import BytesFacts ManifestFacts ManifestSections.

Lemma section_reads_fun nm nm' ch at_ at' : section_reads nm ch at_ -> section_reads nm' ch at' -> nm = nm' /\ at_ = at'.
Proof.
  intros (h & A & _ & _ & N & B) (h' & A' & _ & _ & N' & B'). rewrite A in A'. assert (h' = h) by congruence. subst h'.
  rewrite B in B'. split; congruence.
Qed.

Lemma parse_section_reads data man nm ch : parseBytes true data = Ret (inl man) -> sget nm (m_chunks man) = Some ch ->
  exists at_, sget nm (m_entries man) = Some at_ /\ section_reads nm ch at_.
Proof.
  unfold parseBytes. intros H Hc.
  destruct (attrsLoop _ data _ _) as [[[[main r] clb]|e]|] eqn:Ea; cbn [obind] in H; try discriminate.
  destruct (attrsLoop_local _ _ _ _ _ _ _ Ea) as [-> _].
  destruct (sectionsLoop _ _ _ _ _ _ _) as [[[entries chunks]|e]|] eqn:Es; cbn [obind] in H; try discriminate.
  assert (Em : man = mkManifest data main entries chunks (zlen data - zlen r)) by congruence. subst man. clear H.
  cbn [m_chunks m_entries] in *.
  destruct (sectionsLoop_sound _ _ [] [] _ _ eq_refl (NoDup_nil _) Es) as (secs & tail & Hr & He & Hch & Hn & Hse & Ht).
  cbn [app] in He, Hch.
  assert (Hk : map fst entries = map fst chunks) by (rewrite He, Hch, !map_map; reflexivity).
  apply (mget_in bytes_eqb bytes_eqb_eq) in Hc. rewrite Hch in Hc. apply in_map_iff in Hc as (s & E & Hin).
  exists (snd s). split.
  - apply (in_mget bytes_eqb bytes_eqb_eq); [rewrite Hk; exact Hn|]. rewrite He. apply in_map_iff. exists s. rewrite E. auto.
  - rewrite Forall_forall in Hse. destruct (Hse s Hin) as [X _]. rewrite E in X. exact X.
Qed.

Lemma parse_entry_chunk data man nm at_ : parseBytes true data = Ret (inl man) -> sget nm (m_entries man) = Some at_ ->
  exists ch, sget nm (m_chunks man) = Some ch /\ section_reads nm ch at_.
Proof.
  intros H Ha. destruct (parse_sections _ _ H) as (_ & _ & Hn & Hk & _).
  destruct (sget nm (m_chunks man)) as [ch|] eqn:Ec.
  - exists ch. split; [reflexivity|]. destruct (parse_section_reads _ _ _ _ H Ec) as (a & Hs & Hr). congruence.
  - exfalso. apply sget_none_in in Ec. apply Ec. rewrite <- Hk. apply (mget_in bytes_eqb bytes_eqb_eq) in Ha.
    apply (in_map fst) in Ha. exact Ha.
Qed.

Lemma parse_same data data' man man' : parseBytes true data = Ret (inl man) -> parseBytes true data' = Ret (inl man') ->
  data = data' -> man = man'.
Proof. intros A B ->. congruence. Qed.

Lemma valueLoop_nl r : forall s s' r', valueLoop r s = Ret (Some (s', r')) ->
  (r' = [] -> exists s'', valueLoop (r ++ [x0a]) s = Ret (Some (s'', [])) /\ vl_value s'' = vl_value s' /\ vl_cur s'' = vl_cur s' /\ (vl_clb s' <= vl_clb s'')%nat) /\
  (r' <> [] -> valueLoop (r ++ [x0a]) s = Ret (Some (s', r' ++ [x0a]))).
Proof.
  induction r as [|c r IH]; intros s s' r' H.
  - cbn [valueLoop] in H. assert (s' = s /\ r' = []) as [-> ->] by (split; congruence). split; [|congruence]. intros _.
    cbn [app valueLoop]. change (byte_eqb x0a x00) with false. change (byte_eqb x0a x0a) with true. cbv iota.
    destruct (vl_cr s); eexists; (split; [reflexivity|]); cbn [vl_value vl_cur vl_clb]; auto.
  - cbn [valueLoop app] in *.
    destruct (byte_eqb c x00); [discriminate|].
    destruct (byte_eqb c x0a). { destruct (vl_cr s); apply IH, H. }
    destruct (byte_eqb c x0d). { apply IH, H. }
    destruct (byte_eqb c x20 && Nat.eqb (vl_clb s) 1). { destruct (vl_ok s); [apply IH, H|discriminate]. }
    destruct (Nat.leb 1 (vl_clb s)); [|apply IH, H].
    assert (s' = s /\ r' = c :: r) as [-> ->] by (split; congruence). split; [congruence|]. intros _. reflexivity.
Qed.

Lemma valueLoop_ends r : forall s s', ~ In x0d r -> vl_cr s = false -> valueLoop (r ++ [x0a]) s = Ret (Some (s', [])) -> (1 <= vl_clb s')%nat.
Proof.
  induction r as [|c r IH]; intros s s' Hn Hcr H.
  - cbn [app valueLoop] in H. change (byte_eqb x0a x00) with false in H. change (byte_eqb x0a x0a) with true in H. cbv iota in H.
    rewrite Hcr in H. assert (s' = {| vl_value := vl_value s; vl_cur := vl_cur s; vl_junk := vl_junk s ++ [x0a]; vl_ok := vl_ok s; vl_cr := false; vl_clb := S (vl_clb s) |}) by congruence.
    subst s'. cbn. lia.
  - cbn [app valueLoop] in H. assert (Hr : ~ In x0d r) by (intro; apply Hn; now right).
    destruct (byte_eqb c x00); [discriminate|].
    destruct (byte_eqb c x0a). { rewrite Hcr in H. apply IH in H; [exact H|exact Hr|reflexivity]. }
    destruct (byte_eqb c x0d) eqn:Ed. { apply byte_eqb_eq in Ed. subst c. destruct Hn. now left. }
    destruct (byte_eqb c x20 && Nat.eqb (vl_clb s) 1). { destruct (vl_ok s); [apply IH in H; [exact H|exact Hr|exact Hcr]|discriminate]. }
    destruct (Nat.leb 1 (vl_clb s)); [discriminate|]. apply IH in H; [exact H|exact Hr|exact Hcr].
Qed.

Lemma findColon_nl r : findColon (r ++ [x0a]) = match findColon r with Some (p, q) => Some (p, q ++ [x0a]) | None => None end.
Proof.
  induction r as [|c r IH]; [reflexivity|]. cbn [findColon app]. destruct (byte_eqb c ":"%byte); [reflexivity|].
  rewrite IH. destruct (findColon r) as [[p q]|]; reflexivity.
Qed.

Lemma readHeader_nl r clb h : readHeader r clb = Ret (inl h) -> h_single h = true ->
  exists h', readHeader (r ++ [x0a]) clb = Ret (inl h') /\ h_single h' = true /\ h_name h' = h_name h /\ h_value h' = h_value h /\
    (h_rest h = [] -> h_rest h' = [] /\ (h_clb h <= h_clb h')%nat) /\ (h_rest h <> [] -> h_rest h' = h_rest h ++ [x0a] /\ h_clb h' = h_clb h).
Proof.
  unfold readHeader. intros H Hs. destruct (Nat.ltb 1 clb). { assert (h = mkHdr [] [] false r 0) by congruence. subst h. discriminate. }
  rewrite findColon_nl. destruct (findColon r) as [[name after]|].
  2: { cbn [valueLoop obind] in H. assert (h = mkHdr [] (vl_value v0 ++ vl_cur v0) (Nat.ltb 0 (vl_clb v0)) [] (vl_clb v0)) by congruence. subst h. discriminate. }
  destruct after as [|c rest]; [discriminate|]. cbn [app].
  destruct (negb (byte_eqb c x20)); [discriminate|]. destruct (negb (isValidName name)); [discriminate|].
  destruct (valueLoop rest v0) as [[[s r']|]|] eqn:Ev; cbn [obind] in H; try discriminate.
  assert (Eh : h = mkHdr (asciiLower name) (vl_value s ++ vl_cur s) (Nat.ltb 0 (vl_clb s)) r' (vl_clb s)) by congruence. subst h.
  cbn [h_single h_name h_value h_rest h_clb] in *. destruct (valueLoop_nl _ _ _ _ Ev) as [A B].
  destruct r' as [|b r'].
  - destruct (A eq_refl) as (s'' & E & V & C & L). rewrite E. cbn [obind]. eexists. split; [reflexivity|].
    cbn [h_single h_name h_value h_rest h_clb]. apply Nat.ltb_lt in Hs. rewrite V, C.
    split; [apply Nat.ltb_lt; lia|]. repeat split; auto; congruence.
  - rewrite (B ltac:(discriminate)). cbn [obind]. eexists. split; [reflexivity|].
    cbn [h_single h_name h_value h_rest h_clb]. repeat split; auto; congruence.
Qed.

Lemma attrsLoop_nil fuel clb m : attrsLoop (S fuel) [] clb m = Ret (inl (m, [], 0%nat)).
Proof.
  cbn [attrsLoop]. unfold readHeader. destruct (Nat.ltb 1 clb); reflexivity.
Qed.

Lemma findColon_parts r p q : findColon r = Some (p, q) -> r = p ++ ":"%byte :: q.
Proof. intros H. apply findColon_some in H. tauto. Qed.

Lemma attrsLoop_nl fuel : forall fuel' q clb m m' clb', ~ In x0d q -> (List.length (q ++ [x0a]) < fuel')%nat ->
  attrsLoop fuel (q ++ [x0a]) clb m = Ret (inl (m', [], clb')) ->
  attrsLoop fuel' ((q ++ [x0a]) ++ [x0a]) clb m = Ret (inl (m', [], 0%nat)).
Proof.
  induction fuel as [|fuel IH]; intros fuel' q clb m m' clb' Hn Hf H; [discriminate|]. cbn [attrsLoop] in H.
  destruct (readHeader (q ++ [x0a]) clb) as [[h|e]|] eqn:Er; cbn [obind] in H; try discriminate.
  destruct fuel' as [|fuel']; [lia|].
  destruct (h_single h) eqn:Es.
  - destruct (readHeader_nl _ _ _ Er Es) as (h' & Er' & Es' & En & Ev & Hz & Hnz).
    cbn [attrsLoop]. rewrite Er'. cbn [obind]. rewrite Es', En, Ev.
    destruct (readHeader_single _ _ _ Er Es) as (_ & _ & _ & _ & c1 & Hc1 & E1 & _).
    assert (Hl : (List.length (h_rest h) < List.length (q ++ [x0a]))%nat).
    { rewrite E1, app_length. destruct c1; [congruence|]. cbn [List.length]. lia. }
    destruct (h_rest h) as [|b t] eqn:Eh.
    + destruct (Hz eq_refl) as [-> _]. destruct fuel' as [|fuel'].
      { exfalso. rewrite app_length in Hf. cbn [List.length] in Hf. lia. }
      rewrite attrsLoop_nil. destruct fuel as [|fuel]; [discriminate|]. rewrite attrsLoop_nil in H. congruence.
    + destruct (Hnz ltac:(discriminate)) as [-> ->].
      destruct (exists_last (l := b :: t) ltac:(discriminate)) as (q' & z & Eq). rewrite Eq in *.
      assert (z = x0a /\ ~ In x0d q') as [-> Hq].
      { rewrite app_assoc in E1. apply app_inj_tail in E1 as [E1 <-]. split; [reflexivity|]. intro X. apply Hn. rewrite E1. apply in_or_app. now right. }
      apply IH with (clb' := clb'); [exact Hq|lia|exact H].
  - assert (m' = m /\ [] = h_rest h /\ clb' = h_clb h) as (-> & Hr & ->) by (repeat split; congruence).
    cbn [attrsLoop]. unfold readHeader in Er |- *. destruct (Nat.ltb 1 clb).
    { assert (h = mkHdr [] [] false (q ++ [x0a]) 0) by congruence. subst h. cbn in Hr. destruct q; discriminate. }
    rewrite findColon_nl. destruct (findColon (q ++ [x0a])) as [[name after]|] eqn:Ef; [|reflexivity].
    exfalso. apply findColon_parts in Ef. destruct after as [|c rest]; [discriminate|].
    destruct (negb (byte_eqb c x20)) eqn:Ec; [discriminate|]. destruct (negb (isValidName name)); [discriminate|].
    destruct (valueLoop rest v0) as [[[s r']|]|] eqn:Ev; cbn [obind] in Er; try discriminate.
    assert (Eh : h = mkHdr (asciiLower name) (vl_value s ++ vl_cur s) (Nat.ltb 0 (vl_clb s)) r' (vl_clb s)) by congruence. subst h.
    cbn [h_single h_rest] in *. subst r'.
    assert (exists q', rest = q' ++ [x0a] /\ ~ In x0d q') as (q' & -> & Hq).
    { destruct rest as [|b t] using rev_ind.
      - change (name ++ [":"%byte; c]) with (name ++ [":"%byte] ++ [c]) in Ef. rewrite app_assoc in Ef.
        apply app_inj_tail in Ef as [_ <-]. discriminate.
      - change (name ++ ":"%byte :: c :: t ++ [b]) with (name ++ (":"%byte :: c :: t) ++ [b]) in Ef. rewrite app_assoc in Ef.
        apply app_inj_tail in Ef as [-> <-]. exists t. split; [reflexivity|]. intro X. apply Hn. apply in_or_app. right. right. now right. }
    apply valueLoop_ends in Ev; [|exact Hq|reflexivity]. apply Nat.ltb_ge in Es. lia.
Qed.

Lemma section_reads_nl nm p at_ : ~ In x0d p -> section_reads nm (p ++ [x0a]) at_ -> section_reads nm (p ++ [x0a; x0a]) at_.
Proof.
  intros Hn (h & Er & Es & En & Ev & Ea). change [x0a; x0a] with ([x0a] ++ [x0a]). rewrite app_assoc.
  destruct (readHeader_nl _ _ _ Er Es) as (h' & Er' & Es' & En' & Ev' & Hz & Hnz).
  exists h'. split; [exact Er'|]. split; [exact Es'|]. split; [congruence|]. split; [congruence|].
  destruct (readHeader_single _ _ _ Er Es) as (_ & _ & _ & _ & c1 & Hc1 & E1 & _).
  destruct (h_rest h) as [|b t] eqn:Eh.
  - destruct (Hz eq_refl) as [-> _]. cbn [List.length] in *. rewrite attrsLoop_nil in *. exact Ea.
  - destruct (Hnz ltac:(discriminate)) as [-> ->].
    destruct (exists_last (l := b :: t) ltac:(discriminate)) as (q' & z & Eq). rewrite Eq in *.
    assert (z = x0a /\ ~ In x0d q') as [-> Hq].
    { rewrite app_assoc in E1. apply app_inj_tail in E1 as [E1 <-]. split; [reflexivity|]. intro X. apply Hn. rewrite E1. apply in_or_app. now right. }
    eapply attrsLoop_nl; [exact Hq| |exact Ea]. rewrite (app_length (q' ++ [x0a])). cbn [List.length]. lia.
Qed.

(** Sections with the same digested bytes say the same. *)
Lemma section_bytes_reads sm chunk chunk' data nm nm' at_ at' :
  section_bytes sm chunk data -> section_bytes sm chunk' data -> (signtool sm -> ~ In x0d chunk) ->
  section_reads nm chunk at_ -> section_reads nm' chunk' at' -> nm = nm' /\ at_ = at'.
Proof.
  intros [[E A] | (A & p & -> & E)] [[E' B] | (B & p' & -> & E')] Hcr R R'; subst data.
  - subst chunk'. eapply section_reads_fun; eassumption.
  - subst chunk. specialize (Hcr B). apply section_reads_nl in R; [|intro X; apply Hcr; apply in_or_app; now left].
    eapply section_reads_fun; eassumption.
  - subst chunk'. specialize (Hcr A). apply section_reads_nl in R'; [|intro X; apply Hcr; apply in_or_app; now left].
    eapply section_reads_fun; eassumption.
  - apply app_inj_tail in E' as [-> _]. eapply section_reads_fun; eassumption.
Qed.
