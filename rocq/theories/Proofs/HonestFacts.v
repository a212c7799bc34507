(** Honest signers satisfy the signer predicates. *)
From Coq Require Import Lia.
From Verif.Model Require Import Bytes Env Result.
From Verif.Spec Require Import Encoding Algorithms Signer SignerV3 Digests Entries Verified Honest.
From Verif.Proofs Require Import BytesFacts UtilsFacts CollisionFacts RangeFacts CoveringFacts.

Lemma zlen_lps_in x xs : In x xs -> 4 + zlen x <= zlen (lps xs).
Proof.
  induction xs as [|y xs IH]; intro H; [destruct H|]. change (lps (y :: xs)) with (lp y ++ lps xs). rewrite zlen_app, lp_length.
  pose proof (zlen_nonneg (lps xs)). pose proof (zlen_nonneg y). destruct H as [->|H]; [lia|]. specialize (IH H). lia.
Qed.
Lemma fits_le x y : zlen x <= zlen y -> fits y -> fits x.
Proof. unfold fits. lia. Qed.
Lemma fits_items xs : fits (lps xs) -> Forall fits xs.
Proof. intro F. apply Forall_forall. intros x Hx. apply zlen_lps_in in Hx. unfold fits in *. lia. Qed.
Lemma has_kind_int32 a k : has_kind a k -> is_int32 a.
Proof.
  intros (m & H). cbn in H. unfold is_int32.
  repeat (destruct H as [H|H]; [inversion H; subst; lia|]). contradiction.
Qed.

(** the first of the strongest algorithms *)
Lemma strongest_exists (rs : list (Z * bytes)) : rs <> [] -> (forall a f, In (a, f) rs -> exists k, has_kind a k) ->
  exists a f, strongest rs a f /\ In (a, f) rs.
Proof.
  intros Ne H. induction rs as [|[a f] rs IH] using rev_ind; [contradiction|].
  destruct rs as [|r0 rs0].
  - destruct (H a f) as [k K]; [now left|]. exists a, f. split; [|now left]. exists [], [], k. split; [reflexivity|]. split; [assumption|]. split; intros ? ? ? [].
  - assert (Ne' : r0 :: rs0 <> []) by discriminate.
    destruct IH as (b & g & (bf & af & k & Q & K & Hb & Ha) & I); [assumption | intros x y Hx; apply (H x y); apply in_or_app; now left|].
    destruct (H a f) as [ka Ka]; [apply in_or_app; right; now left|].
    destruct (Z_lt_le_dec (strength k) (strength ka)) as [Lt|Le].
    + exists a, f. split; [|apply in_or_app; right; now left]. exists (r0 :: rs0), [], ka. split; [reflexivity|]. split; [assumption|]. split; [|intros ? ? ? []].
      intros x y k' Hx Kx. rewrite Q in Hx. apply in_app_or in Hx as [Hx|[Hx|Hx]].
      * specialize (Hb _ _ _ Hx Kx). lia.
      * inversion Hx; subst. rewrite (has_kind_fun _ _ _ Kx K). assumption.
      * specialize (Ha _ _ _ Hx Kx). lia.
    + exists b, g. split; [|apply in_or_app; now left]. exists bf, (af ++ [(a, f)]), k. split; [rewrite Q, <- app_assoc; reflexivity|]. split; [assumption|]. split; [assumption|].
      intros x y k' Hx Kx. apply in_app_or in Hx as [Hx|[Hx|[]]]; [eauto|]. inversion Hx; subst. now rewrite (has_kind_fun _ _ _ Kx Ka).
Qed.
(** last occurrence *)
Lemma last_occurrence (rs : list (Z * bytes)) a : In a (map fst rs) -> exists b f t, rs = b ++ (a, f) :: t /\ forall g, ~ In (a, g) t.
Proof.
  induction rs as [|[x f] rs IH]; [intros []|]. intro H. destruct (in_dec Z.eq_dec a (map fst rs)) as [I|N].
  - destruct (IH I) as (b & g & t & -> & X). exists ((x, f) :: b), g, t. auto.
  - destruct H as [H|H]; [|contradiction]. cbn in H. subst x. exists [], f, rs. split; [reflexivity|]. intros g Hg. apply N. change a with (fst (a, g)). now apply in_map.
Qed.

Section Honest.
  Variable E : env.
  Hypothesis HE : hash_sizes_ok E.
  Variable sections : list bytes.

  Lemma honest_signed_by data h : honest_over E sections data h ->
    fits (h_digest_field h) -> fits (h_signature_field h) -> fits (lps (h_certs h)) -> fits (h_pk h) ->
    exists algo digest k, signed_by E data (h_signature_field h) (h_pk h) (h_digest_field h) (lps (h_certs h)) (h_chain h) algo digest /\
      has_kind algo k /\ content_digest E k sections digest.
  Proof.
    intros (Fc & (main & others & Qc & Sp) & Pk & Ne & Hs & _) Fd Fs Fcs Fpk.
    set (rs := map (fun s : Z * bytes * bytes => (fst (fst s), lp (snd s))) (h_sigs h)).
    set (ds := map (fun s : Z * bytes * bytes => (fst (fst s), lp (snd (fst s)))) (h_sigs h)).
    assert (Qs : h_signature_field h = lps (map enc_rec rs)) by (unfold h_signature_field, rs; now rewrite map_map).
    assert (Qd : h_digest_field h = lps (map enc_rec ds)) by (unfold h_digest_field, ds; now rewrite map_map).
    assert (Ks : forall a f, In (a, f) rs -> exists k, has_kind a k).
    { intros a f Hf. unfold rs in Hf. apply in_map_iff in Hf as ([[a' d] s] & Q & I). inversion Q; subst. destruct (Hs _ _ _ I) as (_ & k & K & _). eauto. }
    assert (Al : map fst rs = map fst ds) by (unfold rs, ds; rewrite !map_map; reflexivity).
    assert (R1 : records_of (h_signature_field h) rs).
    { split; [assumption|]. apply Forall_forall. intros [a f] Hf. destruct (Ks _ _ Hf) as [k K]. split; [eapply has_kind_int32; exact K|]. split.
      - cbn [snd]. unfold rs in Hf. apply in_map_iff in Hf as (s & Q & _). inversion Q; subst. rewrite lp_length. pose proof (zlen_nonneg (snd s)). lia.
      - rewrite Qs in Fs. apply fits_items in Fs. rewrite Forall_forall in Fs. apply Fs. now apply in_map. }
    assert (R2 : records_of (h_digest_field h) ds).
    { split; [assumption|]. apply Forall_forall. intros [a f] Hf. assert (exists k, has_kind a k) as [k K].
      { assert (In a (map fst ds)) by (change a with (fst (a, f)); now apply in_map). rewrite <- Al in H. apply in_map_iff in H as ([a' g] & Q & I). cbn in Q. subst. eauto. }
      split; [eapply has_kind_int32; exact K|]. split.
      - cbn [snd]. unfold ds in Hf. apply in_map_iff in Hf as (s & Q & _). inversion Q; subst. rewrite lp_length. pose proof (zlen_nonneg (snd (fst s))). lia.
      - rewrite Qd in Fd. apply fits_items in Fd. rewrite Forall_forall in Fd. apply Fd. now apply in_map. }
    assert (V1 : forall a f, In (a, f) rs -> exists d s, f = lp s /\ fits s /\ In (a, d, s) (h_sigs h)).
    { intros a f Hf. rewrite Qs in Fs. apply fits_items in Fs. rewrite Forall_forall in Fs. assert (X : fits (enc_rec (a, f))) by (apply Fs; now apply in_map).
      unfold rs in Hf. apply in_map_iff in Hf as ([[a' d] s] & Q & I). inversion Q; subst. exists d, s. split; [reflexivity|]. split; [|assumption].
      unfold enc_rec, fits in X. cbn [fst snd] in X. rewrite zlen_app, lp_length in X. pose proof (zlen_nonneg (le32 a)). unfold fits. lia. }
    assert (V2 : forall a f, In (a, f) ds -> exists d s, f = lp d /\ fits d /\ In (a, d, s) (h_sigs h)).
    { intros a f Hf. rewrite Qd in Fd. apply fits_items in Fd. rewrite Forall_forall in Fd. assert (X : fits (enc_rec (a, f))) by (apply Fd; now apply in_map).
      unfold ds in Hf. apply in_map_iff in Hf as ([[a' d] s] & Q & I). inversion Q; subst. exists d, s. split; [reflexivity|]. split; [|assumption].
      unfold enc_rec, fits in X. cbn [fst snd] in X. rewrite zlen_app, lp_length in X. pose proof (zlen_nonneg (le32 a)). unfold fits. lia. }
    destruct (strongest_exists rs) as (algo & f & St & If); [unfold rs; intro Q; apply map_eq_nil in Q; contradiction | assumption|].
    destruct (V1 _ _ If) as (d0 & s & -> & Fits & I0).
    destruct (last_occurrence ds algo) as (b & g & t & Qds & Nt). { rewrite <- Al. change algo with (fst (algo, lp s)). now apply in_map. }
    assert (Ig : In (algo, g) ds) by (rewrite Qds; apply in_or_app; right; now left).
    destruct (V2 _ _ Ig) as (d & s' & -> & Fd' & I'). destruct (Hs _ _ _ I') as (_ & k & K & Cd).
    exists algo, d, k. split; [|auto]. exists (map fst rs), s, (h_key h), main, others.
    split.
    { exists rs, (lp s). split; [assumption|]. split; [reflexivity|]. split; [assumption|]. split; [exists []; rewrite app_nil_r; auto|].
      intros before a f after Q _. destruct (V1 a f) as (d' & s0 & -> & F0 & _); [rewrite Q; apply in_or_app; right; now left|]. exists s0, []. rewrite app_nil_r. auto. }
    split; [assumption|]. split; [now apply (Hs _ _ _ I0)|].
    split; [exists (h_certs h); split; [reflexivity|]; split; [now apply fits_items | assumption]|].
    split; [assumption|]. split; [assumption|].
    exists ds, b, (lp d), t. split; [assumption|]. split; [assumption|]. split; [assumption|]. split; [exists []; rewrite app_nil_r; auto|]. split; [assumption|].
    intros f If'. destruct (V2 algo f) as (d' & s0 & -> & F0 & _); [rewrite Qds; apply in_or_app; now left|]. exists d', []. rewrite app_nil_r. auto.
  Qed.

  Lemma fits_lp_l a b : fits (lp a ++ b) -> fits a.
  Proof. unfold fits. rewrite zlen_app, lp_length. pose proof (zlen_nonneg b). lia. Qed.
  Lemma fits_r a b : fits (a ++ b) -> fits b.
  Proof. unfold fits. rewrite zlen_app. pose proof (zlen_nonneg a). lia. Qed.
  Lemma fits_lp_end a : fits (lp a) -> fits a.
  Proof. unfold fits. rewrite lp_length. lia. Qed.
  Lemma lp_nil a : lp a = lp a ++ [].
  Proof. now rewrite app_nil_r. Qed.

  Lemma honest_attrs h data : honest_over E sections data h -> fits (h_attr_field h) -> attribute_list (h_attr_field h) (h_attrs h).
  Proof.
    intros (_ & _ & _ & _ & _ & Fa) F. split; [reflexivity|]. apply fits_items in F. rewrite Forall_forall in *. intros a Ha. split; [auto|]. apply F. now apply in_map.
  Qed.

  Lemma honest_v2_signer maxSdk present h : honest_over E sections (h_data2 h) h -> fits (h_signer2 h) ->
    Forall (v2_attribute_ok maxSdk present) (h_attrs h) ->
    exists algo digest k, v2_signer E maxSdk present (h_signer2 h) (h_chain h) algo digest /\ has_kind algo k /\ content_digest E k sections digest.
  Proof.
    intros H F Fa. pose proof (fits_lp_l _ _ F) as F1. pose proof (fits_r _ _ F) as F'. pose proof (fits_lp_l _ _ F') as F2. pose proof (fits_lp_end _ (fits_r _ _ F')) as F3.
    pose proof (fits_lp_l _ _ F1) as F4. pose proof (fits_r _ _ F1) as F1'. pose proof (fits_lp_l _ _ F1') as F5. pose proof (fits_lp_end _ (fits_r _ _ F1')) as F6.
    destruct (honest_signed_by _ _ H F4 F2 F5 F3) as (algo & digest & k & Sb & K & Cd). exists algo, digest, k. split; [|auto].
    exists (h_data2 h), (h_signature_field h), (h_pk h), [], (h_digest_field h), (lps (h_certs h)), (h_attr_field h), [], (h_attrs h).
    rewrite !app_nil_r. repeat (split; [first [assumption | reflexivity]|]). split; [eapply honest_attrs; eassumption | assumption].
  Qed.

  Lemma honest_v3_signer maxSdk rot h lo hi lin main others : honest_over E sections (h_data3 h lo hi) h -> fits (h_signer3 h lo hi) ->
    1 <= lo <= hi -> hi <= 2147483647 -> h_chain h = main :: others ->
    Forall (v3_attribute_ok E maxSdk rot main) (h_attrs h) -> rotation_lineage E (h_attrs h) lin ->
    exists algo digest k, v3_signer E maxSdk rot (h_signer3 h lo hi) (mkV3Info {| si_chain := h_chain h; si_algo := algo; si_digest := digest |} lo hi lo hi lin) /\
      has_kind algo k /\ content_digest E k sections digest.
  Proof.
    intros H F R R' Qc Fa Rl. unfold h_signer3 in F. pose proof (fits_lp_l _ _ F) as F1. pose proof (fits_r _ _ (fits_r _ _ (fits_r _ _ F))) as F'.
    pose proof (fits_lp_l _ _ F') as F2. pose proof (fits_lp_end _ (fits_r _ _ F')) as F3. unfold h_data3 in F1.
    pose proof (fits_lp_l _ _ F1) as F4. pose proof (fits_r _ _ F1) as F1'. pose proof (fits_lp_l _ _ F1') as F5. pose proof (fits_lp_end _ (fits_r _ _ (fits_r _ _ (fits_r _ _ F1')))) as F6.
    destruct (honest_signed_by _ _ H F4 F2 F5 F3) as (algo & digest & k & Sb & K & Cd). exists algo, digest, k. split; [|auto].
    assert (is_int32 lo) by (unfold is_int32; lia). assert (is_int32 hi) by (unfold is_int32; lia).
    exists (h_data3 h lo hi), (h_signature_field h), (h_pk h), [], (h_digest_field h), (lps (h_certs h)), (h_attr_field h), [], (h_attrs h), main, others.
    cbn [i3_min i3_max i3_signedMin i3_signedMax i3_signer i3_lineage si_chain si_algo si_digest].
    rewrite !app_nil_r. split; [reflexivity|]. split; [exact F1|]. split; [assumption|]. split; [assumption|]. split; [exact F2|]. split; [exact F3|].
    split; [reflexivity|]. split; [exact F4|]. split; [exact F5|]. split; [assumption|]. split; [assumption|]. split; [exact F6|]. split; [exact R|]. split; [reflexivity|].
    split; [exact Sb|]. split; [exact Qc|]. split; [eapply honest_attrs; eassumption|]. split; [exact Fa | exact Rl].
  Qed.

  Theorem honest_v2 maxSdk es hs : hs <> [] -> zlen hs <= 10 -> 24 <= maxSdk ->
    last_entry es id_v2 (lp (lps (map h_signer2 hs))) -> fits (lps (map h_signer2 hs)) ->
    Forall (fun h => honest_over E sections (h_data2 h) h /\ Forall (v2_attribute_ok maxSdk (present_in es)) (h_attrs h)) hs ->
    exists is, v2_verified E maxSdk es sections is /\ map si_chain is = map h_chain hs.
  Proof.
    intros Ne Le M L F Hs.
    assert (X : exists is, Forall2 (fun s i => v2_signer E maxSdk (present_in es) s (si_chain i) (si_algo i) (si_digest i)) (map h_signer2 hs) is /\
                 map si_chain is = map h_chain hs /\ forall i, In i is -> exists k, has_kind (si_algo i) k /\ content_digest E k sections (si_digest i)).
    { pose proof (fits_items _ F) as Fi. clear - Hs Fi HE. induction Hs as [|h hs [H Fa] Hs IH]; [exists []; split; [constructor | split; [reflexivity | intros ? []]]|].
      cbn [map] in Fi. inversion Fi; subst. destruct IH as (is & F2 & Qc & Hk); [assumption|].
      destruct (honest_v2_signer maxSdk (present_in es) h) as (algo & digest & k & V & K & C); try assumption.
      exists ({| si_chain := h_chain h; si_algo := algo; si_digest := digest |} :: is). cbn [map]. split; [constructor; [exact V | assumption]|].
      split; [cbn; now rewrite Qc|]. intros i [<-|I]; [|auto]. exists k. auto. }
    destruct X as (is & F2 & Qc & Hk). exists is. split; [|assumption]. split; [assumption|]. split.
    { intro Q. subst is. destruct hs; [contradiction | discriminate]. }
    exists (lp (lps (map h_signer2 hs))). split; [assumption|].
    assert (Dm : digests_match E sections is).
    { intros i k I K. destruct (Hk i I) as (k' & K' & C). now rewrite (has_kind_fun _ _ _ K K'). }
    split; [|assumption]. exists (map h_signer2 hs), []. rewrite app_nil_r. split; [reflexivity|]. split; [assumption|]. split; [now apply fits_items|]. split; [assumption|]. split.
    - intros i j k Ii Ij Ki Kj. eapply content_digest_fun; eauto.
    - assert (length is = length hs) by (rewrite <- (map_length si_chain is), Qc; apply map_length). unfold zlen in *. lia.
  Qed.

  (** v3: signers with their ranges and lineages *)
  Theorem honest_v3 minSdk maxSdk es (hs : list (honest * (Z * Z) * list lnode)) lin : hs <> [] -> 28 <= maxSdk ->
    last_entry es id_v3 (lp (lps (map (fun x => h_signer3 (fst (fst x)) (fst (snd (fst x))) (snd (snd (fst x)))) hs))) ->
    fits (lps (map (fun x => h_signer3 (fst (fst x)) (fst (snd (fst x))) (snd (snd (fst x)))) hs)) ->
    Forall (fun x => let h := fst (fst x) in let lo := fst (snd (fst x)) in let hi := snd (snd (fst x)) in
       honest_over E sections (h_data3 h lo hi) h /\ 1 <= lo <= hi /\ hi <= 2147483647 /\
       (forall main others, h_chain h = main :: others -> Forall (v3_attribute_ok E maxSdk 0 main) (h_attrs h)) /\ rotation_lineage E (h_attrs h) (snd x)) hs ->
    (forall is, map range3 is = map (fun x => snd (fst x)) hs -> map i3_lineage is = map snd hs -> v3_covering (Z.max minSdk 28) maxSdk is lin) ->
    exists is, v3_verified E minSdk maxSdk es sections is lin /\ map (fun i => si_chain (i3_signer i)) is = map (fun x => h_chain (fst (fst x))) hs /\
      map i3_lineage is = map snd hs.
  Proof.
    intros Ne M L F Hs Cov. set (enc := fun x : honest * (Z * Z) * list lnode => h_signer3 (fst (fst x)) (fst (snd (fst x))) (snd (snd (fst x)))) in *.
    assert (X : exists is, Forall2 (v3_signer E maxSdk 0) (map enc hs) is /\
                 map (fun i => si_chain (i3_signer i)) is = map (fun x => h_chain (fst (fst x))) hs /\ map range3 is = map (fun x => snd (fst x)) hs /\ map i3_lineage is = map snd hs /\
                 forall i, In i is -> exists k, has_kind (si_algo (i3_signer i)) k /\ content_digest E k sections (si_digest (i3_signer i))).
    { pose proof (fits_items _ F) as Fi. clear - Hs Fi HE. induction Hs as [|[[h [lo hi]] ln] hs (H & R1 & R2 & Fa & Rl) Hs IH]; [exists []; repeat split; try constructor; intros ? []|].
      cbn [map] in Fi. inversion Fi as [|? ? Fh Fi']; subst. destruct IH as (is & F2 & Qc & Qr & Ql & Hk); [assumption|]. cbn [fst snd] in *.
      pose proof H as (_ & (main & others & Qm & _) & _).
      destruct (honest_v3_signer maxSdk 0 h lo hi ln main others H Fh R1 R2 Qm (Fa _ _ Qm) Rl) as (algo & digest & k & V & K & C).
      eexists (_ :: is). cbn [map]. split; [constructor; [exact V | assumption]|]. cbn [i3_signer si_chain i3_lineage range3 fst snd]. 
      split; [now rewrite Qc|]. split; [rewrite Qr; reflexivity|]. split; [now rewrite Ql|]. intros i [<-|I]; [|auto]. exists k. auto. }
    destruct X as (is & F2 & Qc & Qr & Ql & Hk). exists is. split; [|auto]. split; [assumption|]. split.
    { intro Q. subst is. destruct hs; [contradiction | discriminate]. }
    eexists. split; [exact L|].
    assert (Dm : digests_match E sections (map i3_signer is)).
    { intros i k I K. apply in_map_iff in I as (j & <- & I). destruct (Hk j I) as (k' & K' & C). now rewrite (has_kind_fun _ _ _ K K'). }
    split; [|split; [assumption | auto]]. eexists _, []. rewrite app_nil_r. split; [reflexivity|]. split; [assumption|]. split; [now apply fits_items|]. split; [assumption|].
    intros i j k Ii Ij Ki Kj. eapply content_digest_fun; eauto.
  Qed.
End Honest.
