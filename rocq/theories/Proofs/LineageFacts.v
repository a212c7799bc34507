(** Lemmas about proof-of-rotation lineages (Model/SchemeV3.v) *)
From Coq Require Import String.
From Coq Require Import Lia.
From Verif.Model Require Import Bytes ApiLevel Env Utils SigBlock Result Signer SchemeV3.
From Verif.Spec Require Import Encoding Algorithms Signer SignerV3.
From Verif.Proofs Require Import BytesFacts UtilsFacts SignerFacts.

Definition last_of (p : option lnode) : option (cert * Z) := option_map (fun n => (ln_cert n, ln_algo n)) p.

Lemma hist_in (c : cert) (hist : list cert) :
  existsb (fun h => cert_equal h c) hist = true <-> In (c_raw c) (map c_raw hist).
Proof.
  rewrite existsb_exists, in_map_iff. unfold cert_equal. split; intros (x & A & B).
  - exists x. apply bytes_eqb_eq in B. auto.
  - exists x. split; [assumption|]. now apply bytes_eqb_eq.
Qed.

Lemma lineageNode_iff E prev nb hist n :
  lineageNode E nb (last_of prev) hist = Ret (Some n) <->
  node_of E prev nb n /\ ~ In (c_raw (ln_cert n)) (map c_raw hist).
Proof.
  split.
  - unfold lineageNode. intro H.
    destruct (getLengthPrefixedSlice nb) as [[sd nb1]|] eqn:G1; [|discriminate].
    destruct (read_i32 nb1) as [[fl nb2]|] eqn:G2; [|discriminate].
    destruct (read_i32 nb2) as [[al nb3]|] eqn:G3; [|discriminate].
    destruct (getLengthPrefixedSlice nb3) as [[sg nb4]|] eqn:G4; [|discriminate].
    apply obind_ret in H as (v & Hv & H). destruct v; cbn [negb] in H; [|discriminate].
    destruct (getLengthPrefixedSlice sd) as [[enc sd1]|] eqn:G5; [|discriminate].
    destruct (read_i32 sd1) as [[pal sd2]|] eqn:G6; [|discriminate].
    apply getLP_inv in G1 as [-> F1]. apply read_i32_inv in G2 as [-> R2]. apply read_i32_inv in G3 as [-> R3].
    apply getLP_inv in G4 as [-> F4]. apply getLP_inv in G5 as [Esd F5]. apply read_i32_inv in G6 as [-> R6].
    destruct (match last_of prev with None => false | Some (_, la) => negb (la =? pal) end) eqn:Hp; [discriminate|].
    destruct (e_cert_std E enc) as [c|] eqn:Hc; [|discriminate].
    destruct (existsb (fun h => cert_equal h c) hist) eqn:Hh; [discriminate|].
    inversion H; subst n; clear H. split.
    + exists sd, nb4, enc, sd2. cbn. repeat split; try assumption; try apply R2; try apply R3; try apply R6.
      destruct prev as [p|]; [|exact I]. cbn in Hv, Hp. apply verifySignature_true in Hv.
      apply negb_false_iff, Z.eqb_eq in Hp. auto.
    + cbn. intro X. apply hist_in in X. congruence.
  - intros [(sd & junk & enc & junk' & -> & F1 & R2 & R3 & F4 & Esd & F5 & R6 & Hc & Hv) Nh].
    unfold lineageNode. rewrite getLP_enc by assumption. unfold le32.
    rewrite read_i32_enc_id by apply R2. rewrite read_i32_enc_id by apply R3. rewrite getLP_enc by assumption.
    assert (Hvv : match last_of prev with None => Ret true
        | Some (lc, la) => verifySignature E (c_key lc) la sd (ln_signature n) end = Ret true).
    { destruct prev as [p|]; [|reflexivity]. cbn. now apply verifySignature_true. }
    rewrite Hvv. cbn [obind negb]. rewrite Esd, getLP_enc by assumption. unfold le32. rewrite read_i32_enc_id by apply R6.
    assert (Hp : match last_of prev with None => false | Some (_, la) => negb (la =? ln_parent_algo n) end = false).
    { destruct prev as [p|]; [|reflexivity]. cbn. destruct Hv as [_ ->]. now rewrite Z.eqb_refl. }
    rewrite Hp, Hc. destruct (existsb (fun h => cert_equal h (ln_cert n)) hist) eqn:Hh.
    { exfalso. apply Nh. now apply hist_in. }
    now destruct n.
Qed.

Definition raws (ns : list lnode) : list bytes := map (fun n => c_raw (ln_cert n)) ns.

Lemma lineageLoop_iff E ok items : forall prev hist res out,
  lineageLoop E items ok (last_of prev) hist res = Ret (Some out) <->
  ok = true /\ exists ns, out = res ++ ns /\ nodes_of E prev items ns /\ NoDup (raws ns) /\
                 (forall x, In x (raws ns) -> ~ In x (map c_raw hist)).
Proof.
  induction items as [|nb items IH]; intros prev hist res out; cbn [lineageLoop].
  - destruct ok.
    + split.
      * intro H. inversion H; subst. split; [reflexivity|]. exists []. rewrite app_nil_r. repeat split; try constructor. intros ? [].
      * intros (_ & ns & -> & N & _). inversion N; subst. now rewrite app_nil_r.
    + split; [discriminate | intros [? _]; discriminate].
  - split.
    + intro H. apply obind_ret in H as (o & Hn & H). destruct o as [n|]; [|discriminate].
      apply lineageNode_iff in Hn as [Hn Nh]. change (Some (ln_cert n, ln_algo n)) with (last_of (Some n)) in H.
      apply IH in H as (-> & ns & -> & N & D & Q). split; [reflexivity|]. exists (n :: ns). rewrite <- app_assoc. cbn [app raws map].
      split; [reflexivity|]. split; [now constructor|]. split.
      * constructor; [|assumption]. intro X. apply Q in X. apply X. rewrite map_app, in_app_iff. right. now left.
      * intros x [<-|X]; [assumption|]. apply Q in X. rewrite map_app, in_app_iff in X. tauto.
    + intros (-> & ns & -> & N & D & Q). inversion N as [|? ? n ? ns' Hn Hns]; subst.
      assert (HN : lineageNode E nb (last_of prev) hist = Ret (Some n)).
      { apply lineageNode_iff. split; [assumption|]. apply Q. now left. }
      rewrite HN. cbn [obind]. change (Some (ln_cert n, ln_algo n)) with (last_of (Some n)). apply IH. split; [reflexivity|].
      exists ns'. rewrite <- app_assoc. split; [reflexivity|]. split; [assumption|]. cbn in D. inversion D as [|? ? Nn Dn]; subst. split; [assumption|].
      intros x X. rewrite map_app, in_app_iff. cbn. intros [Y|[Y|[]]]; [|subst; contradiction].
      eapply Q; [right; exact X | exact Y].
Qed.

Theorem readLineage_iff E v ns :
  readSigningCertificateLineage E v = Ret (Some ns) <-> (v = [] /\ ns = []) \/ lineage_of E v ns.
Proof.
  unfold readSigningCertificateLineage. destruct v as [|b v].
  - split; [intro H; inversion H; auto|]. intros [[_ ->]|(items & X & _)]; [reflexivity|].
    exfalso. unfold le32 in X. cbn [le_enc] in X. discriminate.
  - set (w := b :: v). split.
    + intro H. right. destruct (read_i32 w) as [[ver rest]|] eqn:G; [|discriminate].
      apply read_i32_inv in G as [Ew Rv]. unfold lineageVersionFirst in H.
      destruct (Z.eqb_spec ver 1) as [->|]; cbn [negb] in H; [|discriminate].
      destruct (lpItems rest) as [items ok] eqn:L. change None with (last_of None) in H.
      apply lineageLoop_iff in H as (-> & ns' & -> & N & D & _). apply lpItems_inv in L as [-> F].
      exists items. repeat split; assumption.
    + intros [[X _]|(items & X & F & N & D)]; [discriminate|]. rewrite X. unfold le32. rewrite read_i32_enc_id by (unfold min_int32, max_int32; lia).
      cbn [Z.eqb negb lineageVersionFirst Pos.eqb]. rewrite lpItems_enc by assumption. change None with (last_of None).
      apply lineageLoop_iff. split; [reflexivity|]. exists ns. repeat split; auto.
Qed.

Lemma lineage_of_det E v a b : lineage_of E v a -> lineage_of E v b -> a = b.
Proof.
  intros A B. assert (HA : readSigningCertificateLineage E v = Ret (Some a)) by (apply readLineage_iff; auto).
  assert (HB : readSigningCertificateLineage E v = Ret (Some b)) by (apply readLineage_iff; auto). congruence.
Qed.

(** sub-lineage *)
Lemma Some_inj {A} (a b : A) : Some a = Some b -> a = b.
Proof. congruence. Qed.
Lemma subLineageLen_pos ns c : forall k, subLineageLen ns c = Some k -> 1 <= k <= zlen ns.
Proof.
  induction ns as [|n ns IH]; intros k H; cbn in H; [discriminate|]. rewrite zlen_cons. pose proof (zlen_nonneg ns).
  destruct (cert_equal (ln_cert n) c); [inversion H; lia|]. destruct (subLineageLen ns c) as [j|]; [|discriminate].
  specialize (IH j eq_refl). inversion H. lia.
Qed.
Lemma subLineage_full ns c : NoDup (raws ns) -> ns <> [] ->
  (subLineageLen ns c = Some (zlen ns) <-> exists l n, ns = l ++ [n] /\ c_raw (ln_cert n) = c_raw c).
Proof.
  induction ns as [|n ns IH]; intros D Ne; [contradiction|]. inversion D as [|? ? Nn Dn]; subst. rewrite zlen_cons.
  cbn [subLineageLen]. unfold cert_equal. destruct (bytes_eqb (c_raw (ln_cert n)) (c_raw c)) eqn:B.
  - apply bytes_eqb_eq in B. split.
    + intro H. assert (zlen ns = 0) by (apply Some_inj in H; lia). destruct ns; [|rewrite zlen_cons in *; pose proof (zlen_nonneg ns); lia].
      exists [], n. auto.
    + intros ([|x l] & m & Q & X); cbn [app] in Q; inversion Q; subst; [reflexivity|].
      exfalso. apply Nn. rewrite B, <- X. apply in_map_iff. exists m. split; [reflexivity|]. apply in_or_app. right. now left.
  - destruct ns as [|n2 ns].
    + cbn. split; [discriminate|]. intros ([|x l] & m & Q & X); cbn [app] in Q; inversion Q; subst; [|destruct l; discriminate].
      apply bytes_eqb_neq in B. contradiction.
    + specialize (IH Dn ltac:(discriminate)). set (ns2 := n2 :: ns) in *. split.
      * intro H. destruct (subLineageLen ns2 c) as [k|] eqn:S2; [|discriminate]. assert (k = zlen ns2) by (apply Some_inj in H; lia). subst k.
        destruct (proj1 IH eq_refl) as (l & m & -> & X). exists (n :: l), m. auto.
      * intros ([|x l] & m & Q & X); [destruct ns; discriminate|]. cbn [app] in Q. inversion Q as [[Q1 Q2]].
        assert (R : exists l n0, ns2 = l ++ [n0] /\ c_raw (ln_cert n0) = c_raw c) by (exists l, m; auto).
        apply IH in R. rewrite R. f_equal. lia.
Qed.
