(** Digest selection and checking: getDigestsToVerify / verifyManifestEntry of Model/SchemeV1.v *)
From Coq Require Import String.
From Coq Require Import Lia.
From Verif.Model Require Import Bytes Env ApiLevel GoStrings Manifest PkixName SchemeV1.
From Verif.Spec Require Import JarSigned.
From Verif.Proofs Require Import BytesFacts ManifestFacts.

(** ** splitByte *)
Lemma splitByte_nosep s sep : ~ In sep s -> splitByte s sep = [s].
Proof.
  induction s as [|c t IH]; intros H; [reflexivity|]. cbn [splitByte].
  rewrite byte_eqb_neq by (intros ->; apply H; left; reflexivity).
  rewrite IH by (intros Hi; apply H; right; exact Hi). reflexivity.
Qed.
Lemma splitByte_nonempty s sep : splitByte s sep <> [].
Proof.
  destruct s as [|c t]; cbn [splitByte]; [discriminate|].
  destruct (byte_eqb c sep); [discriminate|]. destruct (splitByte t sep); discriminate.
Qed.
Lemma splitByte_app a b sep : splitByte (a ++ sep :: b) sep = splitByte a sep ++ splitByte b sep.
Proof.
  induction a as [|c t IH].
  - cbn [app splitByte]. rewrite byte_eqb_refl. reflexivity.
  - cbn [app splitByte]. destruct (byte_eqb c sep) eqn:E; [rewrite IH; reflexivity|].
    rewrite IH. destruct (splitByte t sep) eqn:E2; [destruct (splitByte_nonempty t sep E2)|reflexivity].
Qed.
Lemma split_first s (sep : byte) : ~ In sep s \/ exists a b, s = a ++ sep :: b /\ ~ In sep a.
Proof.
  induction s as [|c t IH]; [left; exact (fun x => x)|].
  destruct (byte_eqb c sep) eqn:E.
  - apply byte_eqb_eq in E as ->. right. exists [], t. split; [reflexivity|exact (fun x => x)].
  - assert (c <> sep) by (intros ->; rewrite byte_eqb_refl in E; discriminate).
    destruct IH as [H1|(a & b & -> & Ha)].
    + left. intros [Hi|Hi]; [congruence|exact (H1 Hi)].
    + right. exists (c :: a), b. split; [reflexivity|]. intros [Hi|Hi]; [congruence|exact (Ha Hi)].
Qed.
(** [tok] is one of the [sep]-separated items of [s]. *)
Definition item_of (sep : byte) (s tok : bytes) : Prop :=
  exists l r, s = l ++ tok ++ r /\ ~ In sep tok /\
    (l = [] \/ exists l', l = l' ++ [sep]) /\ (r = [] \/ exists r', r = sep :: r').
Lemma in_splitByte_1 sep tok : forall n s, (List.length s <= n)%nat -> In tok (splitByte s sep) -> item_of sep s tok.
Proof.
  induction n as [|n IH]; intros s Hn Hin.
  - destruct s; [|cbn in Hn; lia]. destruct Hin as [<-|[]]. exists [], []. repeat split; auto.
  - destruct (split_first s sep) as [Hno|(a & b & -> & Ha)].
    + rewrite (splitByte_nosep _ _ Hno) in Hin. destruct Hin as [<-|[]].
      exists [], []. rewrite app_nil_r. repeat split; auto.
    + rewrite splitByte_app, (splitByte_nosep _ _ Ha) in Hin. destruct Hin as [<-|Hin].
      * exists [], (sep :: b). repeat split; eauto.
      * assert (Hlen : (List.length b <= n)%nat) by (rewrite app_length in Hn; cbn [List.length] in Hn; lia).
        destruct (IH b Hlen Hin) as (l & r & -> & Hno & Hl & Hr).
        exists (a ++ sep :: l), r. split; [rewrite <- app_assoc; reflexivity|]. split; [exact Hno|]. split; [|exact Hr].
        right. destruct Hl as [->|(l' & ->)]; [exists a; reflexivity|].
        exists (a ++ sep :: l'). rewrite <- app_assoc. reflexivity.
Qed.
Lemma in_splitByte sep s tok : In tok (splitByte s sep) <-> item_of sep s tok.
Proof.
  split; [apply (in_splitByte_1 sep tok (List.length s)); lia|].
  intros (l & r & -> & Hno & Hl & Hr).
  assert (Htail : In tok (splitByte (tok ++ r) sep)).
  { destruct Hr as [->|(r' & ->)]; [rewrite app_nil_r, splitByte_nosep by exact Hno; left; reflexivity|].
    rewrite splitByte_app, splitByte_nosep by exact Hno. left. reflexivity. }
  destruct Hl as [->|(l' & ->)]; [exact Htail|].
  rewrite <- app_assoc. cbn [app]. rewrite splitByte_app. apply in_or_app. right. exact Htail.
Qed.

(** ** digestHasher, mhas, mstr *)
Lemma digestHasher_iff algo h : digestHasher algo = Some h <-> jar_hash algo h.
Proof.
  unfold digestHasher, jar_hash, jar_hashes. split.
  - intros H.
    destruct (bytes_eqb algo (s2b "sha-512")) eqn:E1; [apply bytes_eqb_eq in E1 as ->; left; congruence|].
    destruct (bytes_eqb algo (s2b "sha-384")) eqn:E2; [apply bytes_eqb_eq in E2 as ->; right; left; congruence|].
    destruct (bytes_eqb algo (s2b "sha-256")) eqn:E3; [apply bytes_eqb_eq in E3 as ->; right; right; left; congruence|].
    destruct (bytes_eqb algo (s2b "sha1")) eqn:E4; [apply bytes_eqb_eq in E4 as ->; right; right; right; left; congruence|].
    discriminate.
  - intros [H|[H|[H|[H|[]]]]]; apply pair_equal_spec in H as [<- <-]; reflexivity.
Qed.
Lemma mhas_true k m : mhas k m = true <-> exists v, sget k m = Some v.
Proof. unfold mhas. destruct (sget k m); split; intros H; [eauto|reflexivity|discriminate|destruct H; discriminate]. Qed.
Lemma mhas_false k m : mhas k m = false <-> sget k m = None.
Proof. unfold mhas. destruct (sget k m); split; congruence. Qed.
Lemma mstr_some k m v : sget k m = Some v -> mstr k m = v.
Proof. unfold mstr. intros ->. reflexivity. Qed.

(** ** getDigestsToVerify *)
Lemma strongest_find entry suffix algo :
  find (fun a => mhas (a ++ suffix) entry) digestAlgorithms = Some algo <-> strongest_digest entry suffix algo.
Proof.
  unfold strongest_digest, has_digest. change digestAlgorithms with (map fst jar_hashes).
  generalize jar_hashes. intros l. induction l as [|[a h] t IH].
  - split; [discriminate|]. intros ([|] & h & l2 & H & _); discriminate.
  - cbn [map fst find]. destruct (mhas (a ++ suffix) entry) eqn:E.
    + split.
      * intros H. assert (a = algo) by congruence. subst a. exists [], h, t. split; [reflexivity|]. split; [apply mhas_true; exact E|].
        intros ? ? [].
      * intros ([|[a1 h1] l1] & h' & l2 & H & Hd & Hno).
        -- assert ((a, h) = (algo, h')) as Hp by (cbn [app] in H; congruence). apply pair_equal_spec in Hp as [-> _]. reflexivity.
        -- assert ((a, h) = (a1, h1)) as Hp by (cbn [app] in H; congruence). apply pair_equal_spec in Hp as [-> ->].
           exfalso. apply (Hno a1 h1); [left; reflexivity|]. apply mhas_true. exact E.
    + rewrite IH. split.
      * intros (l1 & h' & l2 & -> & Hd & Hno). exists ((a, h) :: l1), h', l2. split; [reflexivity|]. split; [exact Hd|].
        intros a' h'' [Hi|Hi]; [|exact (Hno _ _ Hi)]. apply pair_equal_spec in Hi as [<- _]. rewrite <- mhas_true. rewrite E. discriminate.
      * intros ([|[a1 h1] l1] & h' & l2 & H & Hd & Hno).
        -- assert ((a, h) = (algo, h')) as Hp by (cbn [app] in H; congruence). apply pair_equal_spec in Hp as [-> _].
           exfalso. apply mhas_true in Hd. rewrite Hd in E. discriminate.
        -- cbn [app] in H. exists l1, h', l2. split; [congruence|]. split; [exact Hd|].
           intros a' h'' Hi. apply (Hno a' h''). right. exact Hi.
Qed.

Section Digests.
  Variable E : env.

  Lemma getDigests_iff entry suffix minSdk maxSdk algo :
    In algo (getDigestsToVerify E entry suffix minSdk maxSdk) <-> selected E entry suffix minSdk maxSdk algo.
  Proof.
    unfold getDigestsToVerify, selected. rewrite in_app_iff.
    assert (HA : In algo (if minSdk <? 18 then
       let algs0 := e_to_lower E (mstr (s2b "digest-algorithms") entry) in
       let algs := match algs0 with [] => s2b "sha sha1" | _ => algs0 end in
       filter (fun algo => ((9 <=? minSdk) || (negb (bytes_eqb algo (s2b "sha-384")) && negb (bytes_eqb algo (s2b "sha-512"))))
                           && mhas (algo ++ suffix) entry)
              (splitByte algs x20)
       else []) <-> minSdk < 18 /\ listed E entry algo /\ has_digest entry suffix algo /\
          (9 <= minSdk \/ algo <> s2b "sha-384" /\ algo <> s2b "sha-512")).
    { destruct (Z.ltb_spec minSdk 18) as [Hlt|Hge]; [|split; [intros []|lia]].
      cbv zeta. rewrite filter_In, in_splitByte, andb_true_iff, orb_true_iff, andb_true_iff, !negb_true_iff, Z.leb_le, !bytes_eqb_neq, mhas_true.
      unfold listed, token, has_digest, mstr, item_of.
      destruct (e_to_lower E _) eqn:El; cbv zeta; tauto. }
    rewrite HA. apply or_iff_compat_l.
    destruct (Z.leb_spec 18 maxSdk) as [Hle|Hgt]; [|split; [intros []|lia]].
    rewrite <- strongest_find.
    destruct (find _ digestAlgorithms) as [a|]; split.
    - intros [->|[]]. split; [exact Hle|reflexivity].
    - intros [_ H]. left. congruence.
    - intros [].
    - intros [_ H]. discriminate.
  Qed.

  Section Check.
    Variables (verify : bytes -> hash_id -> outcome (option v1err)) (entry : attrs) (suffix : bytes).
    Variable ok : bytes -> hash_id -> Prop.
    Hypothesis verify_ok : forall hash h, verify hash h = Ret None <-> ok hash h.

    Lemma checkDigests_iff algos : (forall a, In a algos -> has_digest entry suffix a) ->
      checkDigests E entry suffix algos verify = Ret None <->
      forall a, In a algos -> exists h v digest, jar_hash a h /\ sget (a ++ suffix) entry = Some v /\ e_base64 E v = Some digest /\ ok digest h.
    Proof.
      induction algos as [|a t IH]; intros Hhas.
      - split; [intros _ a []|reflexivity].
      - cbn [checkDigests]. destruct (Hhas a (or_introl eq_refl)) as [v Hv].
        rewrite (mstr_some _ _ _ Hv).
        assert (IH' := IH (fun a' Hi => Hhas a' (or_intror Hi))).
        split.
        + intros H. destruct (e_base64 E v) as [d|] eqn:Eb; [|discriminate].
          destruct (digestHasher a) as [h|] eqn:Eh; [|discriminate].
          destruct (verify d h) as [[e|]|] eqn:Ev; cbn [obind] in H; [discriminate| |discriminate].
          intros a' [<-|Hi].
          * exists h, v, d. apply digestHasher_iff in Eh. apply verify_ok in Ev. auto.
          * apply IH'; [exact H|exact Hi].
        + intros H. destruct (H a (or_introl eq_refl)) as (h & v' & d & Hh & Hv' & Hb & Hok).
          rewrite Hv in Hv'. assert (v' = v) as -> by congruence.
          rewrite Hb. apply digestHasher_iff in Hh as ->. apply verify_ok in Hok as ->. cbn [obind].
          apply IH'. intros a' Hi. exact (H a' (or_intror Hi)).
    Qed.

    Lemma selected_has minSdk maxSdk a : selected E entry suffix minSdk maxSdk a -> has_digest entry suffix a.
    Proof. intros [(_ & _ & H & _)|(_ & l1 & h & l2 & _ & H & _)]; exact H. Qed.

    Lemma verifyManifestEntry_iff minSdk maxSdk :
      verifyManifestEntry E entry suffix minSdk maxSdk verify = Ret None <-> digests_ok E entry suffix minSdk maxSdk ok.
    Proof.
      unfold verifyManifestEntry, digests_ok.
      destruct (getDigestsToVerify E entry suffix minSdk maxSdk) as [|a0 t] eqn:Eg.
      - split; [discriminate|]. intros [(a & Ha) _]. apply getDigests_iff in Ha. rewrite Eg in Ha. destruct Ha.
      - assert (Hin : forall a, In a (a0 :: t) <-> selected E entry suffix minSdk maxSdk a)
          by (intros a; rewrite <- Eg; apply getDigests_iff).
        rewrite checkDigests_iff by (intros a Ha; apply (selected_has minSdk maxSdk), Hin, Ha).
        split.
        + intros H. split; [exists a0; apply Hin; left; reflexivity|]. intros a Ha. apply H, Hin, Ha.
        + intros [_ H] a Ha. apply H, Hin, Ha.
    Qed.

    (** The only results when the callback never returns errNoKnownHashes. *)
    Lemma checkDigests_unknown algos : (forall a, In a algos -> has_digest entry suffix a) ->
      (forall hash h, verify hash h <> Ret (Some ErrNoKnownHashes)) ->
      checkDigests E entry suffix algos verify = Ret (Some ErrNoKnownHashes) ->
      exists a, In a algos /\ forall h, ~ jar_hash a h.
    Proof.
      induction algos as [|a t IH]; intros Hhas Hv H; [discriminate|]. cbn [checkDigests] in H.
      destruct (e_base64 E _) as [d|]; [|discriminate].
      destruct (digestHasher a) as [h|] eqn:Eh.
      - destruct (verify d h) as [[e|]|] eqn:Ev; cbn [obind] in H; [|..].
        + exfalso. apply (Hv d h). congruence.
        + destruct (IH (fun a' Hi => Hhas a' (or_intror Hi)) Hv H) as (a' & Hi & Hno). exists a'. split; [right; exact Hi|exact Hno].
        + discriminate.
      - exists a. split; [left; reflexivity|]. intros h Hh. apply digestHasher_iff in Hh. congruence.
    Qed.
  End Check.
End Digests.
