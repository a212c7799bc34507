(** verifyMainManifest and verify: success does not depend on iteration orders *)
From Coq Require Import String.
From Coq Require Import Lia Permutation.
From Verif.Model Require Import Bytes Env ApiLevel GoStrings Manifest PkixName SchemeV1.
From Verif.Spec Require Import JarSigned Nondet.
From Verif.Proofs Require Import BytesFacts ManifestFacts V1DigestFacts V1SigFacts V1VerifyFacts.

(** ** Equality of chains *)
Lemma chainEqual_iff a : forall b, chainEqual a b = true <-> same_chain a b.
Proof.
  unfold same_chain. induction a as [|x a IH]; intros [|y b]; cbn [chainEqual map]; try (split; congruence).
  unfold cert_equal. rewrite andb_true_iff, bytes_eqb_eq, IH. split; [intros [-> ->]; reflexivity|]. intros H. split; congruence.
Qed.
Lemma certChainsMatch_iff a b : certChainsMatch a b = true <-> same_chains a b.
Proof.
  unfold certChainsMatch, same_chains. rewrite !andb_true_iff, !forallb_forall, Z.eqb_eq. unfold zlen.
  setoid_rewrite existsb_exists. setoid_rewrite chainEqual_iff.
  split.
  - intros [[H1 H2] H3]. split; [lia|]. split; [intros x Hx; exact (H2 x Hx)|]. intros y Hy. exact (H3 y Hy).
  - intros (H1 & H2 & H3). split; [split|]; [lia| |]; assumption.
Qed.
Lemma same_chains_refl a : same_chains a a.
Proof. split; [reflexivity|]. split; intros x Hx; exists x; split; try assumption; reflexivity. Qed.
Lemma same_chains_sym a b : same_chains a b -> same_chains b a.
Proof.
  intros (H1 & H2 & H3). split; [congruence|]. split.
  - intros x Hx. destruct (H3 x Hx) as (y & Hy & He). exists y. split; [exact Hy|]. symmetry. exact He.
  - intros x Hx. destruct (H2 x Hx) as (y & Hy & He). exists y. split; [exact Hy|]. symmetry. exact He.
Qed.
Lemma same_chains_trans a b c : same_chains a b -> same_chains b c -> same_chains a c.
Proof.
  intros (H1 & H2 & H3) (G1 & G2 & G3). split; [congruence|]. split.
  - intros x Hx. destruct (H2 x Hx) as (y & Hy & He). destruct (G2 y Hy) as (z & Hz & Hf). exists z. split; [exact Hz|].
    unfold same_chain in *. congruence.
  - intros z Hz. destruct (G3 z Hz) as (y & Hy & He). destruct (H3 y Hy) as (x & Hx & Hf). exists x. split; [exact Hx|].
    unfold same_chain in *. congruence.
Qed.
Lemma same_chains_perm a b : Permutation a b -> same_chains a b.
Proof.
  intros H. split; [apply Permutation_length; exact H|]. split.
  - intros x Hx. exists x. split; [apply (Permutation_in _ H Hx)|reflexivity].
  - intros y Hy. exists y. split; [apply (Permutation_in _ (Permutation_sym H) Hy)|reflexivity].
Qed.

Lemma filter_perm {A} (f : A -> bool) l l' : Permutation l l' -> Permutation (filter f l) (filter f l').
Proof.
  induction 1 as [|x l l' H IH|x y l|l1 l2 l3 H1 IH1 H2 IH2]; cbn [filter].
  - constructor.
  - destruct (f x); [constructor|]; exact IH.
  - destruct (f x), (f y); try apply Permutation_refl. constructor.
  - exact (Permutation_trans IH1 IH2).
Qed.
Lemma existsb_perm {A} (f : A -> bool) l l' : Permutation l l' -> existsb f l = existsb f l'.
Proof.
  intros H. apply eq_true_iff_eq. rewrite !existsb_exists. split; intros (x & Hx & Hf); exists x; (split; [|exact Hf]).
  - exact (Permutation_in _ H Hx).
  - exact (Permutation_in _ (Permutation_sym H) Hx).
Qed.

Section Main.
  Variable E : env.
  Variables (man : manifest) (minSdk maxSdk : Z).

  Definition fileCheck (files : list (bytes * zfile)) (path : bytes) (entry : attrs) : outcome (option v1err) :=
    verifyManifestEntry E entry attrDigestSuffix minSdk maxSdk
      (fun hash h => match sget path files with None => Panic PNil | Some f => Ret (verifyFileHash E f hash h) end).
  Definition lists (path : bytes) (p : bytes * (v1sig * list cert)) : bool :=
    match sget path (m_entries (sg_sm (fst (snd p)))) with Some _ => true | None => false end.
  (** The chains of the signatures that list the file (in the stored order). *)
  Definition chainsFor (valid : list (bytes * (v1sig * list cert))) (path : bytes) : list (list cert) :=
    map (fun p => snd (snd p)) (filter (lists path) valid).
  Definition pathOk (valid : list (bytes * (v1sig * list cert))) (files : list (bytes * zfile)) (path : bytes) : Prop :=
    (exists entry, sget path (m_entries man) = Some entry /\ fileCheck files path entry = Ret None) /\ chainsFor valid path <> [].

  Section Sched.
    Variable S : sched.
    Hypothesis HS : sched_ok S.
    Variables (valid : list (bytes * (v1sig * list cert))) (files : list (bytes * zfile)).

    Lemma requiredLoop_set req : forall k ch r,
      requiredLoop E S man valid files minSdk maxSdk k req ch true = Ret (r, None) <->
      r = ch /\ Forall (fun path => pathOk valid files path /\ same_chains ch (chainsFor valid path)) req.
    Proof.
      induction req as [|path t IH]; intros k ch r; cbn [requiredLoop].
      - split; [intros H; split; [congruence|constructor]|]. intros [-> _]. reflexivity.
      - assert (HP : Permutation (map (fun p => snd (snd p)) (filter (lists path) (ord S _ 24 k valid))) (chainsFor valid path)).
        { apply Permutation_map, filter_perm, ord_perm, HS. }
        destruct (sget path (m_entries man)) as [entry|] eqn:Ee.
        2:{ split; [discriminate|]. intros [_ HF]. inversion HF as [|? ? [[(en & Hen & _) _] _]]; subst. congruence. }
        fold (fileCheck files path entry). destruct (fileCheck files path entry) as [[e|]|p] eqn:Ef; cbn [obind].
        1,3: split; [discriminate|]; intros [_ HF]; inversion HF as [|? ? [[(en & Hen & Hf) _] _]]; subst;
             rewrite Ee in Hen; assert (en = entry) by congruence; subst en; congruence.
        change (filter (fun p => match sget path (m_entries (sg_sm (fst (snd p)))) with Some _ => true | None => false end) (ord S _ 24 k valid))
          with (filter (lists path) (ord S _ 24 k valid)).
        set (cc := map (fun p => snd (snd p)) (filter (lists path) (ord S _ 24 k valid))) in *.
        assert (Hempty : cc = [] <-> chainsFor valid path = []).
        { split; intros Hn; rewrite Hn in HP; [apply Permutation_nil in HP; exact HP|].
          apply Permutation_sym, Permutation_nil in HP. exact HP. }
        assert (Hpok : pathOk valid files path <-> cc <> []).
        { unfold pathOk. rewrite <- Hempty. split; [tauto|]. intros H. split; [exists entry; auto|exact H]. }
        destruct cc as [|c0 ct] eqn:Ecc.
        { split; [discriminate|]. intros [_ HF]. inversion HF as [|? ? [Hp _]]; subst. apply Hpok in Hp. congruence. }
        rewrite <- Ecc in *. cbn [negb].
        assert (Hm : certChainsMatch ch cc = true <-> same_chains ch (chainsFor valid path)).
        { rewrite certChainsMatch_iff. split; intros H; (apply (same_chains_trans _ _ _ H)).
          - apply same_chains_perm. exact HP.
          - apply same_chains_perm, Permutation_sym. exact HP. }
        destruct (certChainsMatch ch cc); cbn [negb].
        + rewrite IH. split; intros [-> HF]; (split; [reflexivity|]).
          * constructor; [|exact HF]. split; [|apply Hm; reflexivity]. apply Hpok. rewrite Ecc. discriminate.
          * inversion HF; assumption.
        + split; [discriminate|]. intros [_ HF]. inversion HF as [|? ? [_ Hsc]]; subst. apply Hm in Hsc. discriminate.
    Qed.

    (** Success of the loop: each file passes and all files have the same chains; the reported chains are those. *)
    Lemma requiredLoop_iff req : forall k ch0 r,
      requiredLoop E S man valid files minSdk maxSdk k req ch0 false = Ret (r, None) ->
      Forall (pathOk valid files) req /\
      (forall p q, In p req -> In q req -> same_chains (chainsFor valid p) (chainsFor valid q)) /\
      (forall p, In p req -> same_chains r (chainsFor valid p)) /\ (req = [] -> r = ch0).
    Proof.
      destruct req as [|path t]; intros k ch0 r.
      - cbn [requiredLoop]. intros H. split; [constructor|]. split; [intros ? ? []|]. split; [intros ? []|]. congruence.
      - intros H. cbn [requiredLoop] in H.
        assert (HP : Permutation (map (fun p => snd (snd p)) (filter (lists path) (ord S _ 24 k valid))) (chainsFor valid path)).
        { apply Permutation_map, filter_perm, ord_perm, HS. }
        destruct (sget path (m_entries man)) as [entry|] eqn:Ee; [|discriminate].
        fold (fileCheck files path entry) in H. destruct (fileCheck files path entry) as [[e|]|p] eqn:Ef; cbn [obind] in H; [discriminate| |discriminate].
        change (filter (fun p => match sget path (m_entries (sg_sm (fst (snd p)))) with Some _ => true | None => false end) (ord S _ 24 k valid))
          with (filter (lists path) (ord S _ 24 k valid)) in H.
        set (cc := map (fun p => snd (snd p)) (filter (lists path) (ord S _ 24 k valid))) in *.
        destruct cc as [|c0 ct] eqn:Ecc; [discriminate|]. rewrite <- Ecc in *. cbn [negb] in H.
        apply requiredLoop_set in H as [-> HF].
        assert (Hpok : pathOk valid files path).
        { split; [exists entry; auto|]. intros Hn. rewrite Hn in HP. apply Permutation_sym, Permutation_nil in HP. congruence. }
        rewrite Forall_forall in HF.
        assert (Hall : forall p, In p (path :: t) -> same_chains cc (chainsFor valid p)).
        { intros p [<-|Hp]; [apply same_chains_perm; exact HP|apply HF; exact Hp]. }
        split; [constructor; [exact Hpok|apply Forall_forall; intros p Hp; apply HF; exact Hp]|].
        split; [|split; [exact Hall|discriminate]].
        intros p q Hp Hq. apply (same_chains_trans _ cc); [apply same_chains_sym|]; apply Hall; assumption.
    Qed.
    Lemma requiredLoop_if req k ch0 :
      Forall (pathOk valid files) req ->
      (forall p q, In p req -> In q req -> same_chains (chainsFor valid p) (chainsFor valid q)) ->
      exists r, requiredLoop E S man valid files minSdk maxSdk k req ch0 false = Ret (r, None).
    Proof.
      destruct req as [|path t]; intros HF Hsame; [eexists; reflexivity|].
      inversion HF as [|? ? [(entry & Ee & Ef) Hne] HFt]; subst.
      assert (HP : Permutation (map (fun p => snd (snd p)) (filter (lists path) (ord S _ 24 k valid))) (chainsFor valid path)).
      { apply Permutation_map, filter_perm, ord_perm, HS. }
      cbn [requiredLoop]. rewrite Ee. fold (fileCheck files path entry). rewrite Ef. cbn [obind].
      change (filter (fun p => match sget path (m_entries (sg_sm (fst (snd p)))) with Some _ => true | None => false end) (ord S _ 24 k valid))
          with (filter (lists path) (ord S _ 24 k valid)).
      set (cc := map (fun p => snd (snd p)) (filter (lists path) (ord S _ 24 k valid))) in *.
      destruct cc as [|c0 ct] eqn:Ecc; [apply Permutation_nil in HP; congruence|]. rewrite <- Ecc in *. cbn [negb].
      exists cc. apply requiredLoop_set. split; [reflexivity|]. apply Forall_forall. intros p Hp. split.
      - rewrite Forall_forall in HFt. apply HFt. exact Hp.
      - apply (same_chains_trans _ (chainsFor valid path)); [apply same_chains_perm; exact HP|].
        apply Hsame; [left; reflexivity|right; exact Hp].
    Qed.
  End Sched.

  Lemma chainsFor_perm valid valid' path : Permutation valid valid' -> Permutation (chainsFor valid path) (chainsFor valid' path).
  Proof. intros H. apply Permutation_map, filter_perm, H. Qed.
  Lemma pathOk_perm valid valid' files path : Permutation valid valid' -> pathOk valid files path -> pathOk valid' files path.
  Proof.
    intros H [H1 H2]. split; [exact H1|]. intros Hn. apply H2.
    pose proof (chainsFor_perm _ _ path H) as HP. rewrite Hn in HP. apply Permutation_sym, Permutation_nil in HP. exact HP.
  Qed.
  Lemma requiredFiles_perm files files' : Permutation files files' -> Permutation (requiredFiles files) (requiredFiles files').
  Proof.
    intros H. unfold requiredFiles. apply Permutation_app; [apply Permutation_map, filter_perm, H|].
    rewrite (existsb_perm _ _ _ H). apply Permutation_refl.
  Qed.
End Main.

Section Verify.
  Variable E : env.

  Definition entriesExist (man : manifest) (apk : zip) : Prop :=
    forall name, In name (map fst (m_entries man)) -> exists f, sget name (z_map apk) = Some f.

  (** What success of verify means, with all maps in their stored order. *)
  Record v1_success (S : sched) (p : v1scheme) (apk : zip) (hv : bool) (minSdk maxSdk : Z) (chains : list (list cert)) : Prop := {
    vs_good : Forall (good E (v1_manifest p) hv minSdk maxSdk S) (v1_sigs p);
    vs_valid : filter (isValidSig E (v1_manifest p) minSdk maxSdk) (v1_sigs p) <> [];
    vs_ten : zlen (v1_sigs p) <= 10;
    vs_exist : entriesExist (v1_manifest p) apk;
    vs_paths : forall path, In path (requiredFiles (z_map apk)) ->
      pathOk E (v1_manifest p) minSdk maxSdk
        (map (withChain E minSdk maxSdk S) (filter (isValidSig E (v1_manifest p) minSdk maxSdk) (v1_sigs p))) (z_map apk) path;
    vs_chains : forall path, In path (requiredFiles (z_map apk)) ->
      same_chains chains
        (chainsFor (map (withChain E minSdk maxSdk S) (filter (isValidSig E (v1_manifest p) minSdk maxSdk) (v1_sigs p))) path);
    vs_all : requiredFiles (z_map apk) = [] -> same_chains chains (map (fun q => chainOf E minSdk maxSdk S (snd q)) (v1_sigs p))
  }.

  Lemma entriesExist_iff man apk l : Permutation l (m_entries man) ->
    forallb (fun p => match sget (fst p) (z_map apk) with Some _ => true | None => false end) l = true <-> entriesExist man apk.
  Proof.
    intros HP. rewrite (forallb_perm _ _ _ HP), forallb_forall. unfold entriesExist. split.
    - intros H name Hn. apply in_map_iff in Hn as (q & <- & Hq). specialize (H q Hq). destruct (sget (fst q) (z_map apk)); [eauto|discriminate].
    - intros H q Hq. destruct (H (fst q) (in_map fst _ _ Hq)) as [f ->]. reflexivity.
  Qed.

  Lemma verifyV1_sound S p apk hv minSdk maxSdk chains : sched_ok S -> NoDup (map fst (v1_sigs p)) ->
    verifyV1 E S p apk hv minSdk maxSdk = Ret (chains, None) -> v1_success S p apk hv minSdk maxSdk chains.
  Proof.
    intros HS Hnd H. unfold verifyV1 in H.
    pose proof (ord_perm S HS _ 20%nat 0%nat (v1_sigs p)) as HP. set (l := ord S _ 20 0%nat (v1_sigs p)) in *.
    destruct (verifyLoop E S (v1_manifest p) hv minSdk maxSdk 0 l (mkLoop [] 0 [])) as [[st err]|] eqn:El; cbn [obind] in H; [|discriminate].
    destruct err as [e|]; [discriminate|].
    destruct (vp_valid st) as [|v0 vt] eqn:Ev; [discriminate|]. rewrite <- Ev in H.
    destruct (Nat.eqb (vp_errors st) 0) eqn:Ee; cbn [negb] in H; [|discriminate]. apply Nat.eqb_eq in Ee.
    unfold maxApkSigners in H. destruct (Z.ltb_spec 10 (zlen (vp_chain st))) as [Hten|Hten]; [discriminate|].
    assert (Hndl : NoDup (map fst (vp_valid (mkLoop [] 0 [])) ++ map fst l)).
    { cbn [vp_valid map app]. apply (Permutation_NoDup (Permutation_sym (Permutation_map fst HP)) Hnd). }
    destruct (proj1 (verifyLoop_spec E (v1_manifest p) hv minSdk maxSdk S HS l 0 (mkLoop [] 0 []) st Hndl) (conj El Ee)) as (_ & HF & Hst).
    cbn [vp_valid vp_chain app] in Hst. subst st. cbn [vp_valid vp_chain vp_errors] in *.
    set (isv := isValidSig E (v1_manifest p) minSdk maxSdk) in *.
    set (wc := withChain E minSdk maxSdk S) in *.
    assert (HPv : Permutation (map wc (filter isv l)) (map wc (filter isv (v1_sigs p)))) by (apply Permutation_map, filter_perm, HP).
    unfold verifyMainManifest in H. destruct (forallb _ _) eqn:Eex; cbn [negb] in H; [|discriminate].
    apply (entriesExist_iff (v1_manifest p) apk) in Eex; [|apply ord_perm, HS].
    pose proof (requiredFiles_perm _ _ (ord_perm S HS _ 23%nat 0%nat (z_map apk))) as HPr.
    set (req := requiredFiles (ord S _ 23 0%nat (z_map apk))) in *.
    destruct (requiredLoop_iff E (v1_manifest p) minSdk maxSdk S HS _ _ req _ _ _ H) as (Hok & Hsame & Hr & Hnil).
    constructor.
    - apply (Permutation_Forall HP HF).
    - intros Hn. assert (filter isv l = []) as Hn' by (apply Permutation_nil, Permutation_sym; rewrite <- Hn; apply filter_perm, HP).
      fold isv in Hn'. rewrite Hn' in Ev. discriminate.
    - rewrite zlen_map in Hten. unfold zlen in *. rewrite <- (Permutation_length HP). exact Hten.
    - exact Eex.
    - intros path Hp. apply (Permutation_in _ (Permutation_sym HPr)) in Hp. rewrite Forall_forall in Hok.
      apply (pathOk_perm _ _ _ _ _ _ _ _ HPv). apply Hok. exact Hp.
    - intros path Hp. apply (Permutation_in _ (Permutation_sym HPr)) in Hp.
      apply (same_chains_trans _ _ _ (Hr path Hp)). apply same_chains_perm, chainsFor_perm, HPv.
    - intros Hn. rewrite Hn in HPr. apply Permutation_sym, Permutation_nil in HPr. rewrite (Hnil HPr).
      apply same_chains_perm, Permutation_map, HP.
  Qed.

  Lemma verifyV1_complete S p apk hv minSdk maxSdk chains : sched_ok S -> NoDup (map fst (v1_sigs p)) ->
    v1_success S p apk hv minSdk maxSdk chains ->
    exists chains', verifyV1 E S p apk hv minSdk maxSdk = Ret (chains', None).
  Proof.
    intros HS Hnd [Hgood Hval Hten Hex Hpaths Hch Hall]. unfold verifyV1.
    pose proof (ord_perm S HS _ 20%nat 0%nat (v1_sigs p)) as HP. set (l := ord S _ 20 0%nat (v1_sigs p)) in *.
    set (isv := isValidSig E (v1_manifest p) minSdk maxSdk) in *.
    set (wc := withChain E minSdk maxSdk S) in *.
    assert (Hndl : NoDup (map fst (vp_valid (mkLoop [] 0 [])) ++ map fst l)).
    { cbn [vp_valid map app]. apply (Permutation_NoDup (Permutation_sym (Permutation_map fst HP)) Hnd). }
    set (st := mkLoop ([] ++ map wc (filter isv l)) 0 ([] ++ map (fun q => chainOf E minSdk maxSdk S (snd q)) l)).
    destruct (proj2 (verifyLoop_spec E (v1_manifest p) hv minSdk maxSdk S HS l 0 (mkLoop [] 0 []) st Hndl)) as [-> _].
    { split; [reflexivity|]. split; [apply (Permutation_Forall (Permutation_sym HP) Hgood)|reflexivity]. }
    cbn [obind]. unfold st. cbn [vp_valid vp_errors vp_chain app].
    assert (HPv : Permutation (map wc (filter isv l)) (map wc (filter isv (v1_sigs p)))) by (apply Permutation_map, filter_perm, HP).
    destruct (map wc (filter isv l)) as [|v0 vt] eqn:Ev.
    { exfalso. apply Hval. apply Permutation_nil in HPv. destruct (filter isv (v1_sigs p)); [reflexivity|discriminate]. }
    rewrite <- Ev in *. cbn [Nat.eqb negb]. unfold maxApkSigners. rewrite zlen_map.
    destruct (Z.ltb_spec 10 (zlen l)) as [Ht|Ht].
    { unfold zlen in *. rewrite (Permutation_length HP) in Ht. lia. }
    unfold verifyMainManifest.
    rewrite (proj2 (entriesExist_iff _ apk _ (ord_perm S HS _ 22%nat 0%nat (m_entries (v1_manifest p)))) Hex). cbn [negb].
    pose proof (requiredFiles_perm _ _ (ord_perm S HS _ 23%nat 0%nat (z_map apk))) as HPr.
    apply requiredLoop_if; [exact HS| |].
    - apply Forall_forall. intros path Hp. apply (pathOk_perm _ _ _ _ _ _ _ _ (Permutation_sym HPv)). apply Hpaths.
      apply (Permutation_in _ HPr Hp).
    - intros a b Ha Hb.
      apply (same_chains_trans _ (chainsFor (map wc (filter isv (v1_sigs p))) a)); [apply same_chains_perm, chainsFor_perm, HPv|].
      apply (same_chains_trans _ (chainsFor (map wc (filter isv (v1_sigs p))) b));
        [|apply same_chains_perm, chainsFor_perm, Permutation_sym, HPv].
      apply (same_chains_trans _ chains); [apply same_chains_sym|]; apply Hch; apply (Permutation_in _ HPr); assumption.
  Qed.

  (** ** Two schedules *)
  Lemma pkix_same S S' n : same_sort S S' -> pkixCanonical E S n = pkixCanonical E S' n.
  Proof.
    intros H. unfold pkixCanonical. f_equal. f_equal. apply map_ext. intros r. unfold canonRdn. rewrite H. reflexivity.
  Qed.
  Lemma find_ext {A} (f g : A -> bool) l : (forall x, f x = g x) -> find f l = find g l.
  Proof. intros H. induction l as [|x t IH]; [reflexivity|]. cbn [find]. rewrite H, IH. reflexivity. Qed.
  Lemma verifySigner_same S S' sig info maxSdk : same_sort S S' -> verifySigner E S sig info maxSdk = verifySigner E S' sig info maxSdk.
  Proof.
    intros H. unfold verifySigner. destruct (ps_issuer info) as [i|]; [|reflexivity]. cbv zeta.
    rewrite (pkix_same S S' i H).
    rewrite (find_ext _ (fun crt => (ps_serial info =? c_serial crt) && bytes_eqb (pkixCanonical E S' i) (pkixCanonical E S' (c_issuer crt)))).
    - reflexivity.
    - intros c. rewrite (pkix_same S S' _ H). reflexivity.
  Qed.
  Lemma signersLoop_same S S' sig maxSdk l : same_sort S S' -> forall f, signersLoop E S sig l maxSdk f = signersLoop E S' sig l maxSdk f.
  Proof.
    intros H. induction l as [|i t IH]; intros f; [reflexivity|]. cbn [signersLoop]. rewrite (verifySigner_same S S' _ _ _ H).
    destruct (verifySigner E S' sig i maxSdk) as [[c e|e|c]|]; cbn [obind]; auto.
  Qed.
  Lemma issuerLoop_same S S' certs : same_sort S S' -> forall fuel ic ch, issuerLoop E S fuel certs ic ch = issuerLoop E S' fuel certs ic ch.
  Proof.
    intros H. induction fuel as [|n IH]; intros ic ch; [reflexivity|]. cbn [issuerLoop].
    rewrite (find_ext _ (fun crt => bytes_eqb ic (pkixCanonical E S' (c_subject crt)))) by (intros c; rewrite (pkix_same S S' _ H); reflexivity).
    destruct (find _ certs) as [y|]; [|reflexivity]. rewrite !(pkix_same S S' _ H), IH. reflexivity.
  Qed.
  Lemma verifySignature_same S S' sig minSdk maxSdk : same_sort S S' ->
    SchemeV1.verifySignature E S sig minSdk maxSdk = SchemeV1.verifySignature E S' sig minSdk maxSdk.
  Proof.
    intros H. unfold SchemeV1.verifySignature. destruct (p7_signers (sg_p7 sig)) as [|s0 st]; [reflexivity|]. cbv zeta.
    rewrite (signersLoop_same S S' _ _ _ H). destruct (signersLoop E S' _ _ _ _) as [[[c e]|[c|]]|]; cbn [obind]; try reflexivity.
    unfold buildChain. rewrite !(pkix_same S S' _ H), (issuerLoop_same S S' _ H). reflexivity.
  Qed.

  Lemma v1_success_sched S S' p apk hv minSdk maxSdk chains : same_sort S S' ->
    v1_success S p apk hv minSdk maxSdk chains -> v1_success S' p apk hv minSdk maxSdk chains.
  Proof.
    intros HS [Hgood Hval Hten Hex Hpaths Hch Hall].
    assert (Hco : forall sig, chainOf E minSdk maxSdk S sig = chainOf E minSdk maxSdk S' sig).
    { intros sig. unfold chainOf. rewrite (verifySignature_same S S' _ _ _ HS). reflexivity. }
    assert (Hwc : forall l, map (withChain E minSdk maxSdk S) l = map (withChain E minSdk maxSdk S') l).
    { intros l. apply map_ext. intros q. unfold withChain. rewrite Hco. reflexivity. }
    constructor; try assumption.
    - rewrite Forall_forall in *. intros q Hq. destruct (Hgood q Hq) as [(ch & Hv) Hs]. split; [|exact Hs].
      exists ch. unfold verified in *. rewrite <- (verifySignature_same S S' _ _ _ HS). exact Hv.
    - intros path Hp. rewrite <- Hwc. apply Hpaths. exact Hp.
    - intros path Hp. rewrite <- Hwc. apply Hch. exact Hp.
    - intros Hn. rewrite <- (map_ext (fun q => chainOf E minSdk maxSdk S (snd q)) (fun q => chainOf E minSdk maxSdk S' (snd q)))
        by (intros q; apply Hco). apply Hall. exact Hn.
  Qed.

  Lemma v1_success_chains S p apk hv minSdk maxSdk ch ch' :
    v1_success S p apk hv minSdk maxSdk ch -> v1_success S p apk hv minSdk maxSdk ch' -> same_chains ch ch'.
  Proof.
    intros H H'. destruct (requiredFiles (z_map apk)) as [|path t] eqn:Er.
    - apply (same_chains_trans _ _ _ (vs_all _ _ _ _ _ _ _ H Er)). apply same_chains_sym. exact (vs_all _ _ _ _ _ _ _ H' Er).
    - assert (Hp : In path (requiredFiles (z_map apk))) by (rewrite Er; left; reflexivity).
      apply (same_chains_trans _ _ _ (vs_chains _ _ _ _ _ _ _ H path Hp)). apply same_chains_sym. exact (vs_chains _ _ _ _ _ _ _ H' path Hp).
  Qed.
End Verify.
