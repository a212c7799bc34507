(** What success of verifySchemeV1 means, in terms of the files of the APK *)
From Coq Require Import String.
From Coq Require Import Lia Permutation.
From Verif.Model Require Import Bytes Env ApiLevel GoStrings Manifest PkixName SchemeV1.
From Verif.Spec Require Import JarSigned Nondet.
From Verif.Proofs Require Import BytesFacts ManifestFacts GoStringsFacts V1DigestFacts V1SigFacts V1VerifyFacts V1MainFacts V1BindFacts V1FilesFacts.

Lemma requiredFiles_1 files path f : sget path files = Some f -> zf_isdir f = false -> path <> s2b "AndroidManifest.xml" ->
  (forall x, path <> s2b "META-INF/" ++ x) -> In path (requiredFiles files).
Proof.
  intros Hg Hd Hm Hx. unfold requiredFiles. apply in_or_app. left. apply in_map_iff. exists (path, f). split; [reflexivity|].
  apply filter_In. split; [apply (mget_in _ bytes_eqb_eq); exact Hg|]. cbn [fst snd]. rewrite Hd. cbn [negb andb].
  apply andb_true_iff. split; apply negb_true_iff; [apply bytes_eqb_neq; exact Hm|apply hasPrefix_false; exact Hx].
Qed.
Lemma requiredFiles_2 files :
  (forall p f, p = s2b "AndroidManifest.xml" \/ p = s2b "BundleConfig.pb" -> In (p, f) files -> zf_isdir f = true) ->
  In (s2b "AndroidManifest.xml") (requiredFiles files).
Proof.
  intros H. unfold requiredFiles. apply in_or_app. right.
  assert (Hex : existsb (fun p => negb (zf_isdir (snd p)) && (bytes_eqb (fst p) androidManifest || bytes_eqb (fst p) (s2b "BundleConfig.pb"))) files = false).
  { apply not_true_iff_false. intros He. apply existsb_exists in He as ([p f] & Hin & Hp). cbn [fst snd] in Hp.
    apply andb_true_iff in Hp as [Hd Hp]. apply negb_true_iff in Hd. apply orb_true_iff in Hp.
    rewrite (H p f) in Hd; [discriminate| |exact Hin]. destruct Hp as [Hp|Hp]; apply bytes_eqb_eq in Hp; [left|right]; exact Hp. }
  rewrite Hex. left. reflexivity.
Qed.

Section Sound.
  Variable E : env.

  Lemma verifyFileHash_iff f hash h : verifyFileHash E f hash h = None <-> of_file E f hash h.
  Proof.
    unfold verifyFileHash, of_file. destruct (zf_open_ok f); cbn [negb].
    - destruct (existsb _ (zf_streams f)) eqn:Ex.
      + apply existsb_exists in Ex as ([d|] & Hin & Hd); [|discriminate]. apply bytes_eqb_eq in Hd.
        split; [intros _; split; [reflexivity|]; exists d; auto|reflexivity].
      + split; [discriminate|]. intros (_ & d & Hin & ->). assert (existsb (fun s => match s with Some d0 => bytes_eqb (e_hash E h d0) (e_hash E h d) | None => false end) (zf_streams f) = true); [|congruence].
        apply existsb_exists. exists (Some d). split; [exact Hin|apply bytes_eqb_refl].
    - split; [discriminate|]. intros [H _]. discriminate.
  Qed.
  Lemma fileCheck_iff minSdk maxSdk files path entry f : sget path files = Some f ->
    fileCheck E minSdk maxSdk files path entry = Ret None <-> digests_ok E entry (s2b "-digest") minSdk maxSdk (of_file E f).
  Proof.
    intros Hf. unfold fileCheck. rewrite Hf. apply verifyManifestEntry_iff. intros hash h.
    rewrite <- verifyFileHash_iff. split; [congruence|intros ->; reflexivity].
  Qed.

  Lemma pair_nodup apk p sm : signature_pair E apk p sm -> NoDup (map fst (m_entries sm)).
  Proof.
    intros (base & ext & block & f & raw & data & _ & _ & _ & _ & _ & _ & _ & _ & _ & _ & Hp & _).
    apply parseBytes_facts in Hp as [_ H]. exact H.
  Qed.

  Definition sig_triple minSdk maxSdk S (q : bytes * v1sig) : p7 * manifest * list cert :=
    (sg_p7 (snd q), sg_sm (snd q), chainOf E minSdk maxSdk S (snd q)).

  Theorem v1_sound S apk hv minSdk maxSdk chains : sched_ok S ->
    verifySchemeV1 E S apk hv minSdk maxSdk = Ret (chains, None) ->
    exists p man sigs,
      newSchemeV1 E apk = Ret (Some p) /\ v1_manifest p = man /\
      v1_success E S p apk hv minSdk maxSdk chains /\
      main_manifest apk man /\
      sigs <> [] /\ zlen sigs <= zlen (v1_sigs p) /\ Forall (jar_signature E S apk man minSdk maxSdk) sigs /\
      forall path, In path (requiredFiles (z_map apk)) ->
        (exists entry, sget path (m_entries man) = Some entry /\ fileCheck E minSdk maxSdk (z_map apk) path entry = Ret None) /\
        filter (lists_file path) sigs <> [] /\
        same_chains chains (map snd (filter (lists_file path) sigs)).
  Proof.
    intros HS H. unfold verifySchemeV1 in H.
    destruct (newSchemeV1 E apk) as [[p|]|] eqn:En; cbn [obind] in H; [|discriminate|discriminate].
    destruct (newSchemeV1_spec E apk p En) as (Hman & Hnd & Hne & Hpairs).
    pose proof (verifyV1_sound E S p apk hv minSdk maxSdk chains HS Hnd H) as Hsucc.
    pose proof Hsucc as [Hgood Hval Hten Hex Hpaths Hch Hall].
    set (vl := filter (isValidSig E (v1_manifest p) minSdk maxSdk) (v1_sigs p)) in *.
    exists p, (v1_manifest p), (map (sig_triple minSdk maxSdk S) vl).
    split; [reflexivity|]. split; [reflexivity|]. split; [exact Hsucc|]. split; [exact Hman|].
    split; [intros Hn; apply Hval; destruct vl; [reflexivity|discriminate]|].
    split.
    { rewrite zlen_map. unfold zlen. unfold vl. clear. induction (v1_sigs p) as [|x t IH]; [apply Z.le_refl|].
      cbn [filter]. destruct (isValidSig _ _ _ _ x); cbn [List.length]; lia. }
    split.
    - apply Forall_forall. intros s Hs. apply in_map_iff in Hs as ([k sig] & <- & Hin). apply filter_In in Hin as [Hin Hv].
      rewrite Forall_forall in Hgood. destruct (Hgood _ Hin) as [(ch & Hver) Hst]. cbn [snd] in *.
      unfold sig_triple. cbn [snd]. split; [exact (Hpairs k sig Hin)|].
      assert (Hco : chainOf E minSdk maxSdk S sig = ch) by (unfold chainOf; rewrite Hver; reflexivity). rewrite Hco.
      split; [apply verifySignature_sound; exact Hver|].
      apply (validSf_binds E (v1_manifest p) minSdk maxSdk hv); [|exact Hst|exact Hv].
      apply (pair_nodup apk (sg_p7 sig)). exact (Hpairs k sig Hin).
    - intros path Hp. destruct (Hpaths path Hp) as [Hfile Hcf]. split; [exact Hfile|].
      assert (Heq : map snd (filter (lists_file path) (map (sig_triple minSdk maxSdk S) vl)) =
                    chainsFor (map (withChain E minSdk maxSdk S) vl) path).
      { unfold chainsFor. clear. induction vl as [|x t IH]; [reflexivity|]. cbn [map filter].
        unfold lists_file at 1, lists at 1, sig_triple at 1, withChain at 1. cbn [fst snd].
        destruct (sget path (m_entries (sg_sm (snd x)))); cbn [map]; rewrite IH; reflexivity. }
      split.
      + intros Hn. apply Hcf. rewrite <- Heq, Hn. reflexivity.
      + rewrite Heq. apply Hch. exact Hp.
  Qed.
End Sound.
