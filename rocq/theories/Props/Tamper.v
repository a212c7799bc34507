(** C66: tamper evidence of JAR signing. *)
From Coq Require Import String.
From Verif.Model Require Import Bytes Env Manifest PkixName SchemeV1.
From Verif.Spec Require Import JarManifest JarSigned JarOriginal Nondet.
From Verif.Proofs Require Import BytesFacts V1SoundFacts V1TamperFacts.
From Verif.Props Require Import SchemeV1.
From Verif.Examples Require Import Toy ToyApk ToyJar.

(** C66.  Suppose someone published an APK with manifest [mf] and signature file [sf], and [sf] is all that the
    certificate [victim] signed among the signature files of another APK.  If that APK is accepted by the v1 scheme and
    one of the reported chains is headed by [victim], then every regular file of it outside META-INF/ (other than
    AndroidManifest.xml) is a published file with its published content, and every file listed in [sf] is present -
    or two different byte strings, one hashed by the signer and one in the APK, have the same hash.  For all SDK ranges. *)
Theorem C66_v1_tamper_evident : forall E S apk hasSigningBlock minSdk maxSdk chains content mf sf man sm victim, sched_ok S ->
  verifySchemeV1 E S apk hasSigningBlock minSdk maxSdk = Ret (chains, None) ->
  published E content mf sf man sm ->
  only_signed E S apk minSdk maxSdk victim sf ->
  (exists c t, In (c :: t) chains /\ c_raw c = victim) ->
  (forall path f, covered_file apk path f ->
     (exists data, In (Some data) (zf_streams f) /\ content path = Some data) \/
     collide E (signer_hashed content mf man sm) (apk_hashed apk sm)) /\
  (forall name entry, (exists path f, covered_file apk path f) -> sget name (m_entries sm) = Some entry ->
     (exists g, sget name (z_map apk) = Some g) \/
     collide E (signer_hashed content mf man sm) (apk_hashed apk sm)).
Proof.
  intros E S apk hv minSdk maxSdk chains content mf sf man sm victim HS H Hpub Honly (c & t & Hin & Hvic).
  destruct (C28_v1_soundness E S apk hv minSdk maxSdk chains HS H) as (man2 & sigs & Hman & Hexist & _ & HF & Hall).
  (* a signature by the victim that lists the path *)
  assert (Hsig : forall path f, covered_file apk path f ->
            (exists e, sget path (m_entries sm) = Some e) /\ binds E sm man2 minSdk maxSdk).
  { intros path f Hc. destruct (Hall path f Hc) as (_ & _ & _ & Hs & _). destruct (Hs _ Hin) as (y & Hy & Hsame).
    apply in_map_iff in Hy as ([[p sm'] ch'] & Ey & Hy). cbn in Ey. subst ch'. apply filter_In in Hy as [Hy Hl].
    rewrite Forall_forall in HF. destruct (HF _ Hy) as (Hpair & Hver & Hb).
    destruct y as [|c' t']; [discriminate|]. unfold same_chain in Hsame. cbn [map] in Hsame. injection Hsame as Hc' _.
    assert (Hraw := Honly p sm' c' t' Hpair Hver ltac:(congruence)).
    destruct Hpair as (base & ext & block & sff & raw & data & _ & _ & _ & _ & _ & _ & _ & _ & _ & _ & Hparse & Hr & _).
    assert (data = sf) by congruence. subst data.
    assert (sm' = sm) by (pose proof (pub_sm _ _ _ _ _ _ Hpub); congruence). subst sm'.
    split; [|exact Hb]. unfold lists_file in Hl. cbn [fst snd] in Hl. destruct (sget path (m_entries sm)) as [e|]; [eauto|discriminate]. }
  split.
  - intros path f Hc. destruct (Hsig path f Hc) as ((e & He) & Hb).
    destruct (binds_same E content mf sf man sm Hpub apk man2 minSdk maxSdk path e Hman Hb He) as [C | (at_ & Ha2 & Ha1)]; [now right|].
    destruct (Hall path f Hc) as ((entry & Hen & Hd) & _). assert (entry = at_) by congruence. subst entry.
    destruct Hc as ((Hg & _) & _). exact (file_same E content mf sf man sm Hpub apk minSdk maxSdk path f at_ Hg Ha1 Hd).
  - intros name entry (path & f & Hc) Hn. destruct (Hsig path f Hc) as (_ & Hb).
    destruct (binds_same E content mf sf man sm Hpub apk man2 minSdk maxSdk name entry Hman Hb Hn) as [C | (at_ & Ha2 & _)]; [now right|].
    left. eapply Hexist. exact Ha2.
Qed.
Print Assumptions C66_v1_tamper_evident.

Definition toy_content (name : bytes) : option bytes :=
  if bytes_eqb name (s2b "a.txt") then Some a_txt else if bytes_eqb name (s2b "AndroidManifest.xml") then Some the_manifest_xml else None.
Lemma toy_published : published jar_env toy_content mf sf jar_man jar_sm.
Proof.
  assert (G : forall entry suffix data, forallb (fun '(algo, h) => match sget (algo ++ suffix) entry with
             | None => true | Some v => match e_base64 jar_env v with Some d => bytes_eqb d (e_hash jar_env h data) | None => false end end) jar_hashes = true ->
             all_digests jar_env entry suffix data).
  { intros entry suffix data Hb algo h v Hj Hg. rewrite forallb_forall in Hb. specialize (Hb _ Hj). cbv beta iota in Hb. rewrite Hg in Hb.
    destruct (e_base64 jar_env v); [|discriminate]. apply bytes_eqb_eq in Hb. congruence. }
  assert (Hcb : sget (s2b "created-by") (m_main jar_sm) = None) by (vm_compute; reflexivity).
  assert (Hst : ~ signtool jar_sm).
  { intros (v & a & b & Hv & _). congruence. }
  assert (E1 : map fst (m_entries jar_man) = [s2b "AndroidManifest.xml"; s2b "a.txt"]) by (vm_compute; reflexivity).
  assert (E2 : map fst (m_entries jar_sm) = [s2b "a.txt"]) by (vm_compute; reflexivity).
  assert (K : forall (m : list (bytes * attrs)) name entry, sget name m = Some entry -> In name (map fst m)).
  { intros m name entry He. apply (mget_in bytes_eqb bytes_eqb_eq) in He. apply (in_map fst) in He. exact He. }
  constructor.
  - vm_compute. reflexivity.
  - vm_compute. reflexivity.
  - intro X. contradiction.
  - intros name entry He. pose proof (K _ _ _ He) as Hin. rewrite E1 in Hin.
    destruct Hin as [<-|[<-|[]]].
    + exists the_manifest_xml. split; [vm_compute; reflexivity|]. apply G.
      match type of He with ?l = _ => assert (C : exists x, l = Some x /\ forallb (fun '(algo, h) => match sget (algo ++ s2b "-digest") x with
             | None => true | Some v => match e_base64 jar_env v with Some d => bytes_eqb d (e_hash jar_env h the_manifest_xml) | None => false end end) jar_hashes = true) end.
      { eexists. split; vm_compute; reflexivity. }
      destruct C as (x & Hx & C). assert (entry = x) as -> by congruence. exact C.
    + exists a_txt. split; [vm_compute; reflexivity|]. apply G.
      match type of He with ?l = _ => assert (C : exists x, l = Some x /\ forallb (fun '(algo, h) => match sget (algo ++ s2b "-digest") x with
             | None => true | Some v => match e_base64 jar_env v with Some d => bytes_eqb d (e_hash jar_env h a_txt) | None => false end end) jar_hashes = true) end.
      { eexists. split; vm_compute; reflexivity. }
      destruct C as (x & Hx & C). assert (entry = x) as -> by congruence. exact C.
  - intros suffix [[X _]|[_ ->]]; [contradiction|]. apply G. vm_compute. reflexivity.
  - intros name entry He. pose proof (K _ _ _ He) as Hin. rewrite E2 in Hin. destruct Hin as [<-|[]].
    exists (mf_section "a.txt" a_txt), (mf_section "a.txt" a_txt). split; [vm_compute; reflexivity|].
    split; [left; split; [reflexivity|now left]|]. apply G.
    match type of He with ?l = _ => assert (C : exists x, l = Some x /\ forallb (fun '(algo, h) => match sget (algo ++ s2b "-digest") x with
           | None => true | Some v => match e_base64 jar_env v with Some d => bytes_eqb d (e_hash jar_env h (mf_section "a.txt" a_txt)) | None => false end end) jar_hashes = true) end.
    { eexists. split; vm_compute; reflexivity. }
    destruct C as (x & Hx & C). assert (entry = x) as -> by congruence. exact C.
Qed.
(** The hypotheses hold of the published APK itself, and of one with another AndroidManifest.xml. *)
Example C66_nonvacuous : forall xml, In xml [the_manifest_xml; s2b "<evil/>"] ->
  let apk := jar mf sf (jsign "K"%byte sf) xml a_txt in
  sched_ok toy_sched /\ published jar_env toy_content mf sf jar_man jar_sm /\
  only_signed jar_env toy_sched apk 10 33 ["K"%byte] sf /\
  (exists chains, verifySchemeV1 jar_env toy_sched apk false 10 33 = Ret (chains, None) /\
     exists c t, In (c :: t) chains /\ c_raw c = ["K"%byte]) /\
  exists f, covered_file apk (s2b "a.txt") f.
Proof.
  intros xml Hxml apk. split; [exact toy_sched_ok|]. split; [exact toy_published|]. split; [|split].
  - intros p sm c t (base & ext & block & sff & raw & data & _ & _ & _ & _ & _ & _ & Hin & Hname & _ & Hst & _ & Hraw & _) _ _.
    rewrite Hraw. clear Hraw. cbn [apk jar z_ordered] in Hin.
    destruct Hin as [<-|[<-|[<-|[<-|[<-|[]]]]]]; cbn [jfile zf_name zf_streams] in *;
      try (destruct Hst as [Hst|[]]; injection Hst as <-; reflexivity);
      exfalso; apply (f_equal (@rev byte)) in Hname; rewrite rev_app_distr in Hname; vm_compute in Hname; discriminate.
  - destruct Hxml as [<-|[<-|[]]]; (eexists; split; [vm_compute; reflexivity|]); eexists _, _; (split; [left; reflexivity|reflexivity]).
  - eexists. split; [split; [vm_compute; reflexivity|reflexivity]|]. split; [discriminate|]. intros x H. discriminate.
Qed.
