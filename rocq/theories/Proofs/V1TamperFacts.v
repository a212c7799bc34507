(** Tamper evidence of the v1 scheme, from its soundness (V1SoundFacts.v). *)
From Coq Require Import String Lia.
From Verif.Model Require Import Bytes Env Manifest PkixName SchemeV1.
From Verif.Spec Require Import JarManifest JarSigned JarOriginal Nondet.
From Verif.Proofs Require Import BytesFacts ManifestFacts ManifestSections SectionFacts V1SoundFacts.

Lemma bytes_dec (a b : bytes) : {a = b} + {a <> b}.
Proof. apply (list_eq_dec Byte.byte_eq_dec). Qed.

Section Tamper.
  Variable E : env.
  Lemma chunk_in_raw data man nm ch b : parseBytes true data = Ret (inl man) -> sget nm (m_chunks man) = Some ch -> In b ch -> In b data.
  Proof.
    intros H Hc Hb. destruct (parse_sections _ _ H) as (_ & _ & _ & _ & (tail & Ed & _) & _). rewrite Ed.
    apply in_or_app. right. apply in_or_app. left. apply in_concat. exists ch. split; [|exact Hb].
    apply (mget_in bytes_eqb bytes_eqb_eq) in Hc. apply (in_map snd) in Hc. exact Hc.
  Qed.

  Variables (content : bytes -> option bytes) (mf sf : bytes) (man sm : manifest).
  Hypothesis Hpub : published E content mf sf man sm.

  (** a digest looked at and a published digest in the same section *)
  Lemma digests_meet entry suffix minSdk maxSdk ok data :
    digests_ok E entry suffix minSdk maxSdk ok -> all_digests E entry suffix data -> exists h, ok (e_hash E h data) h.
  Proof.
    intros [(algo & Hs) Hall] Hd. destruct (Hall algo Hs) as (h & v & digest & Hj & Hg & Hb & Hok).
    specialize (Hd algo h v Hj Hg). exists h. congruence.
  Qed.

  (** the section the APK's manifest has for a listed file is the published one *)
  Theorem binds_same apk man2 minSdk maxSdk path e : main_manifest apk man2 -> binds E sm man2 minSdk maxSdk ->
    sget path (m_entries sm) = Some e ->
    collide E (signer_hashed content mf man sm) (apk_hashed apk sm) \/
    exists at_, sget path (m_entries man2) = Some at_ /\ sget path (m_entries man) = Some at_.
  Proof using Hpub.
    intros Hm (_ & _ & Hb) He. assert (Hm' := Hm). destruct Hm' as (l1 & g & l2 & data2 & _ & _ & _ & _ & Hp2 & _).
    destruct (parse_sections _ _ Hp2) as (Hraw2 & _).
    assert (H1 := pub_man _ _ _ _ _ _ Hpub).
    destruct (pub_sections _ _ _ _ _ _ Hpub path e He) as (chunk1 & d1 & Hc1 & Hs1 & Hd1).
    destruct (parse_section_reads _ _ _ _ H1 Hc1) as (at1 & Ha1 & Hr1).
    destruct Hb as [(suffix & Hsuf & Hdig) | (_ & Hsec)].
    - destruct (digests_meet _ _ _ _ _ mf Hdig (pub_whole _ _ _ _ _ _ Hpub suffix Hsuf)) as (h & Hh). unfold of_bytes in Hh.
      destruct (bytes_dec mf (m_rawData man2)) as [Eq|Ne].
      + right. exists at1. rewrite Hraw2 in Eq. rewrite (parse_same _ _ _ _ H1 Hp2 Eq) in *. auto.
      + left. exists h, mf, (m_rawData man2). split; [right; now left|]. split; [|auto]. right. exists man2. auto.
    - destruct (Hsec path e He) as (chunk2 & d2 & Hc2 & Hs2 & Hd2).
      destruct (digests_meet _ _ _ _ _ d1 Hd2 Hd1) as (h & Hh). unfold of_bytes in Hh.
      destruct (bytes_dec d1 d2) as [<-|Ne].
      + right. destruct (parse_section_reads _ _ _ _ Hp2 Hc2) as (at2 & Ha2 & Hr2).
        destruct (section_bytes_reads sm chunk1 chunk2 d1 path path at1 at2 Hs1 Hs2) as [_ ->]; [|exact Hr1|exact Hr2|].
        * intros St X. apply (pub_lines _ _ _ _ _ _ Hpub St). eapply chunk_in_raw; eassumption.
        * eauto.
      + left. exists h, d1, d2. split; [right; right; eauto|]. split; [|auto]. right. exists man2. split; [exact Hm|]. right. eauto.
  Qed.

  (** and then the file has the published content *)
  Theorem file_same apk minSdk maxSdk path f at_ : sget path (z_map apk) = Some f ->
    sget path (m_entries man) = Some at_ -> digests_ok E at_ (s2b "-digest") minSdk maxSdk (of_file E f) ->
    (exists data, In (Some data) (zf_streams f) /\ content path = Some data) \/
    collide E (signer_hashed content mf man sm) (apk_hashed apk sm).
  Proof using Hpub.
    intros Hf Ha Hd. destruct (pub_files _ _ _ _ _ _ Hpub path at_ Ha) as (d & Hc & Hall).
    destruct (digests_meet _ _ _ _ _ d Hd Hall) as (h & _ & data & Hin & Hh).
    destruct (bytes_dec d data) as [->|Ne]; [left; eauto|]. right. exists h, d, data.
    split; [left; eauto|]. split; [left; eauto|auto].
  Qed.
End Tamper.
