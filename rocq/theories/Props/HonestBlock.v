(** C81: an APK whose v2 or v3 block is written by honest signers with DER certificates verifies, with no parser left abstract. *)
From Coq Require Import String Lia.
From Verif.Model Require Import Bytes Env Asn1 Pkcs7 X509 Result Verify.
From Verif.Spec Require Import Ber Asn1 Asn1Value Pkcs7 X509 Encoding Algorithms ApkLayout Nondet Digests Entries Signer SignerV3 Verified Calls Honest HonestDer HonestBlock.
From Verif.Proofs Require Import BytesFacts DerFacts HonestFacts X509Keys X509Honest UtilsFacts.
From Verif.Examples Require Import Toy ToyApk ToyPkcs7 ToyX509 DerToy.
From Verif.Props Require Import SchemeV2 SchemeV3 X509 HonestDer.

Section H.
  Variables (K : xenv) (E : env).
  Notation C := (concrete K E).

  Lemma key_read d f : certificate_der K d f -> zlen f < 2 ^ 31 -> d_key d <> GNone -> e_pkix_andr C (d_spki d) = Some (pubkeyOf (d_key d)).
  Proof.
    intros HD HL HN. destruct HD as (version & serial & sigalg & issuer & nb & na & validity & subject & iuid & suid & exts & tbs & outer & sig & HD).
    repeat match type of HD with _ /\ _ => let H := fresh "H" in destruct HD as [H HD] end.
    assert (HLs : zlen (d_spki d) < 2 ^ 31).
    { apply der_element_size in HD, H12. cbn [concat] in HD, H12. rewrite !zlen_app in HD. rewrite !zlen_app in H12. nn. lia. }
    destruct (spki_key K _ _ H8 HLs) as (v & _ & HP & HK). specialize (HP []). rewrite app_nil_r in HP. cbn [e_pkix_andr concrete withPkcs7 withX509]. unfold parsePKIXPublicKey, unmarshalAll, unmarshal. rewrite HP.
    destruct (getPublicKeyAlgorithmFromOID _); [exfalso; apply HN; cbn in HK; congruence| | |]; rewrite HK; reflexivity.
  Qed.
  Lemma chain_read cs : Forall (good_certificate K) cs -> Forall (fun c => zlen (snd c) < 2 ^ 31) cs ->
    exists chain, Forall2 (fun e c => e_cert_andr C e = Some c) (map snd cs) chain /\ Forall2 (fun d c => c_raw c = snd d /\ c_spki c = d_spki (fst d)) cs chain.
  Proof.
    induction 1 as [|d cs (HD & HV) F IH]; intros HS; [exists []; split; constructor|]. inversion HS as [|? ? Hd HS']; subst. destruct (IH HS') as (chain & H1 & H2).
    destruct (C73_certificate_read K E (fst d) (snd d) HD Hd HV) as (c & Hc & Hr & Hs & _). exists (c :: chain). cbn [map]. split; constructor; auto.
  Qed.
  Lemma written_honest sections data b : signer_doc_over K E sections data b -> Forall (fun c => zlen (snd c) < 2 ^ 31) (bd_main b :: bd_others b) ->
    exists main others, honest_over C sections data (bd_written b (main :: others)) /\ e_cert_andr C (snd (bd_main b)) = Some main /\ map c_raw (main :: others) = bd_chain b.
  Proof.
    intros [Hc Hk Hn Hs Ha] HL. destruct (chain_read _ Hc HL) as (chain & H1 & H2). destruct chain as [|main others]; [inversion H2|]. exists main, others. cbn [map] in H1.
    inversion H1 as [|? ? ? ? Hm _]; subst. inversion H2 as [|? ? ? ? (_ & Hsp) _]; subst. split; [|split; [exact Hm|]].
    - split; [exact H1|]. split; [exists main, others; split; [reflexivity|exact Hsp]|]. split; [|split; [exact Hn|split; [|exact Ha]]].
      + cbn [bd_written h_pk h_key]. inversion Hc as [|? ? (HD & _) _]; subst. inversion HL; subst. eapply key_read; eassumption.
      + cbn [bd_written h_sigs h_key]. intros a d s HI. destruct (Hs a d s HI) as (HV & k & HK & HCd). split; [|exists k; split; [exact HK|exact HCd]]. destruct HV; econstructor; eassumption.
    - unfold bd_chain. clear -H2. induction H2 as [|d c l l' (H & _) _ IH]; [reflexivity|]. cbn [map]. rewrite H. f_equal. exact IH.
  Qed.
  Lemma sizes data pk sigs cs dg at_ : data = lp dg ++ lp (lps (map snd cs)) ++ at_ -> fits (lp data ++ sigs ++ pk) -> Forall (fun c : cert_doc * bytes => zlen (snd c) < 2 ^ 31) cs.
  Proof.
    intros -> F. apply fits_lp_l in F. apply fits_r, fits_lp_l, fits_items in F. rewrite Forall_map in F. revert F. apply Forall_impl. intros c Hc. unfold fits in Hc. lia.
  Qed.
End H.

(** A v2 block with any number (up to ten) of honest signers. *)
Theorem C81_v2_from_bytes : forall K E S, hash_sizes_ok E -> sched_ok S -> forall file es sections minSdk maxSdk z bs,
  apk_with file es sections -> 24 <= maxSdk -> ~ v31_in maxSdk es -> ~ v3_in maxSdk es ->
  ~ In id_frosting (map fst es) -> ~ In id_stamp (map fst es) ->
  1 <= zlen bs <= 10 -> last_entry es id_v2 (lp (lps (map bd_signer2 bs))) -> fits (lps (map bd_signer2 bs)) ->
  Forall (fun b => signer_doc_over K E sections (h_data2 (bd_written b [])) b /\ Forall (v2_attribute_ok maxSdk (present_in es)) (bd_attrs b)) bs ->
  exists res, verifies (concrete K E) S file minSdk maxSdk z res /\ scheme res = 2 /\ map (map c_raw) (chains res) = map bd_chain bs.
Proof.
  intros K E S HE HS file es sections minSdk maxSdk z bs A M N31 N3 Nf Ns Le L F Hs.
  assert (G : exists hs, map h_signer2 hs = map bd_signer2 bs /\ map (fun h => map c_raw (h_chain h)) hs = map bd_chain bs /\
    Forall (fun h => honest_over (concrete K E) sections (h_data2 h) h /\ Forall (v2_attribute_ok maxSdk (present_in es)) (h_attrs h)) hs).
  { apply fits_items in F. clear Le L. induction Hs as [|b bs (Hb & Hat) Hs IH]; [exists []; split; [reflexivity|split; [reflexivity|constructor]]|]. cbn [map] in F. inversion F as [|? ? F1 F2]; subst. destruct (IH F2) as (hs & Q1 & Q2 & Q3).
    assert (HZ : Forall (fun c => zlen (snd c) < 2 ^ 31) (bd_main b :: bd_others b)) by (eapply (sizes _ _ _ _ _ _ eq_refl F1)).
    destruct (written_honest K E _ _ _ Hb HZ) as (main & others & HH & _ & HR). exists (bd_written b (main :: others) :: hs). cbn [map]. rewrite Q1, Q2. split; [reflexivity|]. split; [rewrite <- HR; reflexivity|]. constructor; [|exact Q3]. split; [exact HH|exact Hat]. }
  destruct G as (hs & Q1 & Q2 & Q3). assert (QL : zlen hs = zlen bs). { unfold zlen. rewrite <- (map_length h_signer2 hs), Q1, map_length. reflexivity. }
  destruct (C12_v2_complete (concrete K E) S HE HS file es sections minSdk maxSdk z hs A M N31 N3 Nf Ns) as (res & V & Id & Hc); try (rewrite ?QL, ?Q1; assumption).
  exists res. split; [exact V|]. split; [exact Id|]. rewrite Hc, map_map. exact Q2.
Qed.
Print Assumptions C81_v2_from_bytes.

(** A v3 block with one honest signer, rotated keys included: the lineage is the one its attributes describe. *)
Theorem C81_v3_from_bytes : forall K E S, hash_sizes_ok E -> sched_ok S -> forall file es sections minSdk maxSdk z b lo hi lin,
  apk_with file es sections -> 28 <= maxSdk -> ~ v31_in maxSdk es ->
  ~ In id_frosting (map fst es) -> ~ In id_stamp (map fst es) ->
  last_entry es id_v3 (lp (lps [bd_signer3 b lo hi])) -> fits (lps [bd_signer3 b lo hi]) ->
  signer_doc_over K E sections (h_data3 (bd_written b []) lo hi) b ->
  1 <= lo <= hi -> hi <= 2147483647 -> lo <= Z.max minSdk 28 -> maxSdk <= hi ->
  (forall main, e_cert_andr (concrete K E) (snd (bd_main b)) = Some main -> Forall (v3_attribute_ok (concrete K E) maxSdk 0 main) (bd_attrs b)) ->
  rotation_lineage (concrete K E) (bd_attrs b) lin ->
  exists res, verifies (concrete K E) S file minSdk maxSdk z res /\ scheme res = 3 /\ map (map c_raw) (chains res) = [bd_chain b] /\
    reported_lineage res = match lin with [] => None | _ => Some lin end.
Proof.
  intros K E S HE HS file es sections minSdk maxSdk z b lo hi lin A M N31 Nf Ns L F Hb R1 R2 R3 R4 Hat Hl.
  assert (HZ : Forall (fun c => zlen (snd c) < 2 ^ 31) (bd_main b :: bd_others b)). { pose proof F as F'. apply fits_items in F'. inversion F' as [|? ? F1 _]; subst. eapply (sizes _ _ _ _ _ _ eq_refl F1). }
  destruct (written_honest K E _ _ _ Hb HZ) as (main & others & HH & Hm & HR).
  destruct (C48_v3_complete (concrete K E) S HE HS file es sections minSdk maxSdk z (bd_written b (main :: others)) lo hi lin A M N31 Nf Ns L F HH R1 R2 R3 R4) as (res & V & Id & Hc & Hlin).
  - intros m o Em. cbn [bd_written h_chain] in Em. assert (m = main) as -> by congruence. exact (Hat main Hm).
  - exact Hl.
  - exists res. split; [exact V|]. split; [exact Id|]. split; [|exact Hlin]. rewrite Hc. cbn [map bd_written h_chain]. rewrite <- HR. reflexivity.
Qed.
Print Assumptions C81_v3_from_bytes.

(** An RSA-signed v2 block with a self-signed certificate. *)
Definition b_main : cert_doc * bytes := (d_cert_doc, d_cert).
Definition b_doc0 : apk_signer_doc := {| bd_main := b_main; bd_others := []; bd_sigs := [(0x0103, toy_digest, [])]; bd_attrs := [] |}.
Definition b_doc : apk_signer_doc := {| bd_main := b_main; bd_others := []; bd_sigs := [(0x0103, toy_digest, toy_sign x_key (h_data2 (bd_written b_doc0 [])))]; bd_attrs := [] |}.
Definition b_file : bytes := toy_file [(id_v2, lp (lps [bd_signer2 b_doc]))].
Example C81_nonvacuous : signer_doc_over toy_k toy_env toy_sections (h_data2 (bd_written b_doc [])) b_doc /\ fits (lps (map bd_signer2 [b_doc])) /\
  b_file = x_v2.
Proof.
  split; [|split; [vm_compute; discriminate|vm_compute; reflexivity]]. constructor.
  - constructor; [exact d_cert_good|constructor].
  - discriminate.
  - discriminate.
  - intros a d s [H|[]]. assert (a = 0x0103 /\ d = toy_digest /\ s = toy_sign x_key (h_data2 (bd_written b_doc0 []))) as (-> & -> & ->) by (repeat split; congruence). clear H. split; [constructor; vm_compute; reflexivity|].
    exists ChunkedSha256. split; [exists 1; cbn; tauto|]. exists (map (fun s => [s]) toy_sections). split; [|reflexivity]. repeat constructor; vm_compute; congruence.
  - constructor.
Qed.
