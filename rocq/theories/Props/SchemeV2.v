(** C11-C15: APK Signature Scheme v2. *)
From Coq Require Import Lia.
From Verif.Model Require Import Bytes Env Result Verify.
From Verif.Spec Require Import Encoding Algorithms ApkLayout Nondet Digests Entries Signer SignerV3 Verified Calls Honest.
From Verif.Proofs Require Import ApkFacts TotalFacts PropFacts HonestFacts.
From Verif.Examples Require Import Toy ToyApk.

(** C11: success with scheme 2 means that the v2 block is a list of signers that signed these contents
    ([v2_verified]); their chains are reported (alone, unless v2 was only the fallback for v3). *)
Theorem C11_v2_sound : forall E S, hash_sizes_ok E -> sched_ok S -> forall file minSdk maxSdk z res,
  verifies E S file minSdk maxSdk z res -> scheme res = 2 ->
  exists es sections is before, apk_with file es sections /\ v2_verified E maxSdk es sections is /\
    chains res = before ++ chains2 is /\ (28 <= minSdk \/ ~ v3_in maxSdk es -> before = []).
Proof.
  intros E S HE HS file minSdk maxSdk z res V Id. destruct (verifies_verdict E S HE HS _ _ _ _ _ V) as (es & sec & A & Vd). rewrite Id in Vd.
  destruct (scheme_2 _ _ _ _ _ _ _ Vd) as (is & c0 & Ve & Q & _ & D). exists es, sec, is, c0. repeat (split; [assumption|]).
  intros X. destruct D as [(C & _)|(M & V3 & _)]; [assumption|]. destruct X; [lia | contradiction].
Qed.
Print Assumptions C11_v2_sound.

(** The same, spelled out for each signer record of the block. *)
Theorem C11_each_signer : forall E S, hash_sizes_ok E -> sched_ok S -> forall file es sections minSdk maxSdk z res block signers junk,
  verifies E S file minSdk maxSdk z res -> scheme res = 2 ->
  apk_with file es sections -> last_entry es id_v2 block -> block = lp (lps signers) ++ junk -> fits (lps signers) -> Forall fits signers ->
  signers <> [] /\
  forall signer, In signer signers ->
    exists signedData sigs pk rest digs cs rest' algos algo sig key main others digest k,
      signer = lp signedData ++ lp sigs ++ lp pk ++ rest /\ signedData = lp digs ++ lp cs ++ rest' /\
      signature_list sigs algos algo sig /\ has_kind algo k /\
      e_pkix_andr E pk = Some key /\ sig_valid E key algo signedData sig /\
      cert_list E cs (main :: others) /\ c_spki main = pk /\
      digest_list digs algos algo digest /\ content_digest E k sections digest /\ In (main :: others) (chains res).
Proof.
  intros E S HE HS file es sections minSdk maxSdk z res block signers junk V Id A L -> G1 G2.
  pose proof (verifies_known E S HE HS _ _ _ _ _ _ _ V A) as Vd. rewrite Id in Vd.
  destruct (scheme_2 _ _ _ _ _ _ _ Vd) as (is & c0 & (_ & Ne & b & L' & (ss & j & Q & F1 & F2 & F & _) & Dm) & Qc & _ & _).
  assert (b = lp (lps signers) ++ junk) by (eapply last_entry_fun; eassumption). subst b.
  apply lp_inj in H as [Q' _]; [|assumption|assumption]. apply UtilsFacts.lps_inj in Q'; [|assumption|assumption]. subst ss.
  split. { intro X. subst signers. inversion F. congruence. }
  intros signer I. assert (exists i, In i is /\ v2_signer E maxSdk (present_in es) signer (si_chain i) (si_algo i) (si_digest i)) as (i & Ii & Vs).
  { clear - F I. induction F; [destruct I|]. destruct I as [->|I]; [exists y; split; [now left | assumption]|]. destruct IHF as (i & ? & ?); [assumption|]. exists i. split; [now right | assumption]. }
  destruct Vs as (sd & sigs & pk & jk & digs & cs & attrs & jk' & al & A1 & A2 & A3 & A4 & A5 & A6 & A7 & A8 & (algos & sig & key & main & others & B1 & B2 & B3 & B4 & B5 & B6 & B7) & _).
  assert (exists k, has_kind (si_algo i) k) as [k K].
  { destruct B1 as (rs & fi & _ & _ & (bf & af & k & _ & K & _) & _). eauto. }
  exists sd, sigs, pk, jk, digs, cs, (lp attrs ++ jk'), algos, (si_algo i), sig, key, main, others, (si_digest i), k.
  rewrite B5 in B4. repeat (split; [first [assumption | now apply (Dm i)]|]).
  rewrite Qc. apply in_or_app. right. unfold chains2. rewrite <- B5. now apply in_map.
Qed.
Print Assumptions C11_each_signer.

Example C11_nonvacuous : exists res, verifies toy_env toy_sched toy_v2 24 30 toy_zip res /\ scheme res = 2 /\ zlen (chains res) = 2.
Proof. eexists. split; [eexists; split; [vm_compute; reflexivity | split; reflexivity] | split; vm_compute; reflexivity]. Qed.
(** ... and a changed byte of the contents is refused. *)
Example C11_tampered : exists res e, returns toy_env toy_sched (x00 :: tl toy_v2) 24 30 toy_zip res (Some e).
Proof. eexists _, _. eexists. split; [vm_compute; reflexivity | split; reflexivity]. Qed.

(** C12: what honest signers write verifies.  ([honest_over] in Spec/Honest.v; no frosting or stamp entries.) *)
Theorem C12_v2_complete : forall E S, hash_sizes_ok E -> sched_ok S -> forall file es sections minSdk maxSdk z hs,
  apk_with file es sections -> 24 <= maxSdk -> ~ v31_in maxSdk es -> ~ v3_in maxSdk es ->
  ~ In id_frosting (map fst es) -> ~ In id_stamp (map fst es) ->
  1 <= zlen hs <= 10 -> last_entry es id_v2 (lp (lps (map h_signer2 hs))) -> fits (lps (map h_signer2 hs)) ->
  Forall (fun h => honest_over E sections (h_data2 h) h /\ Forall (v2_attribute_ok maxSdk (present_in es)) (h_attrs h)) hs ->
  exists res, verifies E S file minSdk maxSdk z res /\ scheme res = 2 /\ chains res = map h_chain hs.
Proof.
  intros E S HE HS file es sections minSdk maxSdk z hs A M N31 N3 Nf Ns [Le1 Le] L F Hs.
  destruct (honest_v2 E HE sections maxSdk es hs) as (is & V & Q); try assumption. { intro X. subst hs. unfold zlen in Le1. cbn in Le1. lia. }
  destruct (total2 E S HE HS file es sections minSdk maxSdk z is A Nf Ns V N31 N3) as (vr & H).
  destruct (complete_2 E S HE HS _ _ _ _ _ _ _ _ A V N31 N3 H) as (Er & res & R & Id & C).
  exists res. split; [exists vr; auto|]. split; [assumption|]. unfold chains. now rewrite C.
Qed.
Print Assumptions C12_v2_complete.
(** With frosting or a source stamp in the APK the result is the same, whenever the call returns. *)
Theorem C12_v2_complete_returns : forall E S, hash_sizes_ok E -> sched_ok S -> forall file es sections minSdk maxSdk z is res err,
  apk_with file es sections -> v2_verified E maxSdk es sections is -> ~ v31_in maxSdk es -> ~ v3_in maxSdk es ->
  returns E S file minSdk maxSdk z res err -> err = None /\ scheme res = 2 /\ chains res = chains2 is.
Proof.
  intros E S HE HS file es sections minSdk maxSdk z is res err A V N31 N3 (vr & H & R & Er).
  destruct (complete_2 E S HE HS _ _ _ _ _ _ _ _ A V N31 N3 H) as (Er' & res' & R' & Id & C). rewrite R in R'. inversion R'; subst res'. split; [congruence|]. auto.
Qed.
Print Assumptions C12_v2_complete_returns.

Definition toy_honest (key digest : bytes) : honest :=
  let h := mkHonest [key] [toy_cert key] key (KRsa key 2048) [(0x0103, digest, [])] [] in
  mkHonest [key] [toy_cert key] key (KRsa key 2048) [(0x0103, digest, toy_sign key (h_data2 h))] [].
Example C12_nonvacuous : h_signer2 (toy_honest kA toy_digest) = toy_signer2 kA toy_digest [] /\
  honest_over toy_env toy_sections (h_data2 (toy_honest kA toy_digest)) (toy_honest kA toy_digest).
Proof.
  split; [vm_compute; reflexivity|]. split; [repeat constructor|]. split; [exists (toy_cert kA), []; split; reflexivity|]. split; [reflexivity|]. split; [discriminate|]. split; [|constructor].
  intros a d s [H|[]]. inversion H; subst. split; [constructor; vm_compute; reflexivity|].
  exists ChunkedSha256. split; [exists 1; cbn; tauto|]. exists (map (fun s => [s]) toy_sections). split; [|reflexivity].
  repeat constructor; vm_compute; congruence.
Qed.

(** C13: the digests of the accepted signers agree with each other and with the file. *)
Theorem C13_digests_agree : forall E S, hash_sizes_ok E -> sched_ok S -> forall file es sections minSdk maxSdk z res,
  verifies E S file minSdk maxSdk z res -> apk_with file es sections ->
  (scheme res = 2 -> exists block is, last_entry es id_v2 block /\ v2_block E maxSdk (present_in es) block is /\ is <> [] /\
     consistent is /\ digests_match E sections is) /\
  (scheme res = 3 -> exists block is, last_entry es id_v3 block /\ v3_block E maxSdk 0 block is /\ is <> [] /\
     consistent (map i3_signer is) /\ digests_match E sections (map i3_signer is)).
Proof.
  intros E S HE HS file es sections minSdk maxSdk z res V A. pose proof (verifies_known E S HE HS _ _ _ _ _ _ _ V A) as Vd. split; intro Id; rewrite Id in Vd.
  - destruct (scheme_2 _ _ _ _ _ _ _ Vd) as (is & c0 & (_ & Ne & b & L & B & Dm) & _). exists b, is. repeat (split; [assumption|]). split; [|assumption].
    destruct B as (? & ? & _ & _ & _ & _ & C & _). exact C.
  - destruct (scheme_3 _ _ _ _ _ _ _ Vd) as (_ & is & (_ & Ne & b & L & B & Dm & _) & _). exists b, is. repeat (split; [assumption|]). split; [|assumption].
    destruct B as (? & ? & _ & _ & _ & _ & C). exact C.
Qed.
Print Assumptions C13_digests_agree.
Example C13_nonvacuous : exists res e, returns toy_env toy_sched
  (toy_file [(id_v2, toy_block [toy_signer2 kA toy_digest []; toy_signer2 kB kC []])]) 24 30 toy_zip res (Some e).
Proof. eexists _, _. eexists. split; [vm_compute; reflexivity | split; reflexivity]. Qed.

(** C14: a v2 signer that says the APK was also signed with scheme [sc] (3 or 31), whose block [id] is not there. *)
Theorem C14_stripping : forall E S, hash_sizes_ok E -> sched_ok S ->
  forall file es sections minSdk maxSdk z res block signers junk signer sd rest digs cs attrs rest' al sc more id,
  apk_with file es sections -> last_entry es id_v2 block -> block = lp (lps signers) ++ junk -> fits (lps signers) -> Forall fits signers ->
  In signer signers -> signer = lp sd ++ rest -> fits sd ->
  sd = lp digs ++ lp cs ++ lp attrs ++ rest' -> fits digs -> fits cs -> fits attrs ->
  attribute_list attrs al -> In (0xbeeff00d, le32 sc ++ more) al ->
  (sc = 3 /\ id = id_v3 \/ sc = 31 /\ id = id_v31) -> ~ In id (map fst es) -> 28 <= maxSdk ->
  verifies E S file minSdk maxSdk z res -> scheme res <> 2.
Proof.
  intros E S HE HS file es sections minSdk maxSdk z res block signers junk signer sd rest digs cs attrs rest' al sc more id
    A L Qb G1 G2 I Qs G3 Qd G4 G5 G6 Al Ia Sc Ni M V Id.
  pose proof (verifies_known E S HE HS _ _ _ _ _ _ _ V A) as Vd. rewrite Id in Vd.
  destruct (scheme_2 _ _ _ _ _ _ _ Vd) as (is & c0 & (_ & Ne & b & L' & B & Dm) & _).
  assert (b = block) by (eapply last_entry_fun; eassumption). subst b.
  pose proof (v2_block_attribute E maxSdk _ block is signers junk signer sd rest digs cs attrs rest' al _ B Qb G1 G2 I Qs G3 Qd G4 G5 G6 Al Ia) as Ok.
  destruct (Ok eq_refl M) as (sc' & more' & id' & Q & R & Si & [_ P]). cbn [snd] in Q.
  unfold le32 in Q. apply BytesFacts.app_take_eq in Q as [Q _]; [|rewrite !BytesFacts.le_enc_zlen; reflexivity].
  assert (sc' = sc).
  { rewrite <- (BytesFacts.wrap32_id sc'), <- (BytesFacts.wrap32_id sc) by (unfold min_int32, max_int32, is_int32 in *; lia).
    apply BytesFacts.le_enc_inj in Q. change (256 ^ Z.of_nat 4) with 4294967296 in Q. rewrite <- BytesFacts.wrap32_mod, <- Q. apply BytesFacts.wrap32_mod. }
  subst sc'. destruct Sc as [[-> ->]|[-> ->]]; cbn in Si; inversion Si; subst; contradiction.
Qed.
Print Assumptions C14_stripping.
Example C14_nonvacuous : exists res e, returns toy_env toy_sched
  (toy_file [(id_v2, toy_block [toy_signer2 kA toy_digest [(0xbeeff00d, le32 3)]])]) 24 30 toy_zip res (Some e).
Proof. eexists _, _. eexists. split; [vm_compute; reflexivity | split; reflexivity]. Qed.
Example C14_nonvacuous_ok : exists res, verifies toy_env toy_sched
  (toy_file [(id_v2, toy_block [toy_signer2 kA toy_digest [(0xbeeff00d, le32 3)]])]) 24 27 toy_zip res.
Proof. eexists. eexists. split; [vm_compute; reflexivity | split; reflexivity]. Qed.

(** C15 *)
Theorem C15_ten_signers : forall E S, hash_sizes_ok E -> sched_ok S -> forall file es sections minSdk maxSdk z res block signers junk,
  apk_with file es sections -> last_entry es id_v2 block -> block = lp (lps signers) ++ junk -> fits (lps signers) -> Forall fits signers ->
  10 < zlen signers -> verifies E S file minSdk maxSdk z res -> scheme res <> 2.
Proof.
  intros E S HE HS file es sections minSdk maxSdk z res block signers junk A L Qb G1 G2 Lt V Id.
  pose proof (verifies_known E S HE HS _ _ _ _ _ _ _ V A) as Vd. rewrite Id in Vd.
  destruct (scheme_2 _ _ _ _ _ _ _ Vd) as (is & c0 & (_ & Ne & b & L' & B & Dm) & _).
  assert (b = block) by (eapply last_entry_fun; eassumption). subst b.
  pose proof (v2_block_count E maxSdk _ block is signers junk B Qb G1 G2). lia.
Qed.
Print Assumptions C15_ten_signers.
Example C15_nonvacuous :
  (exists res, verifies toy_env toy_sched (toy_file [(id_v2, toy_block (repeat (toy_signer2 kA toy_digest []) 10))]) 24 30 toy_zip res) /\
  (exists res e, returns toy_env toy_sched (toy_file [(id_v2, toy_block (repeat (toy_signer2 kA toy_digest []) 11))]) 24 30 toy_zip res (Some e)).
Proof. split; [eexists | eexists _, _]; eexists; (split; [vm_compute; reflexivity | split; reflexivity]). Qed.
