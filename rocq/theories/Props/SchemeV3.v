(** C16-C21, C47, C48: APK Signature Scheme v3 and v3.1. *)
From Coq Require Import Lia Permutation.
From Verif.Model Require Import Bytes Env Result SchemeV3 Verify.
From Verif.Spec Require Import Encoding Algorithms ApkLayout Nondet Digests Entries Signer SignerV3 Ranges Verified Calls Honest.
From Verif.Proofs Require Import RangeFacts ApkFacts TotalFacts PropFacts HonestFacts SchedFacts CoveringFacts.
From Verif.Examples Require Import Toy ToyApk.

(** C47: success with scheme 3. *)
Theorem C47_v3_sound : forall E S, hash_sizes_ok E -> sched_ok S -> forall file minSdk maxSdk z res,
  verifies E S file minSdk maxSdk z res -> scheme res = 3 ->
  exists es sections is, apk_with file es sections /\ v3_verified E minSdk maxSdk es sections is (reported_lineage res) /\
    ~ v31_in maxSdk es /\ chains res = chains3 is.
Proof.
  intros E S HE HS file minSdk maxSdk z res V Id. destruct (verifies_verdict E S HE HS _ _ _ _ _ V) as (es & sec & A & Vd). rewrite Id in Vd.
  destruct (scheme_3 _ _ _ _ _ _ _ Vd) as (N & is & Ve & Q). exists es, sec, is. auto.
Qed.
Print Assumptions C47_v3_sound.
Example C47_nonvacuous : exists res, verifies toy_env toy_sched toy_v3 28 33 toy_zip res /\ scheme res = 3 /\ zlen (chains res) = 2 /\
  option_map zlen (reported_lineage res) = Some 2.
Proof. eexists. split; [eexists; split; [vm_compute; reflexivity | split; reflexivity] | repeat split; vm_compute; reflexivity]. Qed.

(** C48: one honest v3 signer whose range covers the request, with the lineage its attributes prove. *)
Theorem C48_v3_complete : forall E S, hash_sizes_ok E -> sched_ok S -> forall file es sections minSdk maxSdk z h lo hi lin,
  apk_with file es sections -> 28 <= maxSdk -> ~ v31_in maxSdk es ->
  ~ In id_frosting (map fst es) -> ~ In id_stamp (map fst es) ->
  last_entry es id_v3 (lp (lps [h_signer3 h lo hi])) -> fits (lps [h_signer3 h lo hi]) ->
  honest_over E sections (h_data3 h lo hi) h ->
  1 <= lo <= hi -> hi <= 2147483647 -> lo <= Z.max minSdk 28 -> maxSdk <= hi ->
  (forall main others, h_chain h = main :: others -> Forall (v3_attribute_ok E maxSdk 0 main) (h_attrs h)) ->
  rotation_lineage E (h_attrs h) lin ->
  exists res, verifies E S file minSdk maxSdk z res /\ scheme res = 3 /\ chains res = [h_chain h] /\
    reported_lineage res = match lin with [] => None | _ => Some lin end.
Proof.
  intros E S HE HS file es sections minSdk maxSdk z h lo hi lin A M N31 Nf Ns L F Ho R1 R2 R3 R4 At Rl.
  destruct (honest_v3 E HE sections minSdk maxSdk es [((h, (lo, hi)), lin)] (match lin with [] => None | _ => Some lin end)) as (is & V & Qc & Ql); try assumption.
  { discriminate. } { constructor; [|constructor]. cbn [fst snd]. auto. }
  { intros is Qr Ql. destruct is as [|i [|]]; try discriminate. cbn in Qr, Ql. unfold range3 in Qr. assert (i3_min i = lo /\ i3_max i = hi /\ i3_lineage i = lin) as (<- & <- & <-) by (inversion Qr; inversion Ql; auto).
    replace (match i3_lineage i with [] => None | _ :: _ => Some (i3_lineage i) end) with (match i3_lineage i with [] => None | l => Some l end) by (destruct (i3_lineage i); reflexivity).
    apply covering_one; lia. }
  destruct (total3 E S HE HS file es sections minSdk maxSdk z is _ A Nf Ns V N31) as (vr & H).
  destruct (complete_3 E S HE HS _ _ _ _ _ _ _ _ _ A V N31 H) as (Er & res & R & _).
  assert (Rt : returns E S file minSdk maxSdk z res None) by (exists vr; auto).
  destruct (complete_3_lineage E S HE HS _ _ _ _ _ _ _ _ _ _ A V N31 Rt) as (_ & Id & C & Ln).
  exists res. split; [assumption|]. split; [assumption|]. split; [rewrite C; exact Qc|].
  destruct is as [|i [|]]; try discriminate. cbn in Ql. assert (Q : i3_lineage i = lin) by (inversion Ql; reflexivity).
  unfold lineages, has_lineage in Ln. cbn [filter] in Ln. rewrite Q in Ln. destruct lin; cbn [map] in Ln.
  - destruct (reported_lineage res); [destruct Ln as [[] _] | reflexivity].
  - destruct (reported_lineage res); [|discriminate]. rewrite Q in Ln. destruct Ln as [[<-|[]] _]. reflexivity.
Qed.
Print Assumptions C48_v3_complete.
(** Any number of signers: [v3_verified] is enough for success. *)
Theorem C48_v3_complete_returns : forall E S, hash_sizes_ok E -> sched_ok S -> forall file es sections minSdk maxSdk z is lin res err,
  apk_with file es sections -> v3_verified E minSdk maxSdk es sections is lin -> ~ v31_in maxSdk es ->
  returns E S file minSdk maxSdk z res err ->
  err = None /\ scheme res = 3 /\ chains res = chains3 is /\
  match reported_lineage res with None => lineages is = [] | Some l => extends_all (lineages is) l end.
Proof. intros E S HE HS file es sections minSdk maxSdk z is lin res err. exact (complete_3_lineage E S HE HS _ _ _ _ _ _ _ _ _ _). Qed.
Print Assumptions C48_v3_complete_returns.

Definition toy_honest3 (key digest : bytes) (lo hi : Z) (attrs : list (Z * bytes)) : honest :=
  let h := mkHonest [key] [toy_cert key] key (KRsa key 2048) [(0x0103, digest, [])] attrs in
  mkHonest [key] [toy_cert key] key (KRsa key 2048) [(0x0103, digest, toy_sign key (h_data3 h lo hi))] attrs.
Example C48_nonvacuous : let h := toy_honest3 kB toy_digest 28 34 [] in
  h_signer3 h 28 34 = toy_signer3 kB toy_digest 28 34 28 34 [] /\
  honest_over toy_env toy_sections (h_data3 h 28 34) h /\ rotation_lineage toy_env (h_attrs h) [].
Proof.
  cbn zeta. split; [vm_compute; reflexivity|]. split; [|left; split; [reflexivity | intros ? ? []]].
  split; [repeat constructor|]. split; [exists (toy_cert kB), []; split; reflexivity|]. split; [reflexivity|]. split; [discriminate|]. split; [|constructor].
  intros a d s [H|[]]. inversion H; subst. split; [constructor; vm_compute; reflexivity|].
  exists ChunkedSha256. split; [exists 1; cbn; tauto|]. exists (map (fun s => [s]) toy_sections). split; [|reflexivity].
  repeat constructor; vm_compute; congruence.
Qed.
Example C48_nonvacuous_lineage : exists ns, zlen ns = 2 /\ lineage_of toy_env (snd (toy_lineage [(kA, 7); (kB, 3)])) ns.
Proof.
  exists [ {| ln_cert := toy_cert kA; ln_parent_algo := 0x0103; ln_algo := 0x0103; ln_signature := []; ln_flags := 7 |};
           {| ln_cert := toy_cert kB; ln_parent_algo := 0x0103; ln_algo := 0x0103; ln_signature := toy_sign kA (lp kB ++ le32 0x0103); ln_flags := 3 |} ].
  split; [reflexivity|]. exists (toy_nodes None [(kA, 7); (kB, 3)]). split; [reflexivity|]. split; [repeat constructor; vm_compute; congruence|]. split.
  - repeat apply no_cons; [| |apply no_nil].
    + exists (lp kA ++ le32 0x0103), [], kA, []. repeat (split; [first [reflexivity | vm_compute; intuition congruence]|]). exact I.
    + exists (lp kB ++ le32 0x0103), [], kB, []. repeat (split; [first [reflexivity | vm_compute; intuition congruence]|]). split; [|reflexivity].
      constructor. vm_compute. reflexivity.
  - repeat constructor; cbn; intros [X|[]] || intros []; discriminate X.
Qed.

(** C16: the SDK ranges of the accepted signers. *)
Theorem C16_ranges_cover : forall E S, hash_sizes_ok E -> sched_ok S -> forall file es sections minSdk maxSdk z res,
  verifies E S file minSdk maxSdk z res -> apk_with file es sections ->
  (scheme res = 3 -> exists block is, last_entry es id_v3 block /\ v3_block E maxSdk 0 block is /\ chains res = chains3 is /\
     Forall (fun i => 1 <= i3_min i <= i3_max i) is /\ covers (map range3 is) (Z.max minSdk 28) maxSdk) /\
  (scheme res = 31 -> exists block block3 is is3 rot, last_entry es id_v31 block /\ last_entry es id_v3 block3 /\
     v3_block E maxSdk 0 block is /\ chains res = chains3 is /\ v3_block E maxSdk rot block3 is3 /\ rotation_level is rot /\
     Forall (fun i => 1 <= i3_min i <= i3_max i) is /\ covers (map range3 is) maxSdk maxSdk /\
     Forall (fun i => 1 <= i3_min i <= i3_max i) is3 /\ covers (map range3 is3) (Z.max minSdk 28) (below_rotation maxSdk rot)).
Proof.
  intros E S HE HS file es sections minSdk maxSdk z res V A. pose proof (verifies_known E S HE HS _ _ _ _ _ _ _ V A) as Vd.
  assert (Fr : forall m r b is, v3_block E m r b is -> Forall (fun i => 1 <= i3_min i <= i3_max i) is).
  { intros m r b is B. apply v3_block_ranges in B. rewrite Forall_map in B. eapply Forall_impl; [|exact B]. cbn. unfold range_ok. cbn. tauto. }
  assert (Co : forall lo hi is lin, v3_covering lo hi is lin -> covers (map range3 is) lo hi).
  { intros lo hi is lin (js & a & b & Pm & T & L & H & _). exists (map range3 js), a, b. split; [now apply Permutation_map|]. auto. }
  split; intro Id; rewrite Id in Vd.
  - destruct (scheme_3 _ _ _ _ _ _ _ Vd) as (_ & is & (_ & Ne & b & L & B & Dm & C) & Q). exists b, is. repeat (split; [assumption|]). split; [eapply Fr; eassumption | eapply Co; eassumption].
  - destruct (scheme_31 _ _ _ _ _ _ _ Vd) as (is & is3 & (_ & Ne & Ne3 & b & b3 & rot & lin3 & L & L3 & B & RL & B3 & Dm & C & C3) & Q). exists b, b3, is, is3, rot. repeat (split; [assumption|]).
    split; [eapply Fr; exact B|]. split; [eapply Co; exact C|]. split; [eapply Fr; exact B3 | eapply Co; exact C3].
Qed.
Print Assumptions C16_ranges_cover.
(** A gap, an overlap or a missing end is an error (unless v2 takes over below API 28). *)
Theorem C16_not_covering_rejected : forall E S, hash_sizes_ok E -> sched_ok S -> forall file es sections minSdk maxSdk z res err block is,
  apk_with file es sections -> ~ v31_in maxSdk es -> 28 <= maxSdk -> last_entry es id_v3 block -> v3_block E maxSdk 0 block is ->
  ~ covers (map range3 is) (Z.max minSdk 28) maxSdk ->
  returns E S file minSdk maxSdk z res err -> err <> None \/ scheme res = 2 /\ minSdk < 28.
Proof.
  intros E S HE HS file es sections minSdk maxSdk z res err block is A N31 M L B Nc R. destruct err as [e|]; [left; discriminate|]. right.
  pose proof (verifies_known E S HE HS _ _ _ _ _ _ _ R A) as Vd. inversion Vd as [M' |is31 is3 Q V|is' Id _ (_ & _ & b & L' & B' & _ & (js & a & c & Pm & T & La & Lc & _)) _|is' Id _ N3 _ _ _|is' c0 Id _ _ Mi _ _ _].
  - lia.
  - exfalso. apply N31. destruct V as (M33 & _ & _ & b31 & ? & ? & ? & L31 & _). split; [assumption|]. apply last_entry_in. eauto.
  - exfalso. apply Nc. assert (b = block) by (eapply last_entry_fun; eassumption). subst b.
    destruct (V3BlockFacts.v3_block_det E maxSdk 0 block is' is) as [K _]; [unfold is_int32; lia | assumption | assumption|].
    exists (map range3 js), a, c. split; [|auto]. rewrite <- (range_kept is), <- K, range_kept. now apply Permutation_map.
  - exfalso. apply N3. split; [assumption|]. apply last_entry_in. eauto.
  - auto.
Qed.
Print Assumptions C16_not_covering_rejected.
(** C52: verdict, scheme and chains do not depend on the sort algorithm (nor on map iteration order). *)
Theorem C52_schedule_independent : forall E S S', hash_sizes_ok E -> sched_ok S -> sched_ok S' -> forall file minSdk maxSdk z res res' err,
  verifies E S file minSdk maxSdk z res -> returns E S' file minSdk maxSdk z res' err ->
  err = None /\ scheme res' = scheme res /\ chains res' = chains res.
Proof.
  intros E S S' HE HS HS' file minSdk maxSdk z res res' err (vr & H & R & Er) (vr' & H' & R' & Er').
  destruct (verdict_sched E HE S S' _ _ _ _ _ _ HS HS' H H' Er) as (X & r & r' & Q & Q' & Id & C). rewrite R in Q. rewrite R' in Q'. inversion Q; inversion Q'; subst. auto.
Qed.
Print Assumptions C52_schedule_independent.
(** The order of the signers in the block does not matter either: [covers] is invariant. *)
Theorem C16_order_irrelevant : forall rs rs' lo hi, Permutation rs rs' -> covers rs lo hi -> covers rs' lo hi.
Proof. intros rs rs' lo hi P (js & a & b & Q & T & La & Lb). exists js, a, b. split; [etransitivity; eassumption | auto]. Qed.
Print Assumptions C16_order_irrelevant.
Example C16_nonvacuous : 
  (exists res e, returns toy_env toy_sched (toy_file [(id_v3, toy_block [toy_signer3 kA toy_digest 28 30 28 30 []; toy_signer3 kB toy_digest 32 34 32 34 []])]) 28 33 toy_zip res (Some e)) /\
  (exists res, verifies toy_env toy_sched (toy_file [(id_v3, toy_block [toy_signer3 kB toy_digest 31 34 31 34 []; toy_signer3 kA toy_digest 28 30 28 30 []])]) 28 33 toy_zip res).
Proof. split; [eexists _, _ | eexists]; eexists; (split; [vm_compute; reflexivity | split; reflexivity]). Qed.

(** C17, proved part: the lower bound of each accepted signer is the signed one. *)
Theorem C17_signed_min_partial : forall E S, hash_sizes_ok E -> sched_ok S -> forall file es sections minSdk maxSdk z res,
  verifies E S file minSdk maxSdk z res -> apk_with file es sections -> scheme res = 3 ->
  exists block is, last_entry es id_v3 block /\ v3_block E maxSdk 0 block is /\ Forall (fun i => i3_min i = i3_signedMin i) is.
Proof.
  intros E S HE HS file es sections minSdk maxSdk z res V A Id. pose proof (verifies_known E S HE HS _ _ _ _ _ _ _ V A) as Vd. rewrite Id in Vd.
  destruct (scheme_3 _ _ _ _ _ _ _ Vd) as (_ & is & (_ & Ne & b & L & B & Dm & C) & Q). exists b, is. repeat (split; [assumption|]).
  destruct B as (ss & j & _ & _ & _ & F & _). clear - F. induction F as [|s i ss is H F IH]; constructor; [|assumption].
  destruct H as (sd & sigs & pk & jk & digs & cs & attrs & jk' & al & main & others & A1 & A2 & A3 & A4 & A5 & A6 & A7 & A8 & A9 & A10 & A11 & A12 & A13 & A14 & _). exact A14.
Qed.
Print Assumptions C17_signed_min_partial.
(** C17 is false for the upper bound: a signer whose signed data says 28..30 is accepted for 28..34 after
    only the unsigned copy of the maximum was raised (schemev3.go:198 compares the value with itself). *)
Theorem C17_refuted : exists E S sd sigs pk digs cs file res, hash_sizes_ok E /\ sched_ok S /\
  sd = lp digs ++ lp cs ++ le32 28 ++ le32 30 ++ lp [] /\
  file = toy_file [(id_v3, lp (lps [lp sd ++ le32 28 ++ le32 34 ++ lp sigs ++ lp pk]))] /\
  verifies E S file 31 34 toy_zip res /\ scheme res = 3.
Proof.
  exists toy_env, toy_sched.
  set (sd := lp (toy_rec 0x0103 toy_digest) ++ lp (lp kA) ++ le32 28 ++ le32 30 ++ lp []).
  exists sd, (toy_rec 0x0103 (toy_sign kA sd)), kA, (toy_rec 0x0103 toy_digest), (lp kA). eexists _, _.
  split; [exact toy_hash_sizes|]. split; [exact toy_sched_ok|]. split; [reflexivity|]. split; [reflexivity|].
  split; [eexists; split; [vm_compute; reflexivity | split; reflexivity] | reflexivity].
Qed.
Print Assumptions C17_refuted.

(** C18: the reported lineage. *)
Theorem C18_lineage : forall E S, hash_sizes_ok E -> sched_ok S -> forall file es sections minSdk maxSdk z res ns,
  verifies E S file minSdk maxSdk z res -> apk_with file es sections -> scheme res <> 2 -> reported_lineage res = Some ns ->
  exists value main others l n,
    lineage_of E value ns /\ In (main :: others) (chains res) /\ ns = l ++ [n] /\ c_raw (ln_cert n) = c_raw main.
Proof.
  intros E S HE HS file es sections minSdk maxSdk z res ns V A Id Ln. pose proof (verifies_known E S HE HS _ _ _ _ _ _ _ V A) as Vd. rewrite Ln in Vd.
  inversion Vd as [M Q1 Q2 Q3 |is31 is3 Q (M & _ & _ & b & b3 & rot & lin3 & L & L3 & B & RL & B3 & Dm & C & _) Qc|is Q N (M & _ & b & L & B & Dm & C) Qc|is' Q _ N3 _ _ _|is' c0 Q _ _ Mi _ _ _]; try congruence.
  - destruct (covering_lineage _ _ _ _ C) as (i & I & <- & Ne). destruct (signer_lineage _ _ _ _ _ _ B I Ne) as (v & main & others & l & n & Lo & Sc & Ql & R).
    exists v, main, others, l, n. split; [assumption|]. split; [|auto]. rewrite Qc. unfold chains3. rewrite <- Sc. apply in_map_iff. exists i. auto.
  - destruct (covering_lineage _ _ _ _ C) as (i & I & <- & Ne). destruct (signer_lineage _ _ _ _ _ _ B I Ne) as (v & main & others & l & n & Lo & Sc & Ql & R).
    exists v, main, others, l, n. split; [assumption|]. split; [|auto]. rewrite Qc. unfold chains3. rewrite <- Sc. apply in_map_iff. exists i. auto.
Qed.
Print Assumptions C18_lineage.
(** What [lineage_of] says about two successive nodes, without the encoding. *)
Theorem C18_links : forall E value ns, lineage_of E value ns ->
  NoDup (map (fun n => c_raw (ln_cert n)) ns) /\
  forall before p n after, ns = before ++ p :: n :: after ->
    ln_parent_algo n = ln_algo p /\
    exists enc rest, e_cert_std E enc = Some (ln_cert n) /\ fits enc /\
      sig_valid E (c_key (ln_cert p)) (ln_algo p) (lp enc ++ le32 (ln_parent_algo n) ++ rest) (ln_signature n).
Proof.
  intros E value ns (items & _ & _ & N & D). split; [exact D|]. clear D. revert N. generalize (@None lnode). intros prev N before.
  revert prev items ns N. induction before as [|x before IH]; intros prev items ns N p n after Q.
  - subst ns. inversion N as [|? nb ? nbs ? Hp Hn]; subst. inversion Hn as [|? nb' ? nbs' ? Hn' _]; subst.
    destruct Hn' as (sd & jk & enc & jk' & _ & _ & _ & _ & _ & Qs & Fe & _ & Ce & Sv & Pa). split; [assumption|]. exists enc, jk'. split; [assumption|]. split; [assumption|]. now rewrite <- Qs.
  - subst ns. inversion N as [|? nb ? nbs ? Hp Hn]; subst. eapply IH; [exact Hn | reflexivity].
Qed.
Print Assumptions C18_links.
Example C18_nonvacuous : (exists res ns, verifies toy_env toy_sched toy_v3 28 33 toy_zip res /\ reported_lineage res = Some ns /\ zlen ns = 2) /\
  (* a lineage whose second certificate is not signed by the first is refused *)
  (exists res e, returns toy_env toy_sched (toy_file [(id_v3, toy_block [toy_signer3 kB toy_digest 28 34 28 34
      [(0x3ba06f8c, le32 1 ++ lps (hd [] (toy_nodes None [(kA, 7)]) :: tl (toy_nodes None [(kC, 7); (kB, 3)])))]])]) 28 33 toy_zip res (Some e)).
Proof.
  split.
  - eexists _, _. split; [eexists; split; [vm_compute; reflexivity | split; reflexivity] | split; vm_compute; reflexivity].
  - eexists _, _. eexists. split; [vm_compute; reflexivity | split; reflexivity].
Qed.

(** C19: consolidation of the lineages never panics; the result extends all of them; otherwise an error. *)
Theorem C19_consolidate : forall ls, exists c, consolidateLineages ls = Ret c /\
  match c with
  | inl None => ls = []
  | inl (Some l) => extends_all (map l_nodes ls) (l_nodes l)
  | inr _ => ls <> [] /\ forall l, ~ extends_all (map l_nodes ls) l
  end.
Proof.
  intro ls. destruct (consolidate_spec ls) as (c & H & R). exists c. split; [exact H|]. destruct c as [[l|]|].
  - now apply lextends_all. - exact R.
  - destruct R as [Ne R]. split; [exact Ne|]. intros l X. apply extends_all_l in X as (l' & X & _). exact (R l' X).
Qed.
Print Assumptions C19_consolidate.
Theorem C19_reported : forall E S, hash_sizes_ok E -> sched_ok S -> forall file es sections minSdk maxSdk z res,
  verifies E S file minSdk maxSdk z res -> apk_with file es sections -> scheme res = 3 \/ scheme res = 31 ->
  exists id block is, id = (if scheme res =? 3 then id_v3 else id_v31) /\ last_entry es id block /\ v3_block E maxSdk 0 block is /\
    match reported_lineage res with
    | None => lineages is = []
    | Some l => extends_all (lineages is) l /\ forall l', In l' (lineages is) -> zlen l' <= zlen l
    end.
Proof.
  intros E S HE HS file es sections minSdk maxSdk z res V A Id. pose proof (verifies_known E S HE HS _ _ _ _ _ _ _ V A) as Vd.
  assert (X : forall lo hi is, v3_covering lo hi is (reported_lineage res) -> match reported_lineage res with
    | None => lineages is = []
    | Some l => extends_all (lineages is) l /\ forall l', In l' (lineages is) -> zlen l' <= zlen l
    end).
  { intros lo hi is (js & a & b & _ & _ & _ & _ & _ & H). destruct (reported_lineage res); [|exact H]. split; [exact H|]. intros l' I. destruct H as [_ H]. destruct (H l' I) as (p & rest & -> & F).
    apply Forall2_length in F. unfold zlen. rewrite app_length. lia. }
  destruct Id as [Id|Id]; rewrite Id in *.
  - destruct (scheme_3 _ _ _ _ _ _ _ Vd) as (_ & is & (_ & Ne & b & L & B & Dm & C) & Q). exists id_v3, b, is. repeat (split; [first [assumption | reflexivity]|]). eapply X; exact C.
  - destruct (scheme_31 _ _ _ _ _ _ _ Vd) as (is & is3 & (_ & Ne & Ne3 & b & b3 & rot & lin3 & L & L3 & B & RL & B3 & Dm & C & C3) & Q). exists id_v31, b, is. repeat (split; [first [assumption | reflexivity]|]). eapply X; exact C.
Qed.
Print Assumptions C19_reported.
Example C19_nonvacuous : exists res, verifies toy_env toy_sched (toy_file [(id_v3, toy_block
   [toy_signer3 kC toy_digest 33 40 33 40 [toy_lineage [(kA, 7); (kB, 3); (kC, 1)]];
    toy_signer3 kB toy_digest 30 32 30 32 [toy_lineage [(kA, 7); (kB, 3)]]; toy_signer3 kA toy_digest 28 29 28 29 []])]) 28 32 toy_zip res /\
   option_map zlen (reported_lineage res) = Some 3.
Proof. eexists. split; [eexists; split; [vm_compute; reflexivity | split; reflexivity] | vm_compute; reflexivity]. Qed.

(** C20, proved part: the v3.1 signers whose chains are reported did sign their data (see [v3_signer]), and
    the contents match the digests of the v3.0 signers; that the v3.1 signers' own digests match is missing. *)
Theorem C20_v31_sound_partial : forall E S, hash_sizes_ok E -> sched_ok S -> forall file minSdk maxSdk z res,
  verifies E S file minSdk maxSdk z res -> scheme res = 31 ->
  exists es sections is31 is3, apk_with file es sections /\
    v31_verified E minSdk maxSdk es sections is31 (reported_lineage res) is3 /\ chains res = chains3 is31.
Proof.
  intros E S HE HS file minSdk maxSdk z res V Id. destruct (verifies_verdict E S HE HS _ _ _ _ _ V) as (es & sec & A & Vd). rewrite Id in Vd.
  destruct (scheme_31 _ _ _ _ _ _ _ Vd) as (is & is3 & Ve & Q). exists es, sec, is, is3. auto.
Qed.
Print Assumptions C20_v31_sound_partial.
(** C20 is false: the reported signer B signed digest [kC], which is not the digest of the contents
    (schemev31.go:14-46 verifies only the digests of the v3.0 block). *)
Theorem C20_refuted : exists E S file res, hash_sizes_ok E /\ sched_ok S /\
  file = toy_file [(id_v3, toy_block [toy_signer3 kA toy_digest 24 32 24 32 []]); (id_v31, toy_block [toy_signer3 kB kC 33 40 33 40 []])] /\
  verifies E S file 28 40 toy_zip res /\ scheme res = 31 /\ chains res = [[toy_cert kB]] /\ kC <> toy_digest.
Proof.
  exists toy_env, toy_sched. eexists _, _. split; [exact toy_hash_sizes|]. split; [exact toy_sched_ok|]. split; [reflexivity|].
  split; [eexists; split; [vm_compute; reflexivity | split; reflexivity]|]. split; [reflexivity|]. split; [reflexivity | vm_compute; discriminate].
Qed.
Print Assumptions C20_refuted.
(** Completeness for v3.1. *)
Theorem C20_v31_complete : forall E S, hash_sizes_ok E -> sched_ok S -> forall file es sections minSdk maxSdk z is31 lin is3 res err,
  apk_with file es sections -> v31_verified E minSdk maxSdk es sections is31 lin is3 ->
  returns E S file minSdk maxSdk z res err -> err = None /\ scheme res = 31 /\ chains res = chains3 is31.
Proof.
  intros E S HE HS file es sections minSdk maxSdk z is31 lin is3 res err A V (vr & H & R & Er).
  destruct (complete_31 E S HE HS _ _ _ _ _ _ _ _ _ _ A V H) as (Er' & res' & R' & Id & C). rewrite R in R'. inversion R'; subst res'. split; [congruence|]. auto.
Qed.
Print Assumptions C20_v31_complete.
Example C20_nonvacuous : exists res, verifies toy_env toy_sched toy_v31 28 40 toy_zip res /\ scheme res = 31 /\ chains res = [[toy_cert kB]].
Proof. eexists. split; [eexists; split; [vm_compute; reflexivity | split; reflexivity] | split; reflexivity]. Qed.

(** C21 *)
Theorem C21_v31_needs_v3 : forall E S, hash_sizes_ok E -> sched_ok S -> forall file es sections minSdk maxSdk z res,
  verifies E S file minSdk maxSdk z res -> apk_with file es sections -> scheme res = 31 ->
  exists block31 block3 is31 is3 m rot, last_entry es id_v31 block31 /\ last_entry es id_v3 block3 /\
    v3_block E maxSdk 0 block31 is31 /\ chains res = chains3 is31 /\
    lowest is31 m /\ (m < 2147483647 -> rot = m) /\
    is3 <> [] /\ v3_block E maxSdk rot block3 is3 /\ digests_match E sections (map i3_signer is3) /\
    (m < 2147483647 -> covers (map range3 is3) (Z.max minSdk 28) (m - 1)) /\
    (forall signers junk signer sd rest digs cs lo hi attrs rest' al v,
       block3 = lp (lps signers) ++ junk -> fits (lps signers) -> Forall fits signers -> In signer signers ->
       signer = lp sd ++ rest -> fits sd -> sd = lp digs ++ lp cs ++ le32 lo ++ le32 hi ++ lp attrs ++ rest' -> fits digs -> fits cs -> fits attrs ->
       attribute_list attrs al -> In (id_rotation_min_sdk, v) al -> m < 2147483647 /\ exists more, v = le32 m ++ more).
Proof.
  intros E S HE HS file es sections minSdk maxSdk z res V A Id. pose proof (verifies_known E S HE HS _ _ _ _ _ _ _ V A) as Vd. rewrite Id in Vd.
  destruct (scheme_31 _ _ _ _ _ _ _ Vd) as (is & is3 & (M33 & Ne & Ne3 & b & b3 & rot & lin3 & L & L3 & B & (m & Lw & Qr) & B3 & Dm & C & C3) & Q).
  assert (Mb : 1 <= m <= 2147483647).
  { pose proof (v3_block_ranges _ _ _ _ _ B) as Fr. destruct Lw as [(i & Ii & <-) _]. rewrite Forall_map, Forall_forall in Fr. specialize (Fr i Ii). unfold range_ok, max_int32 in Fr. cbn in Fr. lia. }
  exists b, b3, is, is3, m, rot. repeat (split; [assumption|]).
  split; [intro Lt; rewrite Qr; destruct (Z.eqb_spec m 2147483647); [lia | reflexivity]|].
  repeat (split; [assumption|]). split.
  - intro Lt. assert (rot = m) as -> by (rewrite Qr; destruct (Z.eqb_spec m 2147483647); [lia | reflexivity]).
    destruct C3 as (js & a & c & Pm & T & La & Lc & _). exists (map range3 js), a, c. split; [now apply Permutation_map|]. split; [assumption|]. split; [assumption|].
    unfold below_rotation in Lc. destruct (Z.eqb_spec m 0); lia.
  - intros signers junk signer sd rest digs cs lo hi attrs rest' al v Qb G1 G2 I Qs G3 Qd G4 G5 G6 Al Ia.
    pose proof (v3_block_attribute E maxSdk rot b3 is3 signers junk signer sd rest digs cs lo hi attrs rest' al (id_rotation_min_sdk, v) B3 Qb G1 G2 I Qs G3 Qd G4 G5 G6 Al Ia) as (main & _ & Ok).
    destruct (Ok eq_refl M33) as (Nz & more & Qv). cbn [snd] in Qv. destruct (Z.eqb_spec m 2147483647); [congruence|]. split; [lia|]. exists more. congruence.
Qed.
Print Assumptions C21_v31_needs_v3.
Example C21_nonvacuous :
  (exists res e, returns toy_env toy_sched (toy_file [(id_v31, toy_block [toy_signer3 kB toy_digest 33 40 33 40 []])]) 28 40 toy_zip res (Some e)) /\
  (exists res e, returns toy_env toy_sched (toy_file [(id_v3, toy_block [toy_signer3 kA toy_digest 24 31 24 31 []]); (id_v31, toy_block [toy_signer3 kB toy_digest 33 40 33 40 []])]) 28 40 toy_zip res (Some e)) /\
  (exists res e, returns toy_env toy_sched (toy_file [(id_v3, toy_block [toy_signer3 kA toy_digest 24 32 24 32 [(0x559f8b02, le32 34)]]); (id_v31, toy_block [toy_signer3 kB toy_digest 33 40 33 40 []])]) 28 40 toy_zip res (Some e)).
Proof. split; [|split]; eexists _, _; eexists; (split; [vm_compute; reflexivity | split; reflexivity]). Qed.
