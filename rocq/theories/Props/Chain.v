(** C103-C107: certificate chains, host names, name constraints, key usages and signature checks of the certificate package. *)
From Coq Require Import Lia ZifyBool.
From Verif.Model Require Import Bytes Env GoStrings Chain.
From Verif.Spec Require Import Chain.
From Verif.Proofs Require Import BytesFacts ChainFacts ChainBuild ChainFind.
From Verif.Examples Require Import Toy.

Lemma leaf_checked V o c : forall chs, verifyChains V o c = (chs, None) -> leaf_ok V o c /\
  exists cand, (if poolContains (vo_roots o) c then ([[c]], None)
                else let '(ch, err, _) := buildChains V o (S (List.length (cp_certs (vo_inter o)))) [] c [c] in (ch, err)) = (cand, None) /\
  let ku := match vo_usages o with [] => [ekuServerAuth] | u => u end in
  (In ekuAny ku /\ chs = cand \/ chs <> [] /\ chs = filter (fun ch => checkChainForKeyUsage ch ku) cand).
Proof.
  intros chs H. unfold verifyChains in H. cbv zeta in H.
  destruct (zlen (vc_raw c) =? 0) eqn:E1; [discriminate|]. destruct (existsb _ (cp_certs (vo_inter o))) eqn:E2; [discriminate|].
  destruct (0 <? vc_unhandled c) eqn:E3; [discriminate|].
  destruct (isValid V o c LeafCertificate []) eqn:E4; [discriminate|]. apply isValid_leaf in E4. destruct E4 as (E4 & E5).
  destruct ((0 <? zlen (vo_dns o)) && negb (verifyHostname V c (vo_dns o))) eqn:E6; [discriminate|].
  split.
  - split; [intros E; rewrite E in E1; discriminate|]. split; [lia|]. split; [exact E4|]. split; [exact E5|]. intros HN. apply verifyHostname_iff.
    destruct (verifyHostname V c (vo_dns o)); [reflexivity|]. exfalso. destruct (vo_dns o) as [|d0 d1]; [contradiction|]. rewrite zlen_cons in E6. pose proof (zlen_nonneg d1). cbn [negb] in E6. lia.
  - destruct (if poolContains (vo_roots o) c then ([[c]], None)
                else let '(ch, err, _) := buildChains V o (S (List.length (cp_certs (vo_inter o)))) [] c [c] in (ch, err)) as [cand [e|]]; [discriminate|].
    exists cand. split; [reflexivity|]. cbv zeta. set (ku := match vo_usages o with [] => [ekuServerAuth] | u => u end) in *.
    destruct (existsb (fun u => u =? ekuAny) ku) eqn:E7.
    + injection H as <-. left. split; [|reflexivity]. apply existsb_exists in E7. destruct E7 as (x & HI & HX). replace ekuAny with x by lia. exact HI.
    + destruct (filter _ cand) as [|ch0 l] eqn:EF; [discriminate|]. injection H as <-. right. split; [discriminate|reflexivity].
Qed.

(** C103.  Every chain that Verify returns is one: from the leaf through intermediates of the given pool, each certificate signed
    by the next one, all of them current, allowed for the name and as signers, no path longer than a CA permits, up to a root of
    the given pool (or the leaf is itself such a root); the leaf is for the host; one of the requested usages is allowed by all. *)
Theorem C103_chain_sound : forall V o lr li leaf chains path,
  vo_roots o = poolOf lr -> vo_inter o = poolOf li -> verifyChains V o leaf = (chains, None) -> In path chains ->
  leaf_ok V o leaf /\ trusted_path V o lr li leaf path /\ (~ In (-1) (vo_usages o) -> usage_ok (vo_usages o) path).
Proof.
  intros V o lr li leaf chains path HR HI HV HP. apply leaf_checked in HV. destruct HV as (HL & cand & HC & HU). cbv zeta in HU.
  split; [exact HL|].
  assert (HIn : In path cand).
  { destruct HU as [(_ & ->)|(_ & ->)]; [exact HP|]. apply filter_In in HP. apply HP. }
  assert (HOR : pool_ok (vo_roots o)) by (rewrite HR; apply poolOf_ok).
  assert (HOI : pool_ok (vo_inter o)) by (rewrite HI; apply poolOf_ok).
  assert (HT : trusted_path V o lr li leaf path).
  { destruct (poolContains (vo_roots o) leaf) eqn:EC.
    - injection HC as <-. destruct HIn as [<-|[]]. left. split; [reflexivity|]. apply (poolContains_iff _ leaf HOR) in EC.
      destruct EC as (x & Hx & H1). exists x. split; [|exact H1]. rewrite HR in Hx. apply poolOf_in. exact Hx.
    - right. assert (HP0 : partial_path V o leaf ([] ++ [leaf])).
      { exists []. split; [reflexivity|]. split; [constructor|]. split; [cbn; constructor; [intros []|constructor]|]. intros i child parent H1 H2. destruct i; discriminate || (destruct i; discriminate). }
      pose proof (buildChains_sound V o HOR HOI leaf (S (List.length (cp_certs (vo_inter o)))) [] [] leaf HP0 ltac:(intros n chs [])) as HS. cbn [app] in HS.
      destruct (buildChains V o (S (List.length (cp_certs (vo_inter o)))) [] leaf [leaf]) as [[ch err] cache']. injection HC as -> _.
      destruct HS as (HS & _). rewrite Forall_forall in HS. destruct (HS path HIn) as (mids & root & H1 & H2 & H3 & H4). exists mids, root.
      split; [exact H1|]. split; [apply poolOf_in; rewrite <- HR; exact H2|]. split; [|exact H4].
      eapply Forall_impl; [|exact H3]. intros m Hm. cbn beta in *. apply poolOf_in. rewrite <- HI. exact Hm. }
  split; [exact HT|]. intros HM. assert (HKU : forall u, In u (match vo_usages o with [] => [ekuServerAuth] | u0 => u0 end) -> In u (match vo_usages o with [] => [ekuServerAuth] | _ :: _ => vo_usages o end)) by (destruct (vo_usages o); intros u Hu; exact Hu).
  unfold usage_ok. set (ku := match vo_usages o with [] => [ekuServerAuth] | u => u end) in *.
  assert (HKN : ku <> [] /\ ~ In (-1) ku).
  { unfold ku. destruct (vo_usages o); split; try discriminate; [|exact HM]. cbn. intros [C|[]]. discriminate. }
  destruct HKN as (HKN & HKM).
  destruct HU as [(HU & _)|(_ & ->)]; [exists ekuAny; split; [apply HKU, HU|left; reflexivity]|].
  apply filter_In in HP. destruct HP as (_ & HP). apply checkChain_iff in HP; [|exact HKM|exact HKN|].
  - destruct HP as (u & Hu & HF). exists u. split; [apply HKU, Hu|right; exact HF].
  - destruct HT as [(-> & _)|(mids & root & -> & _)]; discriminate.
Qed.
Print Assumptions C103_chain_sound.

(** Without error there is at least one chain, with an error none. *)
Theorem C103_some_or_error : forall V o leaf chains err, verifyChains V o leaf = (chains, err) -> (chains = [] <-> err <> None).
Proof.
  intros V o leaf chains err H. destruct err as [e|].
  - split; [discriminate|]. intros _. unfold verifyChains in H. cbv zeta in H.
    repeat match type of H with (if ?b then _ else _) = _ => destruct b; [injection H as <- _; reflexivity|] end.
    destruct (isValid V o leaf LeafCertificate []); [injection H as <- _; reflexivity|].
    repeat match type of H with (if ?b then _ else _) = _ => destruct b; [injection H as <- _; reflexivity|] end.
    destruct (if poolContains (vo_roots o) leaf then _ else _) as [cand [e'|]]; [injection H as <- _; reflexivity|].
    destruct (existsb _ _); [discriminate|]. destruct (filter _ cand); [injection H as <- _; reflexivity|discriminate].
  - split; [|congruence]. intros ->. exfalso. apply leaf_checked in H. destruct H as (_ & cand & HC & HU). cbv zeta in HU.
    destruct HU as [(_ & HU)|(HU & _)]; [|exact (HU eq_refl)]. subst cand. destruct (poolContains (vo_roots o) leaf); [discriminate|].
    pose proof (buildChains_some V o (S (List.length (cp_certs (vo_inter o)))) [] leaf [leaf]) as HB.
    destruct (buildChains V o (S (List.length (cp_certs (vo_inter o)))) [] leaf [leaf]) as [[ch err] cache']. cbn [fst snd] in HB. injection HC as -> ->.
    apply (proj1 HB); reflexivity.
Qed.
Print Assumptions C103_some_or_error.

(** The search ends: no deeper recursion than there are intermediates, whatever they are. *)
Theorem C103_terminates : forall V o leaf fuel, (List.length (cp_certs (vo_inter o)) < fuel)%nat ->
  buildChains V o fuel [] leaf [leaf] = buildChains V o (S (List.length (cp_certs (vo_inter o)))) [] leaf [leaf] /\
  snd (verifyChains V o leaf) <> Some CvFuel.
Proof.
  intros V o leaf fuel HF. pose proof (avail_le o [leaf]) as HA. split; [apply buildChains_fuel; lia|]. unfold verifyChains. cbv zeta.
  repeat match goal with |- snd (if ?b then _ else _) <> _ => destruct b; [discriminate|] end.
  pose proof (isValid_nofuel V o leaf LeafCertificate []) as H0. destruct (isValid V o leaf LeafCertificate []); [exact H0|].
  repeat match goal with |- snd (if ?b then _ else _) <> _ => destruct b; [discriminate|] end.
  pose proof (buildChains_nofuel V o (S (List.length (cp_certs (vo_inter o)))) [] leaf [leaf] ltac:(lia)) as HB.
  destruct (buildChains V o (S (List.length (cp_certs (vo_inter o)))) [] leaf [leaf]) as [[ch err] cache']. cbn [fst snd] in HB.
  destruct (poolContains (vo_roots o) leaf); [|destruct err; [exact HB|]];
    (destruct (existsb _ _); [discriminate|]; destruct (filter _ _); discriminate).
Qed.
Print Assumptions C103_terminates.

(** C104.  If there is a chain then Verify finds one, provided the encoding determines the certificate, key identifiers agree with
    signatures, there is no limit on the length of paths shorter than the number of intermediates, and any usage will do.
    Missing from the full property: path lengths and usages; see the counterexamples. *)
Theorem C104_chain_found_partial : forall V o lr li leaf path,
  vo_roots o = poolOf lr -> vo_inter o = poolOf li -> leaf_ok V o leaf -> Forall (fun i => vc_raw i <> []) li ->
  raw_determines (leaf :: lr ++ li) -> ids_agree V (leaf :: li) (lr ++ li) -> no_path_limit (lr ++ li) (zlen li) -> In ekuAny (vo_usages o) ->
  trusted_path V o lr li leaf path ->
  exists chains, verifyChains V o leaf = (chains, None) /\ chains <> [].
Proof.
  intros V o lr li leaf path HR HI (HL1 & HL2 & HL3 & HL4 & HL5) HNE HD HA HN HU HP.
  assert (HOR : pool_ok (vo_roots o)) by (rewrite HR; apply poolOf_ok).
  assert (HOI : pool_ok (vo_inter o)) by (rewrite HI; apply poolOf_ok).
  assert (HInR : forall x, In x (cp_certs (vo_roots o)) <-> In x lr).
  { intros x. rewrite HR. split; [apply poolOf_in|]. intros Hx. destruct (poolOf_has lr x Hx) as (y & Hy & Hraw & _).
    rewrite <- (HD y x); [exact Hy| | |exact Hraw]; right; apply in_app_iff; left; [apply poolOf_in, Hy|exact Hx]. }
  assert (HInI : forall x, In x (cp_certs (vo_inter o)) <-> In x li).
  { intros x. rewrite HI. split; [apply poolOf_in|]. intros Hx. destruct (poolOf_has li x Hx) as (y & Hy & Hraw & _).
    rewrite <- (HD y x); [exact Hy| | |exact Hraw]; right; apply in_app_iff; right; [apply poolOf_in, Hy|exact Hx]. }
  assert (HInA : forall x, In x (cp_certs (vo_roots o) ++ cp_certs (vo_inter o)) <-> In x (lr ++ li)).
  { intros x. rewrite !in_app_iff, HInR, HInI. tauto. }
  assert (HB : (exists c0 l, (if poolContains (vo_roots o) leaf then ([[leaf]], None)
                else let '(ch, err, _) := buildChains V o (S (List.length (cp_certs (vo_inter o)))) [] leaf [leaf] in (ch, err)) = (c0 :: l, None))).
  { destruct (poolContains (vo_roots o) leaf) eqn:EC; [exists [leaf], []; reflexivity|].
    assert (HNC : forall r, In r lr -> ~ same_cert r leaf).
    { intros r Hr (S1 & S2). assert (poolContains (vo_roots o) leaf = true); [|congruence]. apply poolContains_iff; [exact HOR|].
      exists r. split; [apply HInR, Hr|split; assumption]. }
    destruct HP as [(_ & r & Hr & HS)|HP]; [destruct (HNC r Hr HS)|].
    assert (HX : fst (fst (buildChains V o (S (List.length (cp_certs (vo_inter o)))) [] leaf [leaf])) <> []).
    { apply (build_finds V o leaf HOR HOI) with (path := path).
      - intros x y Hx Hy Hraw. apply HD; [| |exact Hraw].
        + destruct Hx as [->|Hx]; [left; reflexivity|right; apply HInA, Hx].
        + destruct Hy as [->|Hy]; [left; reflexivity|right; apply HInA, Hy].
      - intros child p Hc Hp HS HK. apply HA; try assumption; [|apply HInA, Hp]. destruct Hc as [->|Hc]; [left; reflexivity|right; apply HInI, Hc].
      - intros p Hp HB HM. rewrite HI. pose proof (poolOf_len li). apply HInA in Hp. pose proof (HN p Hp HB HM). unfold zlen in *. lia.
      - lia.
      - intros C. apply HInR in C. apply (HNC leaf C). split; reflexivity.
      - destruct HP as (mids & root & H1 & H2 & H3 & H4). exists mids, root. split; [exact H1|]. split; [apply HInR, H2|]. split; [|exact H4].
        eapply Forall_impl; [|exact H3]. intros m Hm. cbn beta in *. apply HInI, Hm. }
    pose proof (buildChains_some V o (S (List.length (cp_certs (vo_inter o)))) [] leaf [leaf]) as HB.
    destruct (buildChains V o (S (List.length (cp_certs (vo_inter o)))) [] leaf [leaf]) as [[ch err] cache']. cbn [fst snd] in *.
    destruct ch as [|c0 l]; [contradiction|]. exists c0, l. destruct err as [e|]; [|reflexivity]. assert (HC : c0 :: l = []) by (apply HB; discriminate). discriminate. }
  destruct HB as (c0 & l & HB). exists (c0 :: l). split; [|discriminate]. unfold verifyChains. cbv zeta.
  destruct (zlen (vc_raw leaf) =? 0) eqn:E1; [destruct HL1; apply zlen0; lia|].
  destruct (existsb (fun i => zlen (vc_raw i) =? 0) (cp_certs (vo_inter o))) eqn:E2.
  { apply existsb_exists in E2. destruct E2 as (i & Hi & HZ). apply HInI in Hi. rewrite Forall_forall in HNE. destruct (HNE i Hi). apply zlen0. lia. }
  destruct (0 <? vc_unhandled leaf) eqn:E3; [lia|]. rewrite (proj2 (isValid_leaf V o leaf) (conj HL3 HL4)).
  assert (E6 : (0 <? zlen (vo_dns o)) && negb (verifyHostname V leaf (vo_dns o)) = false).
  { destruct (vo_dns o) eqn:ED; [reflexivity|]. rewrite (proj2 (verifyHostname_iff V leaf _) (HL5 ltac:(discriminate))). apply andb_false_r. }
  rewrite E6, HB. destruct (vo_usages o) as [|u us] eqn:EU; [destruct HU|].
  assert (E7 : existsb (fun u => u =? ekuAny) (u :: us) = true) by (apply existsb_exists; exists ekuAny; split; [exact HU|apply Z.eqb_refl]).
  rewrite E7. reflexivity.
Qed.
Print Assumptions C104_chain_found_partial.

(** A small world: four certificates, signatures as in the toy instance. *)
Definition toy_v : venv := {| v_env := toy_env; v_equal_fold := bytes_eqb; v_parse_ip := fun _ => None; v_ip_equal := bytes_eqb |}.
Definition toy_vcert (raw subject issuer key signer : bytes) (maxlen : Z) (eku : list Z) : vcert :=
  {| vc_raw := raw; vc_raw_tbs := raw; vc_raw_spki := []; vc_raw_subject := subject; vc_raw_issuer := issuer;
     vc_subject_key_id := []; vc_authority_key_id := []; vc_version := 3; vc_bc_valid := true; vc_is_ca := true; vc_max_path_len := maxlen; vc_key_usage := 36;
     vc_known_key := true; vc_key := KRsa key 2048; vc_sig_algo := xSHA256WithRSA; vc_signature := signer ++ toy_hash HSha256 raw;
     vc_not_before := 0; vc_not_after := 10; vc_permitted := []; vc_excluded := []; vc_has_san := true; vc_dns_names := [map z2b [42; 46; 97; 46; 98]];
     vc_ips := []; vc_common_name := []; vc_eku := eku; vc_unknown_eku := 0; vc_unhandled := 0 |}.
(** The leaf; two intermediates of the same name and key, one issued by the other; the root. *)
Definition tv_leaf : vcert := toy_vcert [z2b 1] [z2b 101] [z2b 102] [z2b 201] [z2b 202] (-1) [].
Definition tv_a (eku : list Z) : vcert := toy_vcert [z2b 2] [z2b 102] [z2b 102] [z2b 202] [z2b 202] (-1) eku.
Definition tv_b : vcert := toy_vcert [z2b 3] [z2b 102] [z2b 103] [z2b 202] [z2b 203] (-1) [].
Definition tv_root (maxlen : Z) : vcert := toy_vcert [z2b 4] [z2b 103] [z2b 103] [z2b 203] [z2b 203] maxlen [].
Definition tv_opts (host : bytes) (inters roots : list vcert) (usages : list Z) : voptions :=
  {| vo_dns := host; vo_inter := poolOf inters; vo_roots := poolOf roots; vo_time := 5; vo_usages := usages |}.
(** x.a.b *)
Definition tv_host : bytes := map z2b [120; 46; 97; 46; 98].

Lemma tv_host_ok : for_host toy_v tv_leaf tv_host.
Proof. apply verifyHostname_iff. vm_compute. reflexivity. Qed.
Lemma tv_leaf_ok host inters roots usages : host = [] \/ host = tv_host -> leaf_ok toy_v (tv_opts host inters roots usages) tv_leaf.
Proof.
  intros H. split; [discriminate|]. split; [cbn; lia|]. split; [split; cbn; lia|]. split; [split; [left; reflexivity|intros k []]|].
  cbn [vo_dns tv_opts]. intros HN. destruct H as [->|H]; [contradiction|]. rewrite H. exact tv_host_ok.
Qed.
Lemma tv_chain host inters maxlen usages : In tv_b inters -> maxlen = -1 \/ maxlen = 1 ->
  valid_chain toy_v (tv_opts host inters [tv_root maxlen] usages) [tv_root maxlen] inters tv_leaf [tv_leaf; tv_b; tv_root maxlen].
Proof.
  intros HB HM. exists [tv_b], (tv_root maxlen). split; [reflexivity|]. split; [left; reflexivity|]. split; [constructor; [exact HB|constructor]|].
  split; [change (NoDup [[z2b 1]; [z2b 3]; [z2b 4]]); repeat (apply NoDup_cons; [vm_compute; intuition discriminate|]); apply NoDup_nil|]. split.
  - intros [|[|i]] child parent H1 H2; cbn in H1, H2; [| |destruct i; discriminate];
      injection H1 as <-; injection H2 as <-; (split; [apply checkSignatureFrom_iff; vm_compute; reflexivity|]); (split; [reflexivity|]);
      (split; [split; cbn; lia|]); (split; [split; [left; reflexivity|intros k []]|]); intros _ HP; cbn in HP |- *; lia.
  - constructor; [split; reflexivity|constructor].
Qed.

Theorem C103_nonvacuous :
  verifyChains toy_v (tv_opts tv_host [tv_b] [tv_root 1] []) tv_leaf = ([[tv_leaf; tv_b; tv_root 1]], None) /\
  verifyChains toy_v (tv_opts [] [] [tv_root 1] []) (tv_root 1) = ([[tv_root 1]], None) /\
  snd (verifyChains toy_v (tv_opts tv_host [] [tv_root 1] []) tv_leaf) = Some CvUnknownAuthority /\
  snd (verifyChains toy_v (tv_opts tv_host [tv_b] [tv_root 0] []) tv_leaf) = Some CvTooManyIntermediates /\
  snd (verifyChains toy_v (tv_opts (map z2b [97; 46; 98]) [tv_b] [tv_root 1] []) tv_leaf) = Some CvHostname.
Proof. repeat split; vm_compute; reflexivity. Qed.
Print Assumptions C103_nonvacuous.

Lemma tv_det eku maxlen : raw_determines [tv_leaf; tv_root maxlen; tv_a eku; tv_b].
Proof.
  intros x y Hx Hy E. cbn [In] in Hx, Hy.
  destruct Hx as [<-|[<-|[<-|[<-|[]]]]], Hy as [<-|[<-|[<-|[<-|[]]]]]; try reflexivity; cbn in E; discriminate.
Qed.

Theorem C104_nonvacuous : let li := [tv_a []; tv_b] in let lr := [tv_root (-1)] in let o := tv_opts tv_host li lr [ekuAny] in
  leaf_ok toy_v o tv_leaf /\ raw_determines (tv_leaf :: lr ++ li) /\ ids_agree toy_v (tv_leaf :: li) (lr ++ li) /\ no_path_limit (lr ++ li) (zlen li) /\
  trusted_path toy_v o lr li tv_leaf [tv_leaf; tv_b; tv_root (-1)].
Proof.
  cbv zeta. split; [apply tv_leaf_ok; right; reflexivity|]. split; [apply tv_det|].
  split; [intros c p Hc _ _ HK; exfalso; apply HK; cbn [In] in Hc; destruct Hc as [<-|[<-|[<-|[]]]]; reflexivity|].
  split; [intros p Hp HB HM; cbn [In app] in Hp; destruct Hp as [<-|[<-|[<-|[]]]]; cbn in HM; lia|].
  right. apply tv_chain; [right; left; reflexivity|left; reflexivity].
Qed.
Print Assumptions C104_nonvacuous.

(** Chains below an intermediate are remembered, with what lay below it at the time.  Leaf, B, root is a chain of the length the root allows;
    but B is first tried with A before it, which is too long, and not again ... *)
Theorem C104_path_length_refuted : exists V o lr li leaf path,
  vo_roots o = poolOf lr /\ vo_inter o = poolOf li /\ leaf_ok V o leaf /\ Forall (fun i => vc_raw i <> []) li /\
  raw_determines (leaf :: lr ++ li) /\ ids_agree V (leaf :: li) (lr ++ li) /\ In ekuAny (vo_usages o) /\
  trusted_path V o lr li leaf path /\ verifyChains V o leaf = ([], Some CvUnknownAuthority).
Proof.
  exists toy_v, (tv_opts tv_host [tv_a []; tv_b] [tv_root 1] [ekuAny]), [tv_root 1], [tv_a []; tv_b], tv_leaf, [tv_leaf; tv_b; tv_root 1].
  split; [reflexivity|]. split; [reflexivity|]. split; [apply tv_leaf_ok; right; reflexivity|].
  split; [constructor; [discriminate|constructor; [discriminate|constructor]]|]. split; [apply tv_det|].
  split; [intros c p Hc _ _ HK; exfalso; apply HK; cbn [In] in Hc; destruct Hc as [<-|[<-|[<-|[]]]]; reflexivity|].
  split; [left; reflexivity|]. split; [right; apply tv_chain; [right; left; reflexivity|right; reflexivity]|]. vm_compute. reflexivity.
Qed.
Print Assumptions C104_path_length_refuted.

(** ... and the only chains reported are those through A, which is not for servers. *)
Theorem C104_usage_refuted : exists V o lr li leaf path,
  vo_roots o = poolOf lr /\ vo_inter o = poolOf li /\ leaf_ok V o leaf /\ Forall (fun i => vc_raw i <> []) li /\
  raw_determines (leaf :: lr ++ li) /\ ids_agree V (leaf :: li) (lr ++ li) /\ no_path_limit (lr ++ li) (zlen li) /\
  trusted_path V o lr li leaf path /\ usage_ok (vo_usages o) path /\ verifyChains V o leaf = ([], Some CvIncompatibleUsage).
Proof.
  exists toy_v, (tv_opts tv_host [tv_a [2]; tv_b] [tv_root (-1)] []), [tv_root (-1)], [tv_a [2]; tv_b], tv_leaf, [tv_leaf; tv_b; tv_root (-1)].
  split; [reflexivity|]. split; [reflexivity|]. split; [apply tv_leaf_ok; right; reflexivity|].
  split; [constructor; [discriminate|constructor; [discriminate|constructor]]|]. split; [apply tv_det|].
  split; [intros c p Hc _ _ HK; exfalso; apply HK; cbn [In] in Hc; destruct Hc as [<-|[<-|[<-|[]]]]; reflexivity|].
  split; [intros p Hp HB HM; cbn [In app] in Hp; destruct Hp as [<-|[<-|[<-|[]]]]; cbn in HM; lia|].
  split; [right; apply tv_chain; [right; left; reflexivity|left; reflexivity]|].
  split; [exists ekuServerAuth; split; [left; reflexivity|right]; repeat constructor; left; split; reflexivity|]. vm_compute. reflexivity.
Qed.
Print Assumptions C104_usage_refuted.

(** C105.  VerifyHostname: an address must be one of the certificate's, a name must be covered by one of its names, ignoring case
    and a final dot, label by label; only a first label that is a star stands for another one. *)
Theorem C105_hostname : forall V c h, verifyHostname V c h = true <-> for_host V c h.
Proof. exact verifyHostname_iff. Qed.
Print Assumptions C105_hostname.
(** A star covers exactly one label: never the domain itself, never deeper names. *)
Theorem C105_star : forall p h rest lh, Forall label rest -> Forall label lh -> rest <> [] -> List.last rest [] <> [] -> List.last lh [] <> [] ->
  p = dotted ([z2b 42] :: rest) -> h = dotted lh -> (matchHostnames p h = true <-> exists x, lh = x :: rest).
Proof.
  assert (HLast : forall l, l <> [] -> Forall label l -> List.last l [] <> [] -> no_final_dot (dotted l) (dotted l)).
  { intros l HN HF HL. right. split; [reflexivity|]. intros u E.
    assert (HD : exists a, dotted l = a ++ List.last l []).
    { clear - HN. induction l as [|x [|y t] IH]; [contradiction|exists []; reflexivity|]. destruct (IH ltac:(discriminate)) as (a & Ha).
      exists (x ++ dot :: a). change (dotted (x :: y :: t)) with (x ++ dot :: dotted (y :: t)). rewrite Ha, <- app_assoc. reflexivity. }
    destruct HD as (a & Ha). rewrite Ha in E. destruct (exists_last HL) as (z & b & Hb). rewrite Hb, app_assoc in E. apply app_inj_tail in E. destruct E as (_ & ->).
    assert (HI : In (List.last l []) l) by (clear - HN; induction l as [|x [|y t] IH]; [contradiction|left; reflexivity|right; apply IH; discriminate]).
    rewrite Forall_forall in HF. apply (HF _ HI). rewrite Hb. apply in_app_iff. right. left. reflexivity. }
  intros p h rest lh HR HH HN HL HLH -> ->.
  assert (HF : Forall label ([z2b 42] :: rest)) by (constructor; [intros [E|[]]; discriminate E|exact HR]).
  assert (HLS : List.last ([z2b 42] :: rest) [] = List.last rest []) by (destruct rest; [contradiction|reflexivity]).
  pose proof (HLast ([z2b 42] :: rest) ltac:(discriminate) HF ltac:(rewrite HLS; exact HL)) as D1.
  assert (HHN : lh <> []) by (intros ->; apply HLH; reflexivity).
  pose proof (HLast lh HHN HH HLH) as D2.
  rewrite matchHostnames_iff. split.
  - intros (p' & h' & lp' & lh' & P1 & P2 & _ & _ & E1 & E2 & F1 & F2 & H).
    apply trimDot_iff in D1, D2, P1, P2. rewrite D1 in P1. rewrite D2 in P2. subst p' h'.
    assert (lp' <> [] /\ lh' <> []) as (M1 & M2) by (destruct H as [(-> & ?)|(x & r & -> & ->)]; split; try assumption; discriminate).
    assert (lp' = [z2b 42] :: rest) as -> by (rewrite <- (dotted_split lp'), <- E1 by assumption; apply dotted_split; [discriminate|exact HF]).
    assert (lh' = lh) as -> by (rewrite <- (dotted_split lh'), <- E2 by assumption; apply dotted_split; assumption).
    destruct H as [(<- & _)|(x & r & [= <-] & ->)]; [exists [z2b 42]; reflexivity|exists x; reflexivity].
  - intros (x & E). exists (dotted ([z2b 42] :: rest)), (dotted lh), ([z2b 42] :: rest), lh. split; [exact D1|]. split; [exact D2|].
    split; [destruct rest; discriminate|]. split; [|split; [reflexivity|]; split; [reflexivity|]; split; [exact HF|]; split; [exact HH|]; right; exists x, rest; split; [reflexivity|exact E]].
    intros C. rewrite E in C. destruct rest as [|r0 r1]; [contradiction|]. change (dotted (x :: r0 :: r1)) with (x ++ dot :: dotted (r0 :: r1)) in C. destruct x; discriminate.
Qed.
Print Assumptions C105_star.
Theorem C105_nonvacuous : for_host toy_v tv_leaf tv_host /\ ~ for_host toy_v tv_leaf (map z2b [97; 46; 98]) /\ ~ for_host toy_v tv_leaf (map z2b [121; 46; 120; 46; 97; 46; 98]) /\
  for_host toy_v tv_leaf (map z2b [88; 46; 65; 46; 98; 46]).
Proof.
  split; [exact tv_host_ok|]. split; [intros H; apply verifyHostname_iff in H; vm_compute in H; discriminate|].
  split; [intros H; apply verifyHostname_iff in H; vm_compute in H; discriminate|apply verifyHostname_iff; vm_compute; reflexivity].
Qed.
Print Assumptions C105_nonvacuous.

(** C106.  A name constraint covers exactly the domain and the names below it (only the latter with a leading dot). *)
Theorem C106_constraint : forall V d k, matchNameConstraint V d k = true <-> constraint_covers V d k.
Proof. exact matchNameConstraint_iff. Qed.
Print Assumptions C106_constraint.
Theorem C106_nonvacuous : constraint_covers toy_v tv_host (map z2b [97; 46; 98]) /\ constraint_covers toy_v tv_host (map z2b [46; 97; 46; 98]) /\
  ~ constraint_covers toy_v (map z2b [120; 97; 46; 98]) (map z2b [97; 46; 98]) /\ ~ constraint_covers toy_v (map z2b [97; 46; 98]) (map z2b [46; 97; 46; 98]).
Proof.
  split; [apply matchNameConstraint_iff; vm_compute; reflexivity|]. split; [apply matchNameConstraint_iff; vm_compute; reflexivity|].
  split; intros H; apply matchNameConstraint_iff in H; vm_compute in H; discriminate.
Qed.
Print Assumptions C106_nonvacuous.

(** C107.  CheckSignature and CheckSignatureFrom accept exactly signatures of the message under the key, by a certificate that
    may sign others. *)
Theorem C107_check_signature_partial : forall V algo msg sig key, xCheckSignature V algo msg sig key = true <-> x_signature (v_env V) algo msg sig key.
Proof. exact xCheckSignature_iff. Qed.
Print Assumptions C107_check_signature_partial.
Theorem C107_signed_by_partial : forall V c p, checkSignatureFrom V c p = true <-> signed_by V c p.
Proof. exact checkSignatureFrom_iff. Qed.
Print Assumptions C107_signed_by_partial.
(** The algorithm's kind of key is not compared with the key: an "ECDSA" signature can be an RSA one ... *)
Theorem C107_key_kind_refuted : exists V msg sig k, xCheckSignature V xECDSAWithSHA256 msg sig (KRsa k 2048) = true.
Proof. exists toy_v, [], (toy_hash HSha256 []), []. vm_compute. reflexivity. Qed.
Print Assumptions C107_key_kind_refuted.
(** ... and a certificate that is no CA is accepted as issuer of any certificate with the key of one old Entrust root. *)
Theorem C107_not_a_ca_refuted : exists V c p, vc_bc_valid p = true /\ vc_is_ca p = false /\ checkSignatureFrom V c p = true.
Proof.
  set (d := toy_hash HSha256 []).
  exists toy_v,
   {| vc_raw := []; vc_raw_tbs := []; vc_raw_spki := entrustBrokenSPKI; vc_raw_subject := []; vc_raw_issuer := []; vc_subject_key_id := []; vc_authority_key_id := [];
      vc_version := 3; vc_bc_valid := false; vc_is_ca := false; vc_max_path_len := -1; vc_key_usage := 0; vc_known_key := true; vc_key := KRsa [] 2048;
      vc_sig_algo := xSHA256WithRSA; vc_signature := d; vc_not_before := 0; vc_not_after := 0; vc_permitted := []; vc_excluded := []; vc_has_san := false;
      vc_dns_names := []; vc_ips := []; vc_common_name := []; vc_eku := []; vc_unknown_eku := 0; vc_unhandled := 0 |},
   {| vc_raw := []; vc_raw_tbs := []; vc_raw_spki := []; vc_raw_subject := []; vc_raw_issuer := []; vc_subject_key_id := []; vc_authority_key_id := [];
      vc_version := 3; vc_bc_valid := true; vc_is_ca := false; vc_max_path_len := -1; vc_key_usage := 0; vc_known_key := true; vc_key := KRsa [] 2048;
      vc_sig_algo := xSHA256WithRSA; vc_signature := []; vc_not_before := 0; vc_not_after := 0; vc_permitted := []; vc_excluded := []; vc_has_san := false;
      vc_dns_names := []; vc_ips := []; vc_common_name := []; vc_eku := []; vc_unknown_eku := 0; vc_unhandled := 0 |}.
  split; [reflexivity|]. split; [reflexivity|]. vm_compute. reflexivity.
Qed.
Print Assumptions C107_not_a_ca_refuted.

(** C108.  A pool holds the certificates added to it, and is searched for issuers by key identifier, else by name. *)
Theorem C108_contains : forall l c, poolContains (poolOf l) c = true <-> exists x, In x l /\ same_cert x c.
Proof.
  intros l c. rewrite (poolContains_iff _ c (poolOf_ok l)). unfold same_cert. split.
  - intros (x & Hx & H1 & H2). exists x. split; [apply poolOf_in, Hx|split; assumption].
  - intros (x & Hx & H1 & H2). destruct (poolOf_has l x Hx) as (y & Hy & H3 & H4). exists y. split; [exact Hy|split; congruence].
Qed.
Print Assumptions C108_contains.
Theorem C108_issuers : forall V l c p, raw_determines l ->
  ((exists n, In n (findVerifiedParents V (poolOf l) c) /\ nth_error (cp_certs (poolOf l)) n = Some p) <-> issuer_candidate l c p /\ signed_by V c p).
Proof.
  intros V l c p HD.
  assert (HIn : forall x, In x (cp_certs (poolOf l)) <-> In x l).
  { intros x. split; [apply poolOf_in|]. intros Hx. destruct (poolOf_has l x Hx) as (y & Hy & H1 & _). rewrite <- (HD y x); [exact Hy|apply poolOf_in, Hy|exact Hx|exact H1]. }
  assert (HC : issuer_candidate (cp_certs (poolOf l)) c p <-> issuer_candidate l c p).
  { unfold issuer_candidate. rewrite HIn. split; intros (H1 & [H2|([H2|H2] & H3)]); (split; [exact H1|]); try (left; exact H2); right; (split; [|exact H3]);
      try (left; exact H2); right; intros x Hx; apply H2; apply HIn; exact Hx. }
  rewrite <- HC. split.
  - intros (n & Hn & Hp). apply parents_iff in Hn; [|apply poolOf_ok]. destruct Hn as (q & Hq & H). rewrite Hq in Hp. injection Hp as <-. exact H.
  - intros (H1 & H2). pose proof H1 as (HI & _). apply In_nth_error in HI. destruct HI as (n & Hn). exists n. split; [|exact Hn].
    apply parents_iff; [apply poolOf_ok|]. exists p. split; [exact Hn|split; assumption].
Qed.
Print Assumptions C108_issuers.
(** No certificate twice. *)
Theorem C108_no_duplicates : forall l i j x y, nth_error (cp_certs (poolOf l)) i = Some x -> nth_error (cp_certs (poolOf l)) j = Some y -> same_cert x y -> i = j.
Proof.
  intros l. unfold poolOf. assert (HG : forall s, pool_ok s -> (forall i j x y, nth_error (cp_certs s) i = Some x -> nth_error (cp_certs s) j = Some y -> same_cert x y -> i = j) ->
    forall i j x y, nth_error (cp_certs (fold_left addCert l s)) i = Some x -> nth_error (cp_certs (fold_left addCert l s)) j = Some y -> same_cert x y -> i = j).
  { induction l as [|c l IH]; intros s HO HS; [exact HS|]. cbn [fold_left]. apply IH; [apply addCert_ok, HO|].
    unfold addCert. destruct (poolContains s c) eqn:EC; [exact HS|]. cbn [cp_certs].
    assert (HN : forall x, In x (cp_certs s) -> ~ same_cert x c).
    { intros x Hx HC. assert (poolContains s c = true); [|congruence]. apply poolContains_iff; [exact HO|]. exists x. split; [exact Hx|exact HC]. }
    intros i j x y Hi Hj HC. apply nth_app_last in Hi, Hj. destruct Hi as [Hi|(-> & ->)], Hj as [Hj|(-> & ->)].
    - exact (HS i j x y Hi Hj HC).
    - destruct (HN x); [eapply nth_error_In; exact Hi|exact HC].
    - destruct (HN y); [eapply nth_error_In; exact Hj|]. destruct HC. split; congruence.
    - reflexivity. }
  apply (HG newCertPool); [apply newCertPool_ok|]. intros [|i] j x y H; discriminate.
Qed.
Print Assumptions C108_no_duplicates.
Theorem C108_nonvacuous : cp_certs (poolOf [tv_a []; tv_b; tv_a []]) = [tv_a []; tv_b] /\ poolContains (poolOf [tv_a []; tv_b]) tv_leaf = false /\
  issuer_candidate [tv_a []; tv_b] tv_leaf tv_b /\ signed_by toy_v tv_leaf tv_b.
Proof.
  split; [vm_compute; reflexivity|]. split; [vm_compute; reflexivity|]. split; [|apply checkSignatureFrom_iff; vm_compute; reflexivity].
  split; [right; left; reflexivity|]. right. split; [left; reflexivity|reflexivity].
Qed.
Print Assumptions C108_nonvacuous.
