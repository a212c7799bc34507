(** Signatures, names, hosts, usages and pools of certificate chains. *)
From Coq Require Import Lia ZifyBool.
From Verif.Model Require Import Bytes Env GoStrings Chain.
From Verif.Spec Require Import Chain.
From Verif.Proofs Require Import BytesFacts ManifestFacts V1DigestFacts.

(** ** Signatures *)
Ltac split_or := repeat match goal with H : _ \/ _ |- _ => destruct H as [H|H] | H : False |- _ => destruct H end.

Definition hash_of (algo : Z) : option hash_id :=
  if (algo =? xSHA1WithRSA) || (algo =? xDSAWithSHA1) || (algo =? xECDSAWithSHA1) then Some HSha1
  else if (algo =? xSHA256WithRSA) || (algo =? xSHA256WithRSAPSS) || (algo =? xDSAWithSHA256) || (algo =? xECDSAWithSHA256) then Some HSha256
  else if (algo =? xSHA384WithRSA) || (algo =? xSHA384WithRSAPSS) || (algo =? xECDSAWithSHA384) then Some HSha384
  else if (algo =? xSHA512WithRSA) || (algo =? xSHA512WithRSAPSS) || (algo =? xECDSAWithSHA512) then Some HSha512
  else None.

Lemma hash_of_iff a h : hash_of a = Some h <-> algo_hash a h.
Proof.
  split.
  - unfold hash_of. intros H.
    destruct ((a =? xSHA1WithRSA) || (a =? xDSAWithSHA1) || (a =? xECDSAWithSHA1)) eqn:E1.
    { injection H as <-. constructor. cbn [In]. lia. }
    destruct ((a =? xSHA256WithRSA) || (a =? xSHA256WithRSAPSS) || (a =? xDSAWithSHA256) || (a =? xECDSAWithSHA256)) eqn:E2.
    { injection H as <-. constructor. cbn [In]. lia. }
    destruct ((a =? xSHA384WithRSA) || (a =? xSHA384WithRSAPSS) || (a =? xECDSAWithSHA384)) eqn:E3.
    { injection H as <-. constructor. cbn [In]. lia. }
    destruct ((a =? xSHA512WithRSA) || (a =? xSHA512WithRSAPSS) || (a =? xECDSAWithSHA512)) eqn:E4; [|discriminate].
    injection H as <-. constructor. cbn [In]. lia.
  - intros H. destruct H as [a H|a H|a H|a H]; cbn [In] in H; split_or; subst; reflexivity.
Qed.

Lemma isRSAPSS_iff a : isRSAPSS a = true <-> pss_algo a.
Proof. unfold isRSAPSS, pss_algo. cbn [In]. lia. Qed.

Lemma rs_check (o : option (Z * Z * bool)) (f : Z -> Z -> bool) :
  (match o with None => false | Some (_, _, true) => false | Some (r, s, false) => if (r <=? 0) || (s <=? 0) then false else f r s end = true)
  <-> exists r s, o = Some (r, s, false) /\ 0 < r /\ 0 < s /\ f r s = true.
Proof.
  destruct o as [[[r s] [|]]|].
  - split; [discriminate|]. intros (? & ? & ? & _). discriminate.
  - destruct ((r <=? 0) || (s <=? 0)) eqn:E.
    + split; [discriminate|]. intros (r' & s' & [= <- <-] & ? & ? & _). lia.
    + split; [intros H; exists r, s; repeat split; [lia|lia|exact H]|]. intros (r' & s' & [= <- <-] & _ & _ & H). exact H.
  - split; [discriminate|]. intros (? & ? & ? & _). discriminate.
Qed.

Lemma xCheckSignature_iff V algo msg sig key : xCheckSignature V algo msg sig key = true <-> x_signature (v_env V) algo msg sig key.
Proof.
  unfold xCheckSignature, x_signature. fold (hash_of algo). cbv zeta.
  destruct (hash_of algo) as [h|] eqn:EH.
  - pose proof EH as EH0. apply hash_of_iff in EH.
    assert (HU : forall h', algo_hash algo h' -> h' = h).
    { intros h' Hh'. apply hash_of_iff in Hh'. congruence. }
    destruct key as [k|k|k|k].
    + destruct (isRSAPSS algo) eqn:EP.
      * apply isRSAPSS_iff in EP. split.
        -- intros H. exists h. split; [exact EH|]. left. split; assumption.
        -- intros (h' & Hh' & [[_ H]|[H _]]); [|contradiction]. rewrite (HU h' Hh') in H. exact H.
      * assert (EP' : ~ pss_algo algo) by (rewrite <- isRSAPSS_iff; congruence). split.
        -- intros H. exists h. split; [exact EH|]. right. split; assumption.
        -- intros (h' & Hh' & [[H _]|[_ H]]); [contradiction|]. rewrite (HU h' Hh') in H. exact H.
    + pose proof (rs_check (e_asn1_rs_andr (v_env V) sig) (fun r s => e_dsa (v_env V) k (e_hash (v_env V) h msg) r s)) as HR. cbv beta in HR. etransitivity; [exact HR|]. clear HR. split.
      * intros H. exists h. split; assumption.
      * intros (h' & Hh' & H). rewrite (HU h' Hh') in H. exact H.
    + pose proof (rs_check (e_asn1_rs_andr (v_env V) sig) (fun r s => e_ecdsa (v_env V) k (e_hash (v_env V) h msg) r s)) as HR. cbv beta in HR. etransitivity; [exact HR|]. clear HR. split.
      * intros H. exists h. split; assumption.
      * intros (h' & Hh' & H). rewrite (HU h' Hh') in H. exact H.
    + split; [discriminate|]. intros (_ & _ & []).
  - split; [discriminate|]. intros (h & Hh & _). apply hash_of_iff in Hh. congruence.
Qed.

Lemma land32 k : (Z.land k 32 =? 0) = negb (Z.testbit k 5).
Proof.
  destruct (Z.testbit k 5) eqn:E; cbn.
  - apply Z.eqb_neq. intros H. apply (f_equal (fun z => Z.testbit z 5)) in H. rewrite Z.land_spec, E in H. discriminate.
  - apply Z.eqb_eq. apply Z.bits_inj'. intros n Hn. rewrite Z.land_spec, Z.bits_0.
    destruct (Z.eq_dec n 5) as [->|Hne]; [rewrite E; reflexivity|].
    change 32 with (2 ^ 5). rewrite Z.pow2_bits_false by lia. apply andb_false_r.
Qed.

Lemma checkSignatureFrom_iff V c p : checkSignatureFrom V c p = true <-> signed_by V c p.
Proof.
  unfold checkSignatureFrom, signed_by. rewrite <- xCheckSignature_iff. unfold ca_like, may_sign, keyUsageCertSign. rewrite land32.
  destruct (bytes_eqb (vc_raw_spki c) entrustBrokenSPKI) eqn:EE.
  - apply bytes_eqb_eq in EE. rewrite andb_false_r.
    destruct (vc_key_usage p =? 0) eqn:EK; cbn [negb andb];
    [|destruct (Z.testbit (vc_key_usage p) 5) eqn:ET; cbn [negb]];
    destruct (vc_known_key p) eqn:EN; cbn [negb]; rewrite ?EK, ?ET; split; try discriminate; try (intros H; intuition lia); intros H; intuition (try lia; try discriminate).
  - apply bytes_eqb_neq in EE.
    destruct (vc_version p =? 3) eqn:E3, (vc_bc_valid p) eqn:EB, (vc_is_ca p) eqn:EC;
    destruct (vc_key_usage p =? 0) eqn:EK; cbn [negb andb orb];
    try (destruct (Z.testbit (vc_key_usage p) 5) eqn:ET; cbn [negb]);
    destruct (vc_known_key p) eqn:EN; cbn [negb]; rewrite ?EK, ?ET;
    (split; [try discriminate; intros H | intros ([(H1 & H2)|H1] & [H3|H3] & H4 & H5); try contradiction; try exact H5; try discriminate; try lia]);
    try (repeat split; first [lia|left; split; intros; first [lia|reflexivity|discriminate] |idtac]); intuition (try lia; try discriminate).
Qed.

(** ** Name constraints *)
Lemma zlen0 {A} (l : list A) : zlen l = 0 -> l = [].
Proof. destruct l; [reflexivity|]. rewrite zlen_cons. pose proof (zlen_nonneg l). lia. Qed.
Lemma nth_error_pre (pre tail : bytes) n : pre <> [] -> n = zlen pre -> exists b pre', pre = pre' ++ [b] /\ nth_error (pre ++ tail) (Z.to_nat (n - 1)) = Some b.
Proof.
  intros HN ->. destruct (exists_last HN) as (pre' & b & ->). exists b, pre'. split; [reflexivity|].
  rewrite zlen_app. change (zlen [b]) with 1. rewrite Z.add_simpl_r. unfold zlen. rewrite Nat2Z.id, <- app_assoc.
  rewrite nth_error_app2, Nat.sub_diag by lia. reflexivity.
Qed.

Lemma b2z_dot b : (b2z b =? 46) = true <-> b = dot.
Proof. unfold dot. split; [|intros ->; reflexivity]. intros H. apply b2z_inj. change (b2z (z2b 46)) with 46. lia. Qed.

Lemma matchNameConstraint_iff V d k : matchNameConstraint V d k = true <-> constraint_covers V d k.
Proof.
  unfold matchNameConstraint, constraint_covers. destruct k as [|c0 k0]; [split; [left; reflexivity|reflexivity]|].
  set (k := c0 :: k0) in *. cbv zeta.
  destruct (zlen d <? zlen k) eqn:EL.
  { split; [discriminate|]. intros [H|(pre & tail & -> & HL & _)]; [discriminate|]. rewrite zlen_app in EL. pose proof (zlen_nonneg pre). lia. }
  set (n := zlen d - zlen k). assert (Hn : 0 <= n <= zlen d) by (pose proof (zlen_nonneg k); lia).
  assert (HD : d = takeZ n d ++ dropZ n d) by (symmetry; apply take_drop).
  assert (HT : zlen (takeZ n d) = n) by (rewrite zlen_takeZ; lia).
  assert (HS : forall pre tail, d = pre ++ tail -> zlen tail = zlen k -> pre = takeZ n d /\ tail = dropZ n d).
  { intros pre tail -> HL. assert (n = zlen pre) by (unfold n; rewrite zlen_app; lia). rewrite takeZ_app, dropZ_app by assumption. split; reflexivity. }
  destruct (v_equal_fold V (dropZ n d) k) eqn:EF; cbn [negb].
  2: { split; [discriminate|]. intros [H|(pre & tail & E & HL & HF & _)]; [discriminate|]. destruct (HS pre tail E HL) as (-> & ->). congruence. }
  destruct (n =? 0) eqn:E0.
  { split; [|reflexivity]. intros _. right. exists (takeZ n d), (dropZ n d). split; [exact HD|]. split; [rewrite zlen_dropZ; lia|].
    split; [exact EF|]. left. apply zlen0. lia. }
  assert (HN : takeZ n d <> []) by (intros E; rewrite E in HT; change (zlen (@nil byte)) with 0 in HT; lia).
  destruct (nth_error_pre (takeZ n d) (dropZ n d) n HN ltac:(lia)) as (b & pre' & Epre & Enth). rewrite <- HD in Enth. rewrite Enth.
  assert (HC : forall t, (k = dot :: t -> (b2z c0 =? 46) = true)) by (intros t [= -> _]; reflexivity).
  split.
  - intros H. right. exists (takeZ n d), (dropZ n d). split; [exact HD|]. split; [rewrite zlen_dropZ; lia|]. split; [exact EF|]. right.
    destruct (b2z b =? 46) eqn:EB.
    + left. apply b2z_dot in EB. subst b. exists pre'. split; [exact Epre|]. intros t Hk. rewrite (HC _ Hk) in H. discriminate.
    + right. exists pre', b, k0. split; [exact Epre|]. split; [intros ->; discriminate|].
      destruct (b2z c0 =? 46) eqn:EC; [|discriminate]. apply b2z_dot in EC. unfold k. rewrite EC. reflexivity.
  - intros [H|(pre & tail & E & HL & _ & H)]; [discriminate|]. destruct (HS pre tail E HL) as (-> & ->).
    destruct H as [H|[(p1 & H1 & H2)|(p1 & b1 & t & H1 & H2 & H3)]]; [contradiction| |].
    + rewrite Epre in H1. apply app_inj_tail in H1. destruct H1 as (_ & ->). change (b2z dot =? 46) with true.
      destruct (b2z c0 =? 46) eqn:EC; [|reflexivity]. apply b2z_dot in EC. exfalso. apply (H2 k0). unfold k. rewrite EC. reflexivity.
    + rewrite Epre in H1. apply app_inj_tail in H1. destruct H1 as (_ & ->). rewrite (HC _ H3).
      destruct (b2z b1 =? 46) eqn:EB; [|reflexivity]. apply b2z_dot in EB. contradiction.
Qed.

Lemma isallowed_iff V d c :
  (0 <? zlen (vc_permitted c)) && negb (existsb (matchNameConstraint V d) (vc_permitted c)) = false ->
  existsb (matchNameConstraint V d) (vc_excluded c) = false -> name_allowed V d c.
Proof.
  intros H1 H2. split.
  - destruct (vc_permitted c) as [|k l] eqn:E; [left; reflexivity|]. right.
    destruct (existsb (matchNameConstraint V d) (k :: l)) eqn:EX.
    + apply existsb_exists in EX. destruct EX as (x & HI & HM). exists x. split; [exact HI|]. apply matchNameConstraint_iff. exact HM.
    + rewrite zlen_cons in H1. pose proof (zlen_nonneg l). cbn [negb] in H1. lia.
  - intros k HI HC. apply matchNameConstraint_iff in HC.
    assert (existsb (matchNameConstraint V d) (vc_excluded c) = true) by (apply existsb_exists; exists k; split; assumption). congruence.
Qed.
Lemma allowed_conv V d c : name_allowed V d c ->
  (0 <? zlen (vc_permitted c)) && negb (existsb (matchNameConstraint V d) (vc_permitted c)) = false /\
  existsb (matchNameConstraint V d) (vc_excluded c) = false.
Proof.
  intros (H1 & H2). split.
  - destruct H1 as [->|(k & HI & HC)]; [reflexivity|].
    assert (E : existsb (matchNameConstraint V d) (vc_permitted c) = true) by (apply existsb_exists; exists k; split; [exact HI|apply matchNameConstraint_iff; exact HC]).
    rewrite E. apply andb_false_r.
  - destruct (existsb (matchNameConstraint V d) (vc_excluded c)) eqn:E; [|reflexivity]. apply existsb_exists in E. destruct E as (k & HI & HM).
    apply matchNameConstraint_iff in HM. destruct (H2 k HI HM).
Qed.

(** ** Host names *)
Lemma trimDot_iff s t : trimDot s = t <-> no_final_dot s t.
Proof.
  unfold trimDot, no_final_dot. destruct (rev s) as [|b r] eqn:E.
  - apply (f_equal (@rev byte)) in E. rewrite rev_involutive in E. cbn in E. subst s. split.
    + intros <-. right. split; [reflexivity|]. intros u H. destruct u; discriminate.
    + intros [H|(H & _)]; [destruct t; discriminate|exact H].
  - apply (f_equal (@rev byte)) in E. rewrite rev_involutive in E. cbn [rev] in E. subst s.
    destruct (b2z b =? 46) eqn:EB.
    + apply b2z_dot in EB. subst b. split; [intros <-; left; reflexivity|].
      intros [H|(_ & H)]; [apply app_inj_tail in H; destruct H; congruence|]. destruct (H (rev r) eq_refl).
    + split.
      * intros <-. right. split; [reflexivity|]. intros u H. apply app_inj_tail in H. destruct H as (_ & ->). discriminate.
      * intros [H|(H & _)]; [|exact H]. apply app_inj_tail in H. destruct H as (_ & ->). discriminate.
Qed.

Lemma dotted_split l : l <> [] -> Forall label l -> splitDot (dotted l) = l.
Proof.
  unfold splitDot. fold dot. induction l as [|x t IH]; intros HN HF; [contradiction|]. inversion HF as [|? ? Hx Ht]; subst.
  destruct t as [|y t]; cbn [dotted].
  - apply splitByte_nosep. exact Hx.
  - rewrite splitByte_app, (splitByte_nosep x dot Hx). change (match t with [] => y | _ :: _ => y ++ dot :: dotted t end) with (dotted (y :: t)).
    rewrite IH by (try discriminate; assumption). reflexivity.
Qed.
Lemma split_dotted s : dotted (splitDot s) = s /\ Forall label (splitDot s) /\ splitDot s <> [].
Proof.
  unfold splitDot. fold dot. split; [|split; [|apply splitByte_nonempty]].
  - induction s as [|c t IH]; [reflexivity|]. cbn [splitByte]. destruct (byte_eqb c dot) eqn:E.
    + apply byte_eqb_eq in E. subst c. destruct (splitByte t dot) as [|y r] eqn:EE; [destruct (splitByte_nonempty t dot EE)|].
      change (dotted ([] :: y :: r)) with (dot :: dotted (y :: r)). rewrite IH. reflexivity.
    + destruct (splitByte t dot) as [|y r] eqn:EE; [destruct (splitByte_nonempty t dot EE)|].
      destruct r; cbn [dotted] in *; rewrite <- IH; reflexivity.
  - induction s as [|c t IH]; [constructor; [intros []|constructor]|]. cbn [splitByte]. destruct (byte_eqb c dot) eqn:E.
    + constructor; [intros []|exact IH].
    + destruct (splitByte t dot) as [|y r] eqn:EE; [constructor; [|constructor]|].
      * intros [H|[]]. subst c. rewrite byte_eqb_refl in E. discriminate.
      * inversion IH; subst. constructor; [|assumption]. intros [H|H]; [subst c; rewrite byte_eqb_refl in E; discriminate|contradiction].
Qed.

Lemma matchParts_false p h : List.length p = List.length h -> (matchParts false p h = true <-> p = h).
Proof.
  revert h. induction p as [|x p IH]; intros [|y h] HL; try discriminate; [split; reflexivity|]. cbn [matchParts andb]. injection HL as HL.
  rewrite andb_true_iff, IH by exact HL. rewrite bytes_eqb_eq. split; [intros (-> & ->); reflexivity|intros [= -> ->]; split; reflexivity].
Qed.
Lemma matchParts_true p h : List.length p = List.length h -> p <> [] ->
  (matchParts true p h = true <-> (p = h \/ exists x rest, p = [z2b 42] :: rest /\ h = x :: rest)).
Proof.
  intros HL HN. destruct p as [|x p]; [contradiction|]. destruct h as [|y h]; [discriminate|]. injection HL as HL. cbn [matchParts andb].
  rewrite andb_true_iff, matchParts_false by exact HL. destruct (bytes_eqb x [z2b 42]) eqn:E.
  - apply bytes_eqb_eq in E. subst x. split.
    + intros (_ & ->). right. exists y, h. split; reflexivity.
    + intros [H|(x & rest & H & H')]; (split; [reflexivity|congruence]).
  - apply bytes_eqb_neq in E. rewrite bytes_eqb_eq. split.
    + intros (-> & ->). left. reflexivity.
    + intros [[= -> ->]|(x' & rest & [= -> _] & _)]; [split; reflexivity|contradiction].
Qed.

Lemma matchHostnames_iff p h : matchHostnames p h = true <-> host_covered p h.
Proof.
  unfold matchHostnames, host_covered. cbv zeta.
  pose proof (proj1 (trimDot_iff p _) eq_refl) as HP. pose proof (proj1 (trimDot_iff h _) eq_refl) as HH.
  destruct ((zlen (trimDot p) =? 0) || (zlen (trimDot h) =? 0)) eqn:E0.
  { split; [discriminate|]. intros (p' & h' & lp & lh & H1 & H2 & N1 & N2 & _). apply trimDot_iff in H1, H2. rewrite H1, H2 in E0.
    destruct p'; [contradiction|]. destruct h'; [contradiction|]. rewrite !zlen_cons in E0. pose proof (zlen_nonneg p'). pose proof (zlen_nonneg h'). lia. }
  destruct (split_dotted (trimDot p)) as (D1 & L1 & S1). destruct (split_dotted (trimDot h)) as (D2 & L2 & S2).
  assert (N1 : trimDot p <> []) by (intros E; rewrite E in E0; discriminate).
  assert (N2 : trimDot h <> []) by (intros E; rewrite E, orb_true_r in E0; discriminate).
  destruct (zlen (splitDot (trimDot p)) =? zlen (splitDot (trimDot h))) eqn:EL; cbn [negb].
  - assert (EL' : List.length (splitDot (trimDot p)) = List.length (splitDot (trimDot h))) by (unfold zlen in EL; lia).
    rewrite (matchParts_true _ _ EL' S1). split.
    + intros H. exists (trimDot p), (trimDot h), (splitDot (trimDot p)), (splitDot (trimDot h)).
      do 4 (split; [assumption|]). do 2 (split; [symmetry; assumption|]). do 2 (split; [assumption|]).
      destruct H as [H|H]; [left; split; assumption|right; exact H].
    + intros (p' & h' & lp & lh & H1 & H2 & _ & _ & E1 & E2 & F1 & F2 & H). apply trimDot_iff in H1, H2. rewrite H1, H2, E1, E2.
      assert (lp <> [] /\ lh <> []) as (M1 & M2).
      { destruct H as [(-> & ?)|(x & rest & -> & ->)]; split; try assumption; discriminate. }
      rewrite !dotted_split by assumption. destruct H as [(H & _)|H]; [left; exact H|right; exact H].
  - split; [discriminate|]. intros (p' & h' & lp & lh & H1 & H2 & _ & _ & E1 & E2 & F1 & F2 & H). apply trimDot_iff in H1, H2. rewrite H1, H2, E1, E2 in EL.
    assert (lp <> [] /\ lh <> [] /\ zlen lp = zlen lh) as (M1 & M2 & M3).
    { destruct H as [(-> & ?)|(x & rest & -> & ->)]; repeat split; try assumption; try discriminate. }
    rewrite !dotted_split in EL by assumption. lia.
Qed.

Lemma lower_iff a b : toLowerCaseASCII a = b <-> ascii_lower a b.
Proof.
  unfold toLowerCaseASCII, ascii_lower. revert b. induction a as [|x a IH]; intros b; cbn [map].
  - split; [intros <-; constructor|]. intros H. inversion H. reflexivity.
  - split.
    + intros <-. constructor; [|apply IH; reflexivity]. unfold lowerByte. destruct ((65 <=? b2z x) && (b2z x <=? 90)) eqn:E.
      * left. split; [lia|]. rewrite b2z_z2b. apply Z.mod_small. lia.
      * right. split; [lia|reflexivity].
    + intros H. inversion H as [|? y ? b' HX HT]; subst. f_equal; [|apply IH; exact HT].
      unfold lowerByte. destruct ((65 <=? b2z x) && (b2z x <=? 90)) eqn:E; destruct HX as [(H1 & H2)|(H1 & H2)]; try lia; [|symmetry; exact H2].
      rewrite <- H2. apply z2b_b2z.
Qed.

Lemma unbracketed_get h :
  unbracketed h (if (3 <=? zlen h) && match h with b :: _ => b2z b =? 91 | [] => false end && match rev h with b :: _ => b2z b =? 93 | [] => false end
                 then takeZ (zlen h - 2) (dropZ 1 h) else h).
Proof.
  assert (HB : forall b n, 0 <= n < 256 -> (b2z b =? n) = true -> b = z2b n).
  { intros b n Hn H. apply b2z_inj. rewrite b2z_z2b, Z.mod_small; lia. }
  destruct ((3 <=? zlen h) && match h with b :: _ => b2z b =? 91 | [] => false end && match rev h with b :: _ => b2z b =? 93 | [] => false end) eqn:E.
  - apply andb_true_iff in E. destruct E as (E & E3). apply andb_true_iff in E. destruct E as (E1 & E2).
    destruct h as [|b t]; [discriminate|]. apply HB in E2; [|lia]. subst b.
    destruct (rev (z2b 91 :: t)) as [|e r] eqn:ER; [discriminate|]. apply HB in E3; [|lia]. subst e.
    apply (f_equal (@rev byte)) in ER. rewrite rev_involutive in ER. change (rev (z2b 93 :: r)) with (rev r ++ [z2b 93]) in ER.
    destruct (rev r) as [|x0 x]; [exfalso; rewrite ER in E1; discriminate|]. injection ER as E0 ->. subst x0.
    left. exists x. rewrite zlen_cons, zlen_app in *. change (zlen [z2b 93]) with 1 in *.
    split; [intros ->; discriminate|]. split; [reflexivity|].
    change (dropZ 1 (z2b 91 :: x ++ [z2b 93])) with (dropZ 1 ([z2b 91] ++ (x ++ [z2b 93]))). rewrite dropZ_app by reflexivity.
    rewrite takeZ_app by lia. reflexivity.
  - right. split; [|reflexivity]. intros x HN ->. cbn [rev] in E.
    change (rev (z2b 91 :: x ++ [z2b 93])) with (rev (x ++ [z2b 93]) ++ [z2b 91]) in E. rewrite rev_app_distr in E. cbn [rev app] in E.
    change (b2z (z2b 91) =? 91) with true in E. change (b2z (z2b 93) =? 93) with true in E.
    rewrite zlen_cons, zlen_app in E. change (zlen [z2b 93]) with 1 in E.
    destruct x as [|y x]; [contradiction|]. rewrite zlen_cons in E. pose proof (zlen_nonneg x). lia.
Qed.
Lemma unbracketed_fun h a b : unbracketed h a -> unbracketed h b -> a = b.
Proof.
  intros [(x & HN & E & ->)|(HN & ->)] [(y & HM & E' & ->)|(HM & ->)]; try congruence.
  - rewrite E in E'. injection E' as E'. apply app_inj_tail in E'. destruct E'. congruence.
  - destruct (HM x HN E).
  - destruct (HN y HM E').
Qed.

Lemma verifyHostname_iff V c h : verifyHostname V c h = true <-> for_host V c h.
Proof.
  unfold verifyHostname, for_host. cbv zeta. pose proof (unbracketed_get h) as HU.
  match type of HU with unbracketed _ ?x => set (a := x) in * end. clearbody a.
  assert (HE : forall b, unbracketed h b -> b = a) by (intros b Hb; eapply unbracketed_fun; eassumption).
  destruct (v_parse_ip V a) as [ip|] eqn:EP.
  - rewrite existsb_exists. split.
    + intros H. exists a. split; [exact HU|]. rewrite EP. exact H.
    + intros (b & Hb & H). rewrite (HE b Hb), EP in H. exact H.
  - assert (HL : forall n, matchHostnames (toLowerCaseASCII n) (toLowerCaseASCII h) = true <->
                 exists hl nl, ascii_lower h hl /\ ascii_lower n nl /\ host_covered nl hl).
    { intros n. rewrite matchHostnames_iff. split.
      - intros H. exists (toLowerCaseASCII h), (toLowerCaseASCII n). repeat split; try (apply lower_iff; reflexivity). exact H.
      - intros (hl & nl & H1 & H2 & H). apply lower_iff in H1, H2. rewrite H1, H2. exact H. }
    split.
    + intros H. exists a. split; [exact HU|]. rewrite EP. destruct (vc_has_san c).
      * apply existsb_exists in H. destruct H as (n & HI & H). apply HL in H. destruct H as (hl & nl & H). exists hl, n, nl. tauto.
      * apply HL in H. destruct H as (hl & nl & H). exists hl, (vc_common_name c), nl. tauto.
    + intros (b & Hb & H). rewrite (HE b Hb), EP in H. destruct H as (hl & n & nl & H1 & H2 & H3 & H4). destruct (vc_has_san c).
      * apply existsb_exists. exists n. split; [exact H4|]. apply HL. exists hl, nl. tauto.
      * subst n. apply HL. exists hl, nl. tauto.
Qed.

(** ** Extended key usage *)
Definition open_usage (c : vcert) : bool := ((zlen (vc_eku c) =? 0) && (vc_unknown_eku c =? 0)) || existsb (fun u => u =? ekuAny) (vc_eku c).
Lemma open_usage_iff c : open_usage c = true <-> (vc_eku c = [] /\ vc_unknown_eku c = 0) \/ In ekuAny (vc_eku c).
Proof.
  unfold open_usage. rewrite orb_true_iff, andb_true_iff, existsb_exists. split.
  - intros [(H1 & H2)|(x & HI & H)]; [left; split; [apply zlen0; lia|lia]|right]. replace ekuAny with x by lia. exact HI.
  - intros [(H1 & H2)|H]; [left; rewrite H1; split; [reflexivity|lia]|right; exists ekuAny; split; [exact H|apply Z.eqb_refl]].
Qed.
Lemma allows_iff c u : open_usage c || allowsUsage c u = true <-> eku_allows c u.
Proof.
  rewrite orb_true_iff, open_usage_iff. unfold allowsUsage, eku_allows. rewrite existsb_exists. split.
  - intros [[H|H]|(x & HI & H)]; [tauto|tauto|]. destruct (u =? x) eqn:E; [replace u with x by lia; tauto|]. cbn [orb] in H.
    right. right. right. split; [lia|]. destruct (x =? ekuNetscapeSGC) eqn:E1; [left; replace ekuNetscapeSGC with x by lia; exact HI|].
    right. replace ekuMicrosoftSGC with x by lia. exact HI.
  - intros [H|[H|[H|(-> & [H|H])]]]; [tauto|tauto| | |]; right; eexists; (split; [exact H|]); [rewrite Z.eqb_refl|..]; reflexivity.
Qed.

Definition live (l : list Z) : list Z := filter (fun u => negb (u =? -1)) l.

Lemma usagesLoop_spec c us : forall k r, 0 <= k -> r = k + zlen (live us) ->
  match usagesLoop c us r with
  | Some (us', r') => live us' = filter (allowsUsage c) (live us) /\ r' = k + zlen (live us') /\ (0 < r -> 0 < r')
  | None => k = 0 /\ filter (allowsUsage c) (live us) = []
  end.
Proof.
  induction us as [|u us IH]; intros k r Hk Hr.
  { cbn [usagesLoop]. repeat split; [exact Hr|lia]. }
  cbn [usagesLoop]. unfold live in *. cbn [filter] in *. destruct (u =? -1) eqn:E1; cbn [orb negb] in *.
  - specialize (IH k r Hk Hr). destruct (usagesLoop c us r) as [[us' r']|]; [|exact IH]. cbn [filter]. rewrite E1. exact IH.
  - destruct (allowsUsage c u) eqn:EA; cbn [filter] in *; rewrite EA.
    + rewrite zlen_cons in Hr. specialize (IH (k + 1) r ltac:(lia) ltac:(lia)). destruct (usagesLoop c us r) as [[us' r']|]; [|lia].
      cbn [filter]. rewrite E1. cbn [negb]. rewrite zlen_cons. destruct IH as (H1 & H2 & H3). rewrite H1 in *. repeat split; [lia|exact H3].
    + rewrite zlen_cons in Hr. pose proof (zlen_nonneg (filter (fun u0 => negb (u0 =? -1)) us)) as HZ. destruct (r - 1 =? 0) eqn:ER.
      * split; [lia|]. replace (filter (fun u0 => negb (u0 =? -1)) us) with (@nil Z); [reflexivity|]. symmetry. apply zlen0. lia.
      * specialize (IH k (r - 1) Hk ltac:(lia)). destruct (usagesLoop c us (r - 1)) as [[us' r']|]; [|exact IH]. cbn [filter].
        change (negb (-1 =? -1)) with false. cbv iota. destruct IH as (H1 & H2 & H3). repeat split; [exact H1|exact H2|]. intros _. apply H3. lia.
Qed.

Lemma usageChain_iff chain : forall us r, r = zlen (live us) -> 0 < r ->
  (usageChain chain us r = true <-> exists u, In u (live us) /\ Forall (fun c => open_usage c || allowsUsage c u = true) chain).
Proof.
  induction chain as [|c t IH]; intros us r Hr HP.
  { cbn [usageChain]. split; [|reflexivity]. intros _. destruct (live us) as [|u l]; [cbn in Hr; lia|]. exists u. split; [left; reflexivity|constructor]. }
  cbn [usageChain]. fold (open_usage c). destruct (open_usage c) eqn:EO.
  - rewrite (IH us r Hr HP). split; intros (u & HI & HF); exists u; (split; [exact HI|]).
    + constructor; [rewrite EO; reflexivity|exact HF].
    + inversion HF; assumption.
  - pose proof (usagesLoop_spec c us 0 r ltac:(lia) ltac:(lia)) as HS. destruct (usagesLoop c us r) as [[us' r']|].
    + destruct HS as (H1 & H2 & H3). rewrite (IH us' r' ltac:(lia) ltac:(auto)). rewrite H1.
      split; intros (u & HI & HF); exists u.
      * apply filter_In in HI. destruct HI as (HI & HA). split; [exact HI|]. constructor; [rewrite HA; apply orb_true_r|exact HF].
      * inversion HF as [|? ? HX HT]; subst. rewrite EO in HX. split; [apply filter_In; split; assumption|exact HT].
    + destruct HS as (_ & HS). split; [discriminate|]. intros (u & HI & HF). inversion HF as [|? ? HX HT]; subst. rewrite EO in HX.
      assert (HC : In u (filter (allowsUsage c) (live us))) by (apply filter_In; split; assumption). rewrite HS in HC. destruct HC.
Qed.

Lemma live_all us : ~ In (-1) us -> live us = us.
Proof.
  induction us as [|u us IH]; intros H; [reflexivity|]. unfold live in *. cbn [filter]. destruct (u =? -1) eqn:E; cbn [negb].
  - destruct H. left. lia.
  - rewrite IH; [reflexivity|]. intros C. apply H. right. exact C.
Qed.

Lemma checkChain_iff chain us : ~ In (-1) us -> us <> [] -> chain <> [] ->
  (checkChainForKeyUsage chain us = true <-> exists u, In u us /\ Forall (fun c => eku_allows c u) chain).
Proof.
  intros HM HN HC. unfold checkChainForKeyUsage. destruct chain as [|c0 chain]; [contradiction|]. set (ch := c0 :: chain).
  pose proof (live_all us HM) as HL.
  assert (0 < zlen us) by (destruct us; [contradiction|rewrite zlen_cons; pose proof (zlen_nonneg us); lia]).
  rewrite (usageChain_iff (rev ch) us (zlen us)) by (rewrite ?HL; lia). rewrite HL.
  split; intros (u & HI & HF); exists u; (split; [exact HI|]); rewrite Forall_forall in *; intros x Hx.
  - apply allows_iff. apply HF. apply in_rev in Hx. exact Hx.
  - apply allows_iff. apply HF. apply in_rev. exact Hx.
Qed.

(** ** Pools *)
Definition pool_ok (s : cpool) : Prop :=
  (forall k n, In n (idxGet k (cp_by_name s)) <-> exists c, nth_error (cp_certs s) n = Some c /\ vc_raw_subject c = k) /\
  (forall k n, k <> [] -> (In n (idxGet k (cp_by_ski s)) <-> exists c, nth_error (cp_certs s) n = Some c /\ vc_subject_key_id c = k)).

Lemma idxGet_add k k' n m j : In j (idxGet k (idxAdd k' n m)) <-> (In j (idxGet k m) \/ (k = k' /\ j = n)).
Proof.
  induction m as [|[k0 v] m IH]; cbn [idxAdd].
  - cbn [idxGet]. destruct (bytes_eqb k k') eqn:E.
    + apply bytes_eqb_eq in E. cbn [In]. intuition congruence.
    + apply bytes_eqb_neq in E. intuition.
  - destruct (bytes_eqb k' k0) eqn:E.
    + apply bytes_eqb_eq in E. subst k0. cbn [idxGet]. destruct (bytes_eqb k k') eqn:E2.
      * apply bytes_eqb_eq in E2. rewrite in_app_iff. cbn [In]. intuition congruence.
      * apply bytes_eqb_neq in E2. intuition.
    + apply bytes_eqb_neq in E. cbn [idxGet]. destruct (bytes_eqb k k0) eqn:E2; [|exact IH].
      apply bytes_eqb_eq in E2. intuition congruence.
Qed.

Lemma nth_app_last {A} (l : list A) x n y : nth_error (l ++ [x]) n = Some y <-> nth_error l n = Some y \/ (n = List.length l /\ y = x).
Proof.
  destruct (Nat.lt_ge_cases n (List.length l)) as [H|H].
  - rewrite nth_error_app1 by exact H. split; [tauto|]. intros [?|(? & _)]; [assumption|lia].
  - rewrite nth_error_app2 by exact H. rewrite (proj2 (nth_error_None l n)) by exact H.
    destruct (n - List.length l)%nat as [|m] eqn:E; cbn [nth_error].
    + split; [intros [= ->]; right; split; [lia|reflexivity]|]. intros [?|(_ & ->)]; [discriminate|reflexivity].
    + split; [destruct m; discriminate|]. intros [?|(? & _)]; [discriminate|lia].
Qed.

Lemma addCert_ok s c : pool_ok s -> pool_ok (addCert s c).
Proof.
  intros (HN & HS). unfold addCert. destruct (poolContains s c); [split; assumption|]. cbv zeta. split; cbn [cp_by_name cp_by_ski cp_certs].
  - intros k n. rewrite idxGet_add, HN. split.
    + intros [(x & H1 & H2)|(-> & ->)]; [exists x; split; [apply nth_app_last; left; exact H1|exact H2]|].
      exists c. split; [apply nth_app_last; right; split; reflexivity|reflexivity].
    + intros (x & H1 & H2). apply nth_app_last in H1. destruct H1 as [H1|(-> & ->)]; [left; exists x; split; assumption|right; split; [symmetry; exact H2|reflexivity]].
  - intros k n HK. destruct (0 <? zlen (vc_subject_key_id c)) eqn:E.
    + rewrite idxGet_add, HS by exact HK. split.
      * intros [(x & H1 & H2)|(-> & ->)]; [exists x; split; [apply nth_app_last; left; exact H1|exact H2]|].
        exists c. split; [apply nth_app_last; right; split; reflexivity|reflexivity].
      * intros (x & H1 & H2). apply nth_app_last in H1. destruct H1 as [H1|(-> & ->)]; [left; exists x; split; assumption|right; split; [symmetry; exact H2|reflexivity]].
    + rewrite HS by exact HK. split.
      * intros (x & H1 & H2). exists x. split; [apply nth_app_last; left; exact H1|exact H2].
      * intros (x & H1 & H2). apply nth_app_last in H1. destruct H1 as [H1|(-> & ->)]; [exists x; split; assumption|].
        exfalso. rewrite H2 in E. destruct k; [contradiction|]. rewrite zlen_cons in E. pose proof (zlen_nonneg k). lia.
Qed.
Lemma newCertPool_ok : pool_ok newCertPool.
Proof. split; intros k n; intros; cbn; (split; [intros []|]); intros (c & HC & _); destruct n; discriminate. Qed.

Lemma poolContains_iff s c : pool_ok s -> (poolContains s c = true <-> exists x, In x (cp_certs s) /\ vc_raw x = vc_raw c /\ vc_raw_subject x = vc_raw_subject c).
Proof.
  intros (HN & _). unfold poolContains. rewrite existsb_exists. split.
  - intros (n & HI & H). apply HN in HI. destruct HI as (x & Hx & HS). rewrite Hx in H. apply bytes_eqb_eq in H. exists x. repeat split; try assumption.
    eapply nth_error_In. exact Hx.
  - intros (x & HI & HR & HS). apply In_nth_error in HI. destruct HI as (n & Hn). exists n. split; [apply HN; exists x; split; assumption|].
    rewrite Hn. apply bytes_eqb_eq. exact HR.
Qed.

Lemma fold_add_ok l : forall s, pool_ok s -> pool_ok (fold_left addCert l s).
Proof. induction l as [|c l IH]; intros s H; [exact H|]. cbn [fold_left]. apply IH, addCert_ok, H. Qed.
Lemma poolOf_ok l : pool_ok (poolOf l).
Proof. apply fold_add_ok, newCertPool_ok. Qed.

Lemma addCert_in s c x : In x (cp_certs (addCert s c)) -> In x (cp_certs s) \/ x = c.
Proof. unfold addCert. destruct (poolContains s c); [tauto|]. cbn [cp_certs]. rewrite in_app_iff. cbn [In]. intuition. Qed.
Lemma addCert_keeps s c x : In x (cp_certs s) -> In x (cp_certs (addCert s c)).
Proof. unfold addCert. destruct (poolContains s c); [tauto|]. cbn [cp_certs]. rewrite in_app_iff. tauto. Qed.
Lemma fold_add_in l : forall s x, In x (cp_certs (fold_left addCert l s)) -> In x (cp_certs s) \/ In x l.
Proof.
  induction l as [|c l IH]; intros s x H; [left; exact H|]. cbn [fold_left] in H. apply IH in H. destruct H as [H|H]; [|right; right; exact H].
  apply addCert_in in H. destruct H as [H|H]; [left; exact H|right; left; congruence].
Qed.
Lemma fold_add_keeps l : forall s x, In x (cp_certs s) -> In x (cp_certs (fold_left addCert l s)).
Proof. induction l as [|c l IH]; intros s x H; [exact H|]. cbn [fold_left]. apply IH, addCert_keeps, H. Qed.
Lemma fold_add_has l : forall s x, pool_ok s -> In x l -> exists y, In y (cp_certs (fold_left addCert l s)) /\ vc_raw y = vc_raw x /\ vc_raw_subject y = vc_raw_subject x.
Proof.
  induction l as [|c l IH]; intros s x HO HI; [destruct HI|]. cbn [fold_left]. destruct HI as [->|HI]; [|apply IH; [apply addCert_ok, HO|exact HI]].
  destruct (poolContains s x) eqn:E.
  - pose proof E as E0. apply (poolContains_iff s x HO) in E. destruct E as (y & Hy & H). exists y. split; [|exact H]. unfold addCert. rewrite E0. apply fold_add_keeps, Hy.
  - exists x. split; [|split; reflexivity]. apply fold_add_keeps. unfold addCert. rewrite E. cbn [cp_certs]. apply in_app_iff. right. left. reflexivity.
Qed.
Lemma poolOf_in l x : In x (cp_certs (poolOf l)) -> In x l.
Proof. intros H. apply fold_add_in in H. destruct H as [[]|H]. exact H. Qed.
Lemma poolOf_has l x : In x l -> exists y, In y (cp_certs (poolOf l)) /\ vc_raw y = vc_raw x /\ vc_raw_subject y = vc_raw_subject x.
Proof. apply fold_add_has, newCertPool_ok. Qed.

Lemma fold_add_len l : forall s, (List.length (cp_certs (fold_left addCert l s)) <= List.length (cp_certs s) + List.length l)%nat.
Proof.
  induction l as [|c l IH]; intros s; cbn [fold_left List.length]; [lia|]. specialize (IH (addCert s c)).
  assert (List.length (cp_certs (addCert s c)) <= List.length (cp_certs s) + 1)%nat; [|lia].
  unfold addCert. destruct (poolContains s c); [lia|]. cbn [cp_certs]. rewrite app_length. cbn. lia.
Qed.
Lemma poolOf_len l : (List.length (cp_certs (poolOf l)) <= List.length l)%nat.
Proof. apply (fold_add_len l newCertPool). Qed.

Lemma parents_iff V s c n : pool_ok s ->
  (In n (findVerifiedParents V s c) <-> exists p, nth_error (cp_certs s) n = Some p /\ issuer_candidate (cp_certs s) c p /\ signed_by V c p).
Proof.
  intros (HN & HS). unfold findVerifiedParents. cbv zeta. rewrite filter_In.
  set (k := vc_authority_key_id c).
  set (ski := if 0 <? zlen k then idxGet k (cp_by_ski s) else []).
  assert (HK : In n (match ski with [] => idxGet (vc_raw_issuer c) (cp_by_name s) | _ => ski end) <->
               exists p, nth_error (cp_certs s) n = Some p /\ issuer_candidate (cp_certs s) c p).
  { unfold issuer_candidate. fold k. destruct ski as [|i0 l0] eqn:EK.
    - assert (HE : k = [] \/ forall x, In x (cp_certs s) -> vc_subject_key_id x <> k).
      { destruct k as [|b k0] eqn:Ek; [left; reflexivity|]. right. intros x Hx HC. apply In_nth_error in Hx. destruct Hx as (j & Hj).
        assert (HJ : In j (idxGet (b :: k0) (cp_by_ski s))) by (apply HS; [discriminate|exists x; split; assumption]).
        unfold ski in EK. rewrite zlen_cons in EK. pose proof (zlen_nonneg k0). destruct (0 <? 1 + zlen k0) eqn:E0; [|lia]. rewrite EK in HJ. destruct HJ. }
      rewrite HN. split.
      + intros (p & H1 & H2). exists p. split; [exact H1|]. split; [eapply nth_error_In; exact H1|]. right. split; assumption.
      + intros (p & H1 & H2 & [(H3 & H4)|(_ & H4)]); exists p; (split; [exact H1|]); [|exact H4].
        destruct HE as [HE|HE]; [contradiction|]. destruct (HE p H2 H4).
    - rewrite <- EK. unfold ski in *. destruct (0 <? zlen k) eqn:E0; [|discriminate].
      assert (HKN : k <> []) by (intros E; rewrite E in E0; discriminate). rewrite HS by exact HKN. split.
      + intros (p & H1 & H2). exists p. split; [exact H1|]. split; [eapply nth_error_In; exact H1|]. left. split; assumption.
      + intros (p & H1 & H2 & [(_ & H4)|([H3|H3] & _)]); [exists p; split; assumption|contradiction|].
        assert (HI : In i0 (idxGet k (cp_by_ski s))) by (rewrite EK; left; reflexivity). apply HS in HI; [|exact HKN].
        destruct HI as (x & Hx & Hk). destruct (H3 x); [eapply nth_error_In; exact Hx|exact Hk]. }
  rewrite HK. split.
  - intros ((p & H1 & H2) & H3). rewrite H1 in H3. apply checkSignatureFrom_iff in H3. exists p. repeat split; try apply H2; try apply H3; assumption.
  - intros (p & H1 & H2 & H3). split; [exists p; split; assumption|]. rewrite H1. apply checkSignatureFrom_iff. exact H3.
Qed.
