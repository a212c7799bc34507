(** PickBestApkCert *)
From Coq Require Import Lia ZifyBool Permutation Sorted.
From Verif.Model Require Import Bytes Env CertInfo.
From Verif.Spec Require Import Nondet CertPick.
From Verif.Proofs Require Import BytesFacts.

Lemma bytesGreater_irrefl a : bytesGreater a a = false.
Proof. induction a as [|x a IH]; [reflexivity|]. cbn [bytesGreater]. rewrite Z.eqb_refl. exact IH. Qed.
Lemma bytesGreater_trans a : forall b c, bytesGreater a b = true -> bytesGreater b c = true -> bytesGreater a c = true.
Proof.
  induction a as [|x a IH]; intros [|y b] [|z c]; cbn [bytesGreater]; try congruence; intros H1 H2; auto.
  destruct (Z.eqb_spec (b2z x) (b2z y)) as [E1|E1], (Z.eqb_spec (b2z y) (b2z z)) as [E2|E2], (Z.eqb_spec (b2z x) (b2z z)) as [E3|E3];
    try lia; eauto.
Qed.
Lemma bytesGreater_total a : forall b, bytesGreater a b = false -> bytesGreater b a = false -> a = b.
Proof.
  induction a as [|x a IH]; intros [|y b]; cbn [bytesGreater]; try congruence; intros H1 H2.
  destruct (Z.eqb_spec (b2z x) (b2z y)) as [E1|E1], (Z.eqb_spec (b2z y) (b2z x)) as [E2|E2]; try lia.
  apply b2z_inj in E1. subst. f_equal. auto.
Qed.

Lemma invalid_period now c : usual_period c -> looksValid now c = false ->
  timeSub (c_not_after c) (c_not_before c) = c_not_after c - c_not_before c /\ c_not_after c <= now <= c_not_before c.
Proof.
  intros HP H. unfold looksValid in H. apply orb_false_iff in H as [H1 H2]. apply Z.ltb_ge in H1. apply Z.ltb_ge in H2.
  unfold timeSub, sat64. destruct HP as [HP|HP]; lia.
Qed.

(** The order, without saturation *)
Definition certLt (now : Z) (a b : cert) : Prop :=
  c_sigalg b < c_sigalg a \/
  (c_sigalg a = c_sigalg b /\ looksValid now a = false /\
   (looksValid now b = true \/
    (looksValid now b = false /\
     (c_not_before b < c_not_before a \/
      (c_not_before a = c_not_before b /\
       (c_not_after b < c_not_after a \/
        (c_not_after a = c_not_after b /\ bytesGreater (c_raw a) (c_raw b) = true))))))).

Lemma certLess_iff now a b : usual_period a -> usual_period b -> (certLess now a b = true <-> certLt now a b).
Proof.
  intros Ha Hb. unfold certLess, certLt.
  destruct (Z.eqb_spec (c_sigalg a) (c_sigalg b)) as [E|E]; cbn [negb].
  2: { rewrite Z.ltb_lt. split; [intros; left; assumption|]. intros [H|H]; [assumption|]. destruct H as [H _]. congruence. }
  destruct (looksValid now a) eqn:Va.
  { split; [discriminate|]. intros [H|(_ & H & _)]; [lia|discriminate]. }
  destruct (looksValid now b) eqn:Vb.
  { split; [intros _; right; repeat split; auto|reflexivity]. }
  destruct (invalid_period now a Ha Va) as [-> Pa]. destruct (invalid_period now b Hb Vb) as [-> Pb].
  destruct (Z.eqb_spec (c_not_before a) (c_not_before b)) as [E2|E2]; cbn [negb].
  2: { rewrite Z.ltb_lt. split; [intros; right; repeat split; auto|]. intros [H|(_ & _ & [H|(_ & [H|H])])]; try lia; discriminate. }
  destruct (Z.eqb_spec (c_not_after a) (c_not_after b)) as [E3|E3]; cbn [negb].
  2: { rewrite Z.ltb_lt. split.
       - intros; right. repeat split; auto. right. split; [reflexivity|]. right. split; [assumption|]. left. lia.
       - intros [H|(_ & _ & [H|(_ & [H|(_ & [H|H])])])]; try lia; discriminate. }
  split.
  - intros H; right. repeat split; auto. right. split; [reflexivity|]. right. split; [assumption|]. right. auto.
  - intros [H|(_ & _ & [H|(_ & [H|(_ & [H|H])])])]; try lia; try discriminate; try tauto.
Qed.

Lemma certLt_irrefl now a : ~ certLt now a a.
Proof. unfold certLt. pose proof (bytesGreater_irrefl (c_raw a)). intros [H0|(_ & H1 & [H2|(_ & [H2|(_ & [H2|H2])])])]; try lia; try congruence; destruct H2; congruence. Qed.

Lemma certLt_trans now a b c : certLt now a b -> certLt now b c -> certLt now a c.
Proof.
  unfold certLt. pose proof (bytesGreater_trans (c_raw a) (c_raw b) (c_raw c)) as HT.
  destruct (looksValid now a), (looksValid now b), (looksValid now c);
  (intros [H|(H1 & H2 & [H3|(_ & [H3|(H3 & [H4|(H4 & H5)])])])] [K|(K1 & K2 & [K3|(_ & [K3|(K3 & [K4|(K4 & K5)])])])]);
  try discriminate; try (left; lia);
  right; (split; [lia|]); (split; [reflexivity|]);
  first [left; reflexivity | right; split; [reflexivity|]; first [left; lia | right; split; [lia|]; first [left; lia | right; split; [lia|auto]]]].
Qed.

Lemma certLt_tie now a b : ~ certLt now a b -> ~ certLt now b a ->
  c_sigalg a = c_sigalg b /\
  ((looksValid now a = true /\ looksValid now b = true) \/
   (looksValid now a = false /\ looksValid now b = false /\ c_not_before a = c_not_before b /\ c_not_after a = c_not_after b /\ c_raw a = c_raw b)).
Proof.
  unfold certLt. intros H1 H2. pose proof (bytesGreater_total (c_raw a) (c_raw b)) as HT.
  assert (c_sigalg a = c_sigalg b) as E by lia. split; [exact E|].
  destruct (looksValid now a) eqn:Va, (looksValid now b) eqn:Vb; [left; auto|exfalso; lia|exfalso; lia|right].
  assert (c_not_before a = c_not_before b) as E2 by lia.
  assert (c_not_after a = c_not_after b) as E3 by lia.
  repeat split; auto. apply HT.
  - destruct (bytesGreater (c_raw a) (c_raw b)) eqn:G; [exfalso; apply H1; lia|reflexivity].
  - destruct (bytesGreater (c_raw b) (c_raw a)) eqn:G; [exfalso; apply H2; lia|reflexivity].
Qed.

Lemma certLt_tie_trans now a b c : ~ certLt now a b -> ~ certLt now b a -> ~ certLt now b c -> ~ certLt now c b ->
  ~ certLt now a c /\ ~ certLt now c a.
Proof.
  intros H1 H2 H3 H4. destruct (certLt_tie now a b H1 H2) as (E1 & T1). destruct (certLt_tie now b c H3 H4) as (E2 & T2).
  pose proof (bytesGreater_irrefl (c_raw c)) as HI.
  unfold certLt. destruct T1 as [(V1 & V2)|(V1 & V2 & N1 & N2 & R1)], T2 as [(V3 & V4)|(V3 & V4 & N3 & N4 & R2)]; try congruence.
  - rewrite V1, V4. split; intros [H|(_ & H & _)]; try lia; discriminate.
  - rewrite R1, R2, V1, V4. split; intros [H|(_ & _ & [H|(_ & [H|(_ & [H|(_ & H)])])])]; try lia; congruence.
Qed.

Lemma chainLess_strict_weak now chains : nonempty_chains chains -> (forall c, leaf c chains -> usual_period c) ->
  strict_weak (chainLess now) chains.
Proof.
  intros HN HP.
  assert (HL : forall x, In x chains -> exists c t, x = c :: t /\ usual_period c).
  { intros [|c t] Hx; [contradiction|]. exists c, t. split; [reflexivity|]. apply HP. exists t. exact Hx. }
  assert (Hb : forall a b, usual_period a -> usual_period b -> certLess now a b = false <-> ~ certLt now a b).
  { intros a b Ha Hb. rewrite <- (certLess_iff now a b Ha Hb). destruct (certLess now a b); intuition congruence. }
  split; [|split].
  - intros x Hx. destruct (HL x Hx) as (c & t & -> & Hc). cbn [chainLess]. apply Hb; auto. apply certLt_irrefl.
  - intros x y z Hx Hy Hz. destruct (HL x Hx) as (a & t & -> & Ha), (HL y Hy) as (b & t' & -> & Hb'), (HL z Hz) as (c & t'' & -> & Hc).
    cbn [chainLess]. rewrite !certLess_iff by assumption. apply certLt_trans.
  - intros x y z Hx Hy Hz. destruct (HL x Hx) as (a & t & -> & Ha), (HL y Hy) as (b & t' & -> & Hb'), (HL z Hz) as (c & t'' & -> & Hc).
    cbn [chainLess]. rewrite !Hb by assumption. apply certLt_tie_trans.
Qed.

Lemma pick_none S now chains : sched_ok S -> (pickBestApkCert S now chains = Ret (None, []) <-> chains = []).
Proof.
  intros HS. destruct chains as [|x t]; cbn [pickBestApkCert]; [tauto|]. split; [|discriminate].
  destruct (existsb _ _); [discriminate|]. destruct (srt S _ _ _) as [|[|c u] v]; discriminate.
Qed.

Lemma existsb_empty (chains : list (list cert)) :
  existsb (fun c => match c with [] => true | _ => false end) chains = true <-> In [] chains.
Proof.
  rewrite existsb_exists. split.
  - intros ([|c t] & H & E); [exact H|discriminate].
  - intros H. exists []. auto.
Qed.

Lemma pick_spec S now chains : sched_ok S -> chains <> [] -> nonempty_chains chains -> (forall c, leaf c chains -> usual_period c) ->
  exists c t l, pickBestApkCert S now chains = Ret (Some c, (c :: t) :: l) /\ Permutation ((c :: t) :: l) chains /\
    forall d, leaf d chains -> certLess now d c = false.
Proof.
  intros HS HC HN HP. unfold pickBestApkCert. destruct chains as [|x y]; [congruence|].
  destruct (existsb _ (x :: y)) eqn:EX. { apply existsb_empty in EX. contradiction. }
  set (chains := x :: y) in *.
  pose proof (srt_perm S HS _ (chainLess now) chains) as Pm.
  pose proof (srt_sorted S HS _ (chainLess now) chains (chainLess_strict_weak now chains HN HP)) as So.
  destruct (srt S _ (chainLess now) chains) as [|[|c t] l] eqn:ES.
  - apply Permutation_nil in Pm. discriminate.
  - exfalso. apply HN. eapply Permutation_in; [exact Pm|left; reflexivity].
  - exists c, t, l. split; [reflexivity|]. split; [exact Pm|].
    intros d (t' & Hd). apply (Permutation_in _ (Permutation_sym Pm)) in Hd. destruct Hd as [Hd|Hd].
    + assert (d = c) as -> by congruence.
      assert (Hc : usual_period c). { apply HP. exists t. eapply Permutation_in; [exact Pm|left; reflexivity]. }
      destruct (certLess now c c) eqn:E; [|reflexivity]. apply certLess_iff in E; auto. destruct (certLt_irrefl now c E).
    + inversion So as [|? ? _ HF]; subst. rewrite Forall_forall in HF. specialize (HF _ Hd). exact HF.
Qed.

Lemma hex_encode_text b : hex_text b (hex_encode b).
Proof.
  induction b as [|x b IH]; [constructor|]. cbn [hex_encode flat_map app].
  change (flat_map _ b) with (hex_encode b). constructor; [| |exact IH]; destruct x; reflexivity.
Qed.
Lemma hex_text_inj a : forall s b, hex_text a s -> hex_text b s -> a = b.
Proof.
  induction a as [|x a IH]; intros s b Ha Hb.
  - inversion Ha; subst. inversion Hb; reflexivity.
  - inversion Ha as [|? ? hi lo s' H1 H2 H3]; subst. inversion Hb as [|y b' ? ? ? H4 H5 H6]; subst.
    f_equal; [|eapply IH; eassumption]. clear - H1 H2 H4 H5.
    assert (Hnd : NoDup hex_alphabet). { repeat constructor; cbn [In]; intuition discriminate. }
    assert (Hr : forall z : byte, (Z.to_nat (b2z z / 16) < List.length hex_alphabet)%nat /\ (Z.to_nat (b2z z mod 16) < List.length hex_alphabet)%nat).
    { intros z. destruct z; cbn; lia. }
    rewrite NoDup_nth_error in Hnd.
    assert (E1 : Z.to_nat (b2z x / 16) = Z.to_nat (b2z y / 16)). { apply Hnd; [apply Hr|congruence]. }
    assert (E2 : Z.to_nat (b2z x mod 16) = Z.to_nat (b2z y mod 16)). { apply Hnd; [apply Hr|congruence]. }
    apply b2z_inj. pose proof (b2z_range x). pose proof (b2z_range y).
    pose proof (Z.div_mod (b2z x) 16). pose proof (Z.div_mod (b2z y) 16).
    assert (b2z x / 16 = b2z y / 16). { apply Z2Nat.inj in E1; auto; apply Z.div_pos; lia. }
    assert (b2z x mod 16 = b2z y mod 16). { apply Z2Nat.inj in E2; auto; apply Z.mod_pos_bound; lia. }
    lia.
Qed.

Lemma joinWith_separated s l : joinWith s l = separated s l.
Proof. induction l as [|x [|y t] IH]; [reflexivity|reflexivity|]. change (x ++ s ++ joinWith s (y :: t) = x ++ s ++ separated s (y :: t)). rewrite IH. reflexivity. Qed.

Lemma takeZ_app_exact {A} (a b : list A) : takeZ (zlen (a ++ b) - zlen b) (a ++ b) = a.
Proof. rewrite zlen_app. replace (zlen a + zlen b - zlen b) with (zlen a) by lia. apply takeZ_app. reflexivity. Qed.

Definition terminated (l : list bytes) : bytes := flat_map (fun x => x ++ [x2c; x20]) l.
Lemma terminated_app a b : terminated (a ++ b) = terminated a ++ terminated b.
Proof. apply flat_map_app. Qed.
Lemma terminated_separated l : l <> [] -> terminated l = separated [x2c; x20] l ++ [x2c; x20].
Proof.
  induction l as [|x [|y t] IH]; intros H; [congruence| |].
  - cbn [terminated flat_map separated]. rewrite app_nil_r. reflexivity.
  - change (terminated (x :: y :: t)) with ((x ++ [x2c; x20]) ++ terminated (y :: t)). rewrite IH by discriminate.
    cbn [separated]. rewrite <- !app_assoc. reflexivity.
Qed.
Lemma field_terminated k vs : field k vs = terminated (shown_fields [(k, vs)]).
Proof.
  destruct vs as [|v t]; [reflexivity|]. unfold field, shown_fields, terminated. cbn [filter snd fst map flat_map].
  rewrite joinWith_separated, app_nil_r, <- !app_assoc. reflexivity.
Qed.
Lemma shown_app a b : shown_fields (a ++ b) = shown_fields a ++ shown_fields b.
Proof. unfold shown_fields. rewrite filter_app, map_app. reflexivity. Qed.

Lemma pkixNameToString_shown n :
  pkixNameToString n = separated [x2c; x20] (shown_fields
    [([x43], pn_country n); ([x53; x54], pn_province n); ([x4c], pn_locality n); ([x4f], pn_org n); ([x4f; x55], pn_unit n);
     ([x43; x4e], match pn_cn n with [] => [] | cn => [cn] end)]).
Proof.
  unfold pkixNameToString.
  assert (Hcn : match pn_cn n with [] => [] | cn => [x43; x4e] ++ [x3d] ++ cn ++ [x2c; x20] end =
                terminated (shown_fields [([x43; x4e], match pn_cn n with [] => [] | cn => [cn] end)])).
  { destruct (pn_cn n) as [|c t]; [reflexivity|].
    change (shown_fields [([x43; x4e], [c :: t])]) with [[x43; x4e] ++ [x3d] ++ (c :: t)]. cbn [terminated flat_map].
    rewrite app_nil_r, <- !app_assoc. reflexivity. }
  rewrite Hcn, !field_terminated, <- !terminated_app, <- !shown_app. cbn [app].
  set (l := shown_fields _). destruct l as [|x t] eqn:E; [reflexivity|].
  rewrite terminated_separated by discriminate.
  destruct (Z.eqb_spec (zlen (separated [x2c; x20] (x :: t) ++ [x2c; x20])) 0) as [Z0|Z0].
  - rewrite zlen_app in Z0. pose proof (zlen_nonneg (separated [x2c; x20] (x :: t))). change (zlen [x2c; x20]) with 2 in Z0. lia.
  - exact (takeZ_app_exact (separated [x2c; x20] (x :: t)) [x2c; x20]).
Qed.
