(** C42, C58, C59: PickBestApkCert and NewCertInfo. *)
From Coq Require Import Lia Permutation.
From Verif.Model Require Import Bytes Env CertInfo.
From Verif.Spec Require Import Nondet CertPick.
From Verif.Proofs Require Import BytesFacts CertInfoFacts.
From Verif.Examples Require Import Toy ToyApk.

(** C42: the pick is the first certificate of one of the chains, none of whose first certificates has a higher
    signature-algorithm id; the slice is permuted and starts with the chain of the pick. *)
Theorem C42_pick : forall S now chains, sched_ok S -> chains <> [] -> nonempty_chains chains ->
  (forall c, leaf c chains -> usual_period c) ->
  exists c t rest, pickBestApkCert S now chains = Ret (Some c, (c :: t) :: rest) /\
    Permutation ((c :: t) :: rest) chains /\ leaf c chains /\ (forall d, leaf d chains -> c_sigalg d <= c_sigalg c).
Proof.
  intros S now chains HS HC HN HP. destruct (pick_spec S now chains HS HC HN HP) as (c & t & l & E & Pm & HL).
  exists c, t, l. split; [exact E|]. split; [exact Pm|].
  assert (Hc : leaf c chains). { exists t. eapply Permutation_in; [exact Pm|left; reflexivity]. }
  split; [exact Hc|]. intros d Hd. specialize (HL d Hd).
  destruct (Z_le_gt_dec (c_sigalg d) (c_sigalg c)) as [Hle|Hgt]; [exact Hle|].
  assert (certLess now d c = true); [|congruence]. apply certLess_iff; auto. left. lia.
Qed.

(** With any chains at all: a returned slice is a permutation of the given one, no chain gives no certificate, and one of
    several chains being empty is a panic. *)
Theorem C42_permuted : forall S now chains r l, sched_ok S -> pickBestApkCert S now chains = Ret (r, l) ->
  Permutation l chains /\ (r = None <-> chains = []) /\ (forall c, r = Some c -> exists t rest, l = (c :: t) :: rest).
Proof.
  intros S now chains r l HS H. unfold pickBestApkCert in H. destruct chains as [|x y].
  - assert (r = None /\ l = []) as [-> ->] by (split; congruence). split; [constructor|]. split; [tauto|]. discriminate.
  - destruct (existsb _ (x :: y)); [discriminate|]. pose proof (srt_perm S HS _ (chainLess now) (x :: y)) as Pm.
    destruct (srt S _ (chainLess now) (x :: y)) as [|[|c t] rest]; try discriminate.
    assert (r = Some c /\ l = (c :: t) :: rest) as [-> ->] by (split; congruence).
    split; [exact Pm|]. split; [split; discriminate|]. intros d Hd. exists t, rest. congruence.
Qed.
Theorem C42_empty_chain : forall S now chains, In [] chains -> pickBestApkCert S now chains = Panic PIndex.
Proof.
  intros S now chains H. unfold pickBestApkCert. destruct chains as [|x y]; [destruct H|].
  apply existsb_empty in H. rewrite H. reflexivity.
Qed.

(** The pick does not depend on the sort implementation if one signature algorithm is highest in one chain only. *)
Theorem C42_unique : forall S now chains c, sched_ok S -> chains <> [] -> nonempty_chains chains ->
  (forall c, leaf c chains -> usual_period c) ->
  leaf c chains -> (forall d, leaf d chains -> d = c \/ c_sigalg d < c_sigalg c) ->
  exists l, pickBestApkCert S now chains = Ret (Some c, l).
Proof.
  intros S now chains c HS HC HN HP Hc HM. destruct (C42_pick S now chains HS HC HN HP) as (p & t & rest & E & _ & Hp & HX).
  specialize (HX c Hc). destruct (HM p Hp) as [-> |Hlt]; [eexists; exact E|lia].
Qed.

Definition mk_cert (raw : bytes) (alg nb na : Z) : cert :=
  {| c_raw := raw; c_spki := []; c_key := KOther []; c_issuer := []; c_subject := []; c_serial := 0; c_sigalg := alg;
     c_not_before := nb; c_not_after := na; c_unhandled_critical := false |}.

Example C42_nonvacuous :
  let chains := [[mk_cert [x01] 3 0 100]; [mk_cert [x02] 4 0 100; mk_cert [x03] 9 0 100]; [mk_cert [x04] 4 80 20]] in
  chains <> [] /\ nonempty_chains chains /\ (forall c, leaf c chains -> usual_period c) /\
  (exists rest, pickBestApkCert toy_sched 50 chains = Ret (Some (mk_cert [x04] 4 80 20), [mk_cert [x04] 4 80 20] :: rest)).
Proof.
  split; [discriminate|]. split; [intros [H|[H|[H|[]]]]; discriminate|]. split.
  - intros c (t & [H|[H|[H|[]]]]); injection H as <- _; unfold usual_period; cbn [mk_cert c_not_before c_not_after]; lia.
  - eexists. vm_compute. reflexivity.
Qed.

(** C58 is false of the code: of two certificates with the same algorithm, the one whose validity period is empty (ends
    before it begins) is preferred to the one that is valid now, whatever the sort does... *)
Theorem C58_refuted : forall S, sched_ok S ->
  let bad := mk_cert [x01] 4 80 20 in let good := mk_cert [x02] 4 0 100 in
  valid_at 50 good /\ ~ valid_at 50 bad /\ c_sigalg good = c_sigalg bad /\
  exists l, pickBestApkCert S 50 [[good]; [bad]] = Ret (Some bad, l).
Proof.
  intros S HS bad good. split; [unfold valid_at; cbn; lia|]. split; [unfold valid_at; cbn; lia|]. split; [reflexivity|].
  assert (HL : forall c, leaf c [[good]; [bad]] -> c = good \/ c = bad).
  { intros c (t & [H|[H|[]]]); [left|right]; congruence. }
  destruct (pick_spec S 50 [[good]; [bad]] HS) as (c & t & l & E & Pm & HX).
  - discriminate.
  - intros [H|[H|[]]]; discriminate.
  - intros c Hc. destruct (HL c Hc) as [-> | ->]; unfold usual_period; cbn; lia.
  - assert (Hc : leaf c [[good]; [bad]]). { exists t. eapply Permutation_in; [exact Pm|left; reflexivity]. }
    destruct (HL c Hc) as [-> | ->]; [|eexists; exact E].
    assert (Hb : leaf bad [[good]; [bad]]) by (exists []; right; left; reflexivity).
    specialize (HX bad Hb). vm_compute in HX. discriminate.
Qed.

(** ... and an expired certificate and a valid one tie, so that the order of the input decides. *)
Theorem C58_expired_refuted :
  let expired := mk_cert [x01] 4 10 20 in let good := mk_cert [x02] 4 0 100 in
  sched_ok toy_sched /\ valid_at 50 good /\ ~ valid_at 50 expired /\
  (exists l, pickBestApkCert toy_sched 50 [[good]; [expired]] = Ret (Some expired, l)) /\
  (exists l, pickBestApkCert toy_sched 50 [[expired]; [good]] = Ret (Some good, l)).
Proof.
  split; [exact toy_sched_ok|]. split; [unfold valid_at; cbn; lia|]. split; [unfold valid_at; cbn; lia|].
  split; eexists; vm_compute; reflexivity.
Qed.

(** What holds: certificates whose period is not empty are compared by their signature algorithm only; dates and the
    clock play no role.  Missing: that an expired certificate comes after a valid one. *)
Theorem C58_dates_ignored_partial : forall now a b, c_not_before a < c_not_after a -> c_not_before b < c_not_after b ->
  (certLess now a b = true <-> c_sigalg b < c_sigalg a).
Proof.
  intros now a b Ha Hb. rewrite certLess_iff by (left; assumption). split.
  - intros [H|(_ & H & _)]; [exact H|]. exfalso. unfold looksValid in H. apply orb_false_iff in H as [H1 H2].
    apply Z.ltb_ge in H1. apply Z.ltb_ge in H2. lia.
  - intros H. left. exact H.
Qed.
Example C58_nonvacuous : certLess 50 (mk_cert [x01] 5 10 20) (mk_cert [x02] 4 0 100) = true /\
  certLess 50 (mk_cert [x02] 4 0 100) (mk_cert [x01] 4 10 20) = false.
Proof. split; vm_compute; reflexivity. Qed.

(** C59: the CertInfo of a certificate shows the lower-case hexadecimal digests of the whole certificate ... *)
Theorem C59_digests : forall E issuer subject c,
  let i := newCertInfo E issuer subject c in
  hex_text (e_hash E HMd5 (c_raw c)) (ci_md5 i) /\ hex_text (e_hash E HSha1 (c_raw c)) (ci_sha1 i) /\
  hex_text (e_hash E HSha256 (c_raw c)) (ci_sha256 i) /\
  ci_from i = c_not_before c /\ ci_to i = c_not_after c /\ ci_serial i = c_serial c /\ ci_sigalg i = c_sigalg c.
Proof. intros. repeat split; apply hex_encode_text. Qed.
(** ... so that certificates with the same printed SHA-256 have the same SHA-256 ... *)
Theorem C59_identifies : forall E is1 su1 is2 su2 a b,
  ci_sha256 (newCertInfo E is1 su1 a) = ci_sha256 (newCertInfo E is2 su2 b) -> e_hash E HSha256 (c_raw a) = e_hash E HSha256 (c_raw b).
Proof. intros E is1 su1 is2 su2 a b H. eapply hex_text_inj; [apply hex_encode_text|]. unfold newCertInfo in H. cbn [ci_sha256] in H. rewrite H. apply hex_encode_text. Qed.
(** ... and the present fields of the names. *)
Theorem C59_names : forall E issuer subject c,
  let shown n := separated [x2c; x20] (shown_fields
    [([x43], pn_country n); ([x53; x54], pn_province n); ([x4c], pn_locality n); ([x4f], pn_org n); ([x4f; x55], pn_unit n);
     ([x43; x4e], match pn_cn n with [] => [] | cn => [cn] end)]) in
  ci_issuer (newCertInfo E issuer subject c) = shown issuer /\ ci_subject (newCertInfo E issuer subject c) = shown subject.
Proof. intros. split; apply pkixNameToString_shown. Qed.
Example C59_nonvacuous :
  let n := {| pn_country := [[x55; x53]]; pn_province := []; pn_locality := []; pn_org := [[x41]; [x42]]; pn_unit := []; pn_cn := [x44] |} in
  pkixNameToString n = [x43; x3d; x55; x53; x2c; x20; x4f; x3d; x41; x3b; x42; x2c; x20; x43; x4e; x3d; x44] /\   (* C=US, O=A;B, CN=D *)
  hex_text [x0f; xa2] [x30; x66; x61; x32].
Proof. split; [vm_compute; reflexivity|]. exact (hex_encode_text [x0f; xa2]). Qed.
