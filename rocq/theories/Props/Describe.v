(** C115: what CertInfo.String and the dump of a lineage node show. *)
From Coq Require Import String Lia.
From Verif.Model Require Import Bytes Env GoStrings Result SigBlock Utils CertInfo GoTime Printing SchemeV3 CertPrint.
From Verif.Spec Require Import CertPick Time Describe.
From Verif.Proofs Require Import BytesFacts CertInfoFacts DescribeFacts.
From Verif.Examples Require Import Toy.

Definition cert_text (E : env) (offFrom offTo : Z) (issuer subject : pkix_name) (c : cert) : bytes :=
  certInfoString offFrom offTo (newCertInfo E issuer subject c).

(** C115 (contents): the text of a certificate is its SHA-1 in hexadecimal, the two ends of its validity in RFC 3339, and its names. *)
Theorem C115_contents : forall E offFrom offTo issuer subject c, zone_offset offFrom -> zone_offset offTo ->
  four_digit_year offFrom (c_not_before c) -> four_digit_year offTo (c_not_after c) ->
  exists sha1 from to, hex_text (e_hash E HSha1 (c_raw c)) sha1 /\ rfc3339_text offFrom from (c_not_before c) /\ rfc3339_text offTo to (c_not_after c) /\
    cert_text E offFrom offTo issuer subject c =
    s2b "Cert " ++ sha1 ++ s2b ", valid from " ++ from ++ s2b " to " ++ to ++
    s2b ", Subject: " ++ pkixNameToString subject ++ s2b ", Issuer: " ++ pkixNameToString issuer.
Proof.
  intros E f t i s c Hf Ht Yf Yt. exists (hex_encode (e_hash E HSha1 (c_raw c))), (formatRFC3339 f (c_not_before c)), (formatRFC3339 t (c_not_after c)).
  split; [apply hex_encode_text|]. split; [now apply format_ok|]. split; [now apply format_ok | reflexivity].
Qed.
Print Assumptions C115_contents.

(** An RFC 3339 text is the text of one time in one zone. *)
Theorem C115_one_time : forall off off' s t t', rfc3339_text off s t -> rfc3339_text off' s t' -> off = off' /\ t = t'.
Proof. intros. eapply rfc3339_inj; [eassumption.. | reflexivity]. Qed.
Print Assumptions C115_one_time.

(** C115 (identification): equal texts are texts of the same certificate bytes, or of two with the same SHA-1. *)
Theorem C115_identifies : forall E f t i s c f' t' i' s' c', cert_text E f t i s c = cert_text E f' t' i' s' c' ->
  c_raw c = c_raw c' \/ (c_raw c <> c_raw c' /\ e_hash E HSha1 (c_raw c) = e_hash E HSha1 (c_raw c')).
Proof.
  intros E f t i s c f' t' i' s' c' H. unfold cert_text, certInfoString in H. apply app_inv_head in H.
  apply (split_sep ","%byte) in H; [|reflexivity | apply hex_encode_no; not_alphabet..]. destruct H as [H _].
  apply hex_encode_inj in H. destruct (bytes_eqb (c_raw c) (c_raw c')) eqn:R.
  - left. now apply bytes_eqb_eq.
  - right. split; [now apply bytes_eqb_neq | assumption].
Qed.
Print Assumptions C115_identifies.

(** C115 (dump): nodes whose dumps are equal are equal in all that Equal compares (schemev3lineage.go:62-90), or SHA-1 takes the same value on two different
    certificates or signatures.  [from], [to], [issuer], [subject] are what the certificate says. *)
Theorem C115_dump : forall E from to issuer subject n n',
  let dump n := lineageNodeDump E (from (ln_cert n)) (to (ln_cert n)) (issuer (ln_cert n)) (subject (ln_cert n)) n in
  Forall int32 [ln_parent_algo n; ln_algo n; ln_flags n; ln_parent_algo n'; ln_algo n'; ln_flags n'] ->
  (c_raw (ln_cert n) = c_raw (ln_cert n') -> ln_cert n = ln_cert n') -> dump n = dump n' ->
  lnode_equal n n' = true \/
  exists x y, x <> y /\ e_hash E HSha1 x = e_hash E HSha1 y /\ ((x = c_raw (ln_cert n) /\ y = c_raw (ln_cert n')) \/ (x = ln_signature n /\ y = ln_signature n')).
Proof.
  intros E from to issuer subject n n' dump HB Same D.
  assert (H : forall z, In z [ln_parent_algo n; ln_algo n; ln_flags n; ln_parent_algo n'; ln_algo n'; ln_flags n'] -> int32 z) by (apply Forall_forall; exact HB).
  apply (dump_inj E from to issuer subject) in D; [| apply H; cbn [In]; tauto.. | assumption].
  destruct D as [[N C] | (C & P & A & F & G)].
  - right. exists (c_raw (ln_cert n)), (c_raw (ln_cert n')). tauto.
  - destruct (bytes_eqb (ln_signature n) (ln_signature n')) eqn:R.
    + left. unfold lnode_equal, cert_equal. rewrite C, P, A, F, R, bytes_eqb_refl, !Z.eqb_refl. reflexivity.
    + right. exists (ln_signature n), (ln_signature n'). split; [now apply bytes_eqb_neq | tauto].
Qed.
Print Assumptions C115_dump.

(** Equal nodes are those with the same certificate bytes, algorithms, signature and flags; equal lists have equal nodes in the same places. *)
Theorem C115_equal : forall l o, lnodes_equal l o = true <->
  List.length l = List.length o /\ forall i n n', nth_error l i = Some n -> nth_error o i = Some n' ->
    c_raw (ln_cert n) = c_raw (ln_cert n') /\ ln_parent_algo n = ln_parent_algo n' /\ ln_algo n = ln_algo n' /\ ln_signature n = ln_signature n' /\ ln_flags n = ln_flags n'.
Proof.
  assert (N : forall n n', lnode_equal n n' = true <-> c_raw (ln_cert n) = c_raw (ln_cert n') /\ ln_parent_algo n = ln_parent_algo n' /\ ln_algo n = ln_algo n' /\ ln_signature n = ln_signature n' /\ ln_flags n = ln_flags n').
  { intros n n'. unfold lnode_equal, cert_equal. rewrite !andb_true_iff, !bytes_eqb_eq, !Z.eqb_eq. tauto. }
  induction l as [|x l IH]; intros [|y o]; cbn [lnodes_equal List.length].
  - split; [|reflexivity]. intros _. split; [reflexivity|]. intros [|i] n n' H; discriminate.
  - split; [discriminate | intros [H _]; discriminate].
  - split; [discriminate | intros [H _]; discriminate].
  - rewrite andb_true_iff, N, IH. split.
    + intros [H [L Q]]. split; [now f_equal|]. intros [|i] n n'; cbn [nth_error]; [|apply Q]. intros E E'. injection E as <-. injection E' as <-. exact H.
    + intros [L Q]. split; [exact (Q 0%nat x y eq_refl eq_refl)|]. split; [now injection L|]. intros i n n' E E'. exact (Q (Datatypes.S i) n n' E E').
Qed.
Print Assumptions C115_equal.

Example C115_nonvacuous :
  formatRFC3339 0 1438761713 = s2b "2015-08-05T08:01:53Z" /\
  zone_offset (-19800) /\ four_digit_year (-19800) 951868799 /\ rfc3339_text (-19800) (s2b "2000-02-29T18:29:59-05:30") 951868799.
Proof.
  split; [vm_compute; reflexivity|].
  assert (Z : zone_offset (-19800)).
  { exists (s2b "-0530"). apply (zt_offset true 5 30 (s2b "05") (s2b "30")); try lia; split; try lia; reflexivity. }
  assert (Y : four_digit_year (-19800) 951868799).
  { assert (V : valid_date 2000 2 29) by (exists 29; split; [apply ml_29; unfold leap_year; vm_compute; intuition discriminate | lia]).
    exists 2000, 2, 29. split; [exact V|]. split; [lia|]. apply TimeFacts.calendar; [exact V | vm_compute; reflexivity]. }
  split; [exact Z|]. split; [exact Y|].
  change (s2b "2000-02-29T18:29:59-05:30") with (formatRFC3339 (-19800) 951868799). now apply format_ok.
Qed.
(** Two nodes with the same certificate and other flags: the hypotheses of C115_dump hold and the dumps differ. *)
Example C115_dump_nonvacuous :
  let node flags := {| ln_cert := toy_cert [x01; x02]; ln_parent_algo := 0; ln_algo := 0x0103; ln_signature := [x05]; ln_flags := flags |} in
  let name := {| pn_country := []; pn_province := []; pn_locality := []; pn_org := []; pn_unit := []; pn_cn := s2b "A" |} in
  let dump n := lineageNodeDump toy_env (s2b "t0") (s2b "t1") name name n in
  Forall int32 [ln_parent_algo (node 3); ln_algo (node 3); ln_flags (node 3); ln_parent_algo (node 7); ln_algo (node 7); ln_flags (node 7)] /\
  dump (node 3) = dump (node 3) /\ dump (node 3) <> dump (node 7) /\ lnode_equal (node 3) (node 7) = false.
Proof.
  cbv zeta. split; [repeat constructor; cbn; unfold int32; lia|]. split; [reflexivity|]. split; [|vm_compute; reflexivity].
  intros H. assert (bytes_eqb (lineageNodeDump toy_env (s2b "t0") (s2b "t1") {| pn_country := []; pn_province := []; pn_locality := []; pn_org := []; pn_unit := []; pn_cn := s2b "A" |}
      {| pn_country := []; pn_province := []; pn_locality := []; pn_org := []; pn_unit := []; pn_cn := s2b "A" |}
      {| ln_cert := toy_cert [x01; x02]; ln_parent_algo := 0; ln_algo := 0x0103; ln_signature := [x05]; ln_flags := 3 |})
    (lineageNodeDump toy_env (s2b "t0") (s2b "t1") {| pn_country := []; pn_province := []; pn_locality := []; pn_org := []; pn_unit := []; pn_cn := s2b "A" |}
      {| pn_country := []; pn_province := []; pn_locality := []; pn_org := []; pn_unit := []; pn_cn := s2b "A" |}
      {| ln_cert := toy_cert [x01; x02]; ln_parent_algo := 0; ln_algo := 0x0103; ln_signature := [x05]; ln_flags := 7 |}) = false) as F by (vm_compute; reflexivity).
  rewrite H, bytes_eqb_refl in F. discriminate.
Qed.
