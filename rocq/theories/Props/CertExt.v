(** C117: the values of certificate extensions, written and read. *)
From Coq Require Import Lia ZifyBool.
From Verif.Model Require Import Bytes Env Asn1 GoTime GoUtf8 Pkcs7 X509 CertExt.
From Verif.Spec Require Import X509 CertExt.
From Verif.Proofs Require Import BytesFacts CertExtFacts.

(** C117.  The extensions that are built from a template (none of them of 2 GiB) are read back: every field of the certificate is
    that of the template, except that IPv4 addresses come back in four octets, that CA and path length are lost
    without BasicConstraintsValid, and that a path length 0 without MaxPathLenZero means none. *)
Theorem C117_read_back : forall K t aki exts, k_text K = goText -> template_ok t -> buildExtensions K t aki = Some exts ->
  Forall (fun e => zlen (asBytes (field 2 e)) < 2 ^ 31) exts ->
  exists c, certExtensions K exts noExt = Some c /\ read_back t aki c.
Proof.
  intros K t aki exts KX T B F. exists (whole t aki). split; [now apply (built_read K KX t aki exts T B) | now apply whole_read_back].
Qed.
Print Assumptions C117_read_back.
(** They are accepted, and none of them is unhandled and critical. *)
Theorem C117_accepted : forall K t aki exts, k_text K = goText -> template_ok t -> buildExtensions K t aki = Some exts ->
  Forall (fun e => zlen (asBytes (field 2 e)) < 2 ^ 31) exts -> parseExtensions K exts = Some false.
Proof.
  intros K t aki exts KX T B F. pose proof (verdict K exts noExt) as V. rewrite (built_read K KX t aki exts T B F) in V.
  destruct (parseExtensions K exts) as [b|]; [|discriminate]. cbn [option_map] in V. injection V as V. f_equal. exact V.
Qed.
Print Assumptions C117_accepted.
(** The model with values and the one of C73 and C80 without them accept the same certificates. *)
Theorem C117_verdict : forall K l, parseExtensions K l = option_map (fun c => match xe_unhandled c with [] => false | _ => true end) (certExtensions K l noExt).
Proof.
  intros K l. pose proof (verdict K l noExt) as V. change (some_unhandled noExt) with false in V.
  change (parseExtensions K l = option_map some_unhandled (certExtensions K l noExt)). rewrite <- V. destruct (parseExtensions K l) as [b|]; reflexivity.
Qed.
Print Assumptions C117_verdict.
(** The key usage that is read has the first nine bits of the bit string, counted from the most significant bit of the first octet. *)
Theorem C117_usage_bits : forall b n i, 0 <= i -> (Z.testbit (usageOf b n) i = true <->
  i < 9 /\ i < n /\ Z.testbit (b2z (nth (Z.to_nat (i / 8)) b x00)) (7 - i mod 8) = true).
Proof.
  intros b n i Hi.
  assert (G : forall l u, Forall (fun k => 0 <= k) l -> (Z.testbit (fold_left (fun u k => if bitAt b n k then Z.lor u (Z.shiftl 1 k) else u) l u) i = true <-> Z.testbit u i = true \/ (In i l /\ bitAt b n i = true))).
  { induction l as [|k l IH]; intros u F; [cbn; tauto|]. inversion F as [|? ? F1 F2]; subst. cbn [fold_left]. rewrite IH by exact F2.
    destruct (bitAt b n k) eqn:B.
    - rewrite Z.lor_spec, orb_true_iff, Z.shiftl_1_l, Z.pow2_bits_eqb by exact F1. cbn [In]. destruct (Z.eqb_spec k i) as [-> | N]; intuition congruence.
    - cbn [In]. intuition congruence. }
  unfold usageOf. rewrite G by (repeat constructor; lia). rewrite Z.bits_0. unfold bitAt.
  assert (In i [0; 1; 2; 3; 4; 5; 6; 7; 8] <-> i < 9) as ->. { cbn [In]. lia. }
  destruct ((i <? 0) || (n <=? i)) eqn:E; [|intuition (try lia)].
  split; [intros [C | [_ C]]; discriminate C | intros (_ & C & _); lia].
Qed.
Print Assumptions C117_usage_bits.

(** Which of them are critical: key usage, basic constraints, and name constraints if the template says so.  Each occurs at most once. *)
Theorem C117_critical : forall K t aki exts, buildExtensions K t aki = Some exts -> NoDup (map (fun e => asOid (field 0 e)) exts) /\
  (forall e, In e exts -> exists id critical value, e = VStruct [] [VOid id; VBool critical; VBytes value] /\ In id recognised /\
     (critical = true <-> id = ce 15 \/ id = ce 19 \/ (id = ce 30 /\ xe_permCritical t = true))).
Proof.
  intros K t aki exts H. unfold buildExtensions in H. cbv zeta in H.
  apply andThen_some in H as (e1 & B1 & H). apply andThen_some in H as (e2 & B2 & H). apply andThen_some in H as (e3 & B3 & H). apply andThen_some in H as (e4 & B4 & H).
  apply andThen_some in H as (e5 & B5 & H). apply andThen_some in H as (e6 & B6 & H). apply andThen_some in H as (e7 & B7 & H). apply andThen_some in H as (e8 & B8 & H).
  apply andThen_some in H as (e9 & B9 & H). apply andThen_some in H as (e10 & B10 & H). injection H as <-.
  assert (G2 : at_most_one (ce 37) false e2).
  { destruct (usageOids (xe_eku t)) as [l|]; [now apply block_one in B2|]. unfold unless in B2.
    destruct (negb (zlen (xe_eku t) =? 0) || negb (zlen (xe_unknownEku t) =? 0)); [discriminate B2|]. injection B2 as <-. now left. }
  assert (G6 : at_most_one id_aia false e6).
  { unfold unless in B6. match type of B6 with (if ?b then _ else _) = _ => destruct b end; [|injection B6 as <-; now left]. match type of B6 with context[match ?m with Some _ => _ | None => _ end] => destruct m as [v|] end; [|discriminate]. injection B6 as <-. right. now exists v. }
  apply block_one in B1, B3, B4, B5, B7, B8, B9, B10. split.
  - rewrite !map_app. apply (picks_nodup _ [ce 15; ce 37; ce 19; ce 14; ce 35; id_aia; ce 17; ce 32; ce 30; ce 31]).
    + rewrite <- (app_nil_r (map _ e10)). do 10 (eapply block_picks; [eassumption|]). constructor.
    + repeat constructor; cbn; intuition discriminate.
  - intros e HI. rewrite !in_app_iff in HI.
    assert (W : forall id cr l, at_most_one id cr l -> In e l -> In id recognised -> (cr = true <-> id = ce 15 \/ id = ce 19 \/ (id = ce 30 /\ xe_permCritical t = true)) ->
      exists id critical value, e = VStruct [] [VOid id; VBool critical; VBytes value] /\ In id recognised /\ (critical = true <-> id = ce 15 \/ id = ce 19 \/ (id = ce 30 /\ xe_permCritical t = true))).
    { intros id cr l [-> | (v & ->)] I R C; [destruct I|]. destruct I as [<- | []]. exists id, cr, v. split; [reflexivity|]. split; assumption. }
    destruct HI as [I | [I | [I | [I | [I | [I | [I | [I | [I | I]]]]]]]]];
      match type of I with In _ ?l => match goal with A : at_most_one _ _ l |- _ => apply (W _ _ _ A I) end end;
      (unfold recognised, ce, id_aia; cbn [In map]; tauto) || (unfold ce, id_aia; intuition congruence).
Qed.
Print Assumptions C117_critical.

(** Not vacuous: a template with all ten extensions. *)
Definition some_template : certExt :=
  mkExt 257 true true 0 true [x01; x02] [] [[x61]] [[x62]; [x63]] [[x64; x2e; x65]] [[x66]] [[x7f; x00; x00; x01]; repeat x00 10 ++ [xff; xff; x0a; x00; x00; x01]] true [[x67]] [[x68]]
    [[x69]] [[1; 2; 3]] [1; 11] [[1; 2; 840; 7]] [].
Definition go_k : xenv := {| k_text := goText; k_point := fun _ x y => x <? y; k_print := fun _ => [] |}.
Theorem C117_not_vacuous : exists exts, k_text go_k = goText /\ template_ok some_template /\ buildExtensions go_k some_template [x03] = Some exts /\ List.length exts = 10%nat /\
  Forall (fun e => zlen (asBytes (field 2 e)) < 2 ^ 31) exts /\
  option_map (fun c => (xe_keyUsage c, xe_ips c, xe_maxPathLen c, xe_maxPathLenZero c)) (certExtensions go_k exts noExt) = Some (257, [[x7f; x00; x00; x01]; [x0a; x00; x00; x01]], 0, true).
Proof.
  destruct (buildExtensions go_k some_template [x03]) as [exts|] eqn:E; [|vm_compute in E; discriminate E]. vm_compute in E. injection E as <-. eexists.
  split; [reflexivity|]. split.
  - constructor; cbn [some_template xe_keyUsage xe_bcValid xe_isCA xe_maxPathLen xe_maxPathLenZero xe_ski xe_aki xe_ocsp xe_issuing xe_dns xe_emails xe_ips xe_permCritical xe_permitted xe_excluded xe_crl xe_policies xe_eku xe_unknownEku xe_unhandled app];
      try lia; try (constructor; [left; reflexivity | constructor; [right; reflexivity | constructor]]); repeat constructor; try lia; try discriminate; try (intros a b r C; injection C as <- <- _; unfold max_int32; lia).
    unfold named_usages. cbn [map In]. intuition discriminate.
  - split; [reflexivity|]. split; [reflexivity|]. split; [|vm_compute; reflexivity]. repeat constructor.
Qed.
Print Assumptions C117_not_vacuous.
