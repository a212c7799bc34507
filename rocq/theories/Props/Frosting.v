(** C35, C36, C102: frosting. *)
From Coq Require Import String.
From Coq Require Import Lia.
From Verif.Model Require Import Bytes Env SigBlock Result Frosting Verify.
From Verif.Spec Require Import Encoding ApkLayout Digests Entries Frosting Verified Calls Nondet.
From Verif.Proofs Require Import BytesFacts FrostingFacts FrostingApkFacts FrostingMade.
From Verif.Examples Require Import Toy ToyApk ToyWith.

(** C35: every value of 0 .. 2^31-1 in canonical form, anywhere in the data, decodes to itself, and exactly its
    bytes are consumed. *)
Theorem C35_varint_partial : forall z pre rest, 0 <= z < 2147483648 ->
  readInt32 (pre ++ varint_enc z ++ rest) (zlen pre) = Some (z, zlen pre + zlen (varint_enc z)).
Proof.
  intros z pre rest H. destruct (varint_canonical_ok 5 z) as [V L]; [cbn; lia | lia|].
  rewrite (readInt32_varint _ _ z (varint_enc z) rest); [f_equal; f_equal; apply wrap32_id; unfold min_int32, max_int32; lia| | | |].
  - apply zlen_nonneg. - exact V. - exact L. - now apply dropZ_app.
Qed.
Print Assumptions C35_varint_partial.
(** What is decoded in general: any varint of at most five bytes, modulo 2^32. *)
Theorem C35_varint_exact_partial : forall data pre v p, (exists rest, data = pre ++ rest) ->
  readInt32 data (zlen pre) = Some (v, p) <->
  exists bs rest, data = pre ++ bs ++ rest /\ varint32 v bs /\ p = zlen pre + zlen bs.
Proof.
  intros data pre v p (rest & ->). split.
  - intro R. apply readInt32_inv in R as (bs & V & D & ->); [|apply zlen_nonneg]. rewrite dropZ_app in D by reflexivity. rewrite D. eauto.
  - intros (bs & r & Q & (z & V & L & ->) & ->). apply app_inv_head in Q. subst rest. apply (readInt32_varint _ _ z bs r); [apply zlen_nonneg|assumption|assumption|now apply dropZ_app].
Qed.
Print Assumptions C35_varint_exact_partial.
(** C35, the rest, is false: the fifth byte may set the sign bit. *)
Theorem C35_refuted : exists data v p, readInt32 data 0 = Some (v, p) /\ v < 0.
Proof. exists (map z2b [128; 128; 128; 128; 8]), (-2147483648), 5. split; [vm_compute; reflexivity | lia]. Qed.
Print Assumptions C35_refuted.
Example C35_nonvacuous : varint_enc 300 = map z2b [0xac; 0x02] /\ readInt32 (map z2b [7; 0xac; 0x02; 9]) 1 = Some (300, 3).
Proof. split; reflexivity. Qed.

(** C36 *)
Theorem C36_frosting : forall E S, ecdsa_sig_min E -> forall file minSdk maxSdk z res err fr,
  returns E S file minSdk maxSdk z res err -> v_frosting res = Some fr -> fr_error fr = None -> frosting_verified E file err fr.
Proof. intros E S Min file minSdk maxSdk z res err fr. exact (frosting_sound E S file minSdk maxSdk z res err fr Min). Qed.
Print Assumptions C36_frosting.

(** A file with frosting: "signatures" are the first 8 bytes of the digest. *)
Definition fr_env : env := {|
  e_hash := e_hash toy_env; e_rsa_pss := e_rsa_pss toy_env; e_rsa_pkcs1 := e_rsa_pkcs1 toy_env;
  e_ecdsa := fun _ d r _ => r =? 1 + le_dec (firstn 8 d);
  e_dsa := e_dsa toy_env; e_asn1_ints := e_asn1_ints toy_env;
  e_asn1_rs_std := fun s => if zlen s =? 8 then Some (1 + le_dec s, 1, false) else None;
  e_asn1_rs_andr := e_asn1_rs_andr toy_env; e_pkix_andr := e_pkix_andr toy_env; e_pkix_std := fun k => Some (KEcdsa k);
  e_cert_andr := e_cert_andr toy_env; e_cert_std := e_cert_std toy_env; e_pkcs7 := e_pkcs7 toy_env; e_asn1_oid := e_asn1_oid toy_env;
  e_asn1_octets := e_asn1_octets toy_env; e_marshal_attrs := e_marshal_attrs toy_env; e_cert_check := e_cert_check toy_env;
  e_base64 := e_base64 toy_env; e_parse_xml := e_parse_xml toy_env; e_to_lower := e_to_lower toy_env |}.
Definition fr_v2 : bytes := map z2b [1; 2; 3].
Definition fr_sha : bytes :=
  e_hash fr_env HSha256 (toy_before ++ le32 0x7109871a ++ fr_v2 ++ toy_cd ++ toy_eocd (zlen toy_cd) (zlen toy_before) []).
Definition vf (x : bytes) : bytes := varint_enc (zlen x) ++ x.
Definition fr_proto : bytes := map z2b [42; 43].
Definition fr_meta : bytes := vf (map z2b [1; 9; 9]) ++ vf (map z2b [0; 0] ++ fr_sha).
Definition fr_signed : bytes := vf fr_proto ++ vf fr_meta.
Definition fr_sig : bytes := firstn 8 (e_hash fr_env HSha256 fr_signed).
Definition fr_block : bytes := vf fr_signed ++ vf (vf (map z2b [0]) ++ vf fr_sig).
Definition fr_file : bytes := toy_apk toy_before (enc_entries [(id_v2, fr_v2); (id_frosting, fr_block)]) toy_cd [].
Example C36_nonvacuous : ecdsa_sig_min fr_env /\
  (exists res err fr, returns fr_env toy_sched fr_file 21 32 toy_zip res err /\ v_frosting res = Some fr /\ fr_error fr = None /\ fr_protobufInfo fr = fr_proto) /\
  (* another v2 block *)
  (exists res err fr, returns fr_env toy_sched (toy_apk toy_before (enc_entries [(id_v2, fr_v2 ++ fr_v2); (id_frosting, fr_block)]) toy_cd []) 21 32 toy_zip res err /\
     v_frosting res = Some fr /\ fr_error fr = Some FErrDigestMismatch).
Proof.
  split; [|split].
  - intros sig rs. cbn. destruct (Z.eqb_spec (zlen sig) 8); [lia|discriminate].
  - eexists _, _, _. split; [eexists; split; [vm_compute; reflexivity | split; reflexivity]|]. repeat split.
  - eexists _, _, _. split; [eexists; split; [vm_compute; reflexivity | split; reflexivity]|]. repeat split.
Qed.

(** C102: frosting made for a file with well-formed signing block is reported without error, with its protobuf and the hash
    of the key, whatever the SDK levels and whether or not the signatures verify. *)
Theorem C102_frosting_complete : forall E S, ecdsa_sig_min E -> forall file minSdk maxSdk z res err fr,
  returns E S file minSdk maxSdk z res err -> frosting_genuine E file fr -> fr_error fr = None -> v_frosting res = Some fr.
Proof. intros E S Min file minSdk maxSdk z res err fr. exact (frosting_complete E S file minSdk maxSdk z res err fr Min). Qed.
Print Assumptions C102_frosting_complete.

(** So tampering with the protected parts is noticed, and nothing else about the frosting can be wrong: two results for the
    same block and file agree whatever the levels. *)
Theorem C102_frosting_levels : forall E S, ecdsa_sig_min E -> forall file z minSdk maxSdk res err fr minSdk' maxSdk' res' err' S',
  returns E S file minSdk maxSdk z res err -> v_frosting res = Some fr -> fr_error fr = None ->
  (exists before pairs cd rec es, apk file before pairs cd rec /\ entries_of pairs es) ->
  returns E S' file minSdk' maxSdk' z res' err' -> v_frosting res' = Some fr.
Proof.
  intros E S Min file z minSdk maxSdk res err fr minSdk' maxSdk' res' err' S' R Fr Fe (before & pairs & cd & rec & es & A & Es) R'.
  apply (C102_frosting_complete E S' Min file minSdk' maxSdk' z res' err' fr R'); [|assumption].
  apply (frosting_sound_whole E S file minSdk maxSdk z res err fr before pairs cd rec es Min R A Es Fr Fe).
Qed.
Print Assumptions C102_frosting_levels.

Definition fr_result : frostingResult :=
  {| fr_error := None; fr_keySha256 := hex_encode (e_hash fr_env HSha256 match e_base64 fr_env frosting_key with Some k => k | None => [] end);
     fr_protobufInfo := fr_proto |}.
Lemma fr_vfield x : zlen x < 1000000 -> vfield x (vf x).
Proof.
  intro L. pose proof (zlen_nonneg x). exists (varint_enc (zlen x)). split; [|reflexivity]. exists (zlen x).
  destruct (varint_canonical_ok 5 (zlen x)) as [V Lv]; [cbn; lia | lia|]. split; [exact V|]. split; [exact Lv|].
  symmetry. apply wrap32_id. unfold min_int32, max_int32. lia.
Qed.
Lemma fr_varint z : 0 <= z < 1000000 -> varint32 z (varint_enc z).
Proof.
  intro L. exists z. destruct (varint_canonical_ok 5 z) as [V Lv]; [cbn; lia | lia|]. split; [exact V|]. split; [exact Lv|].
  symmetry. apply wrap32_id. unfold min_int32, max_int32. lia.
Qed.
Example C102_nonvacuous : ecdsa_sig_min fr_env /\ frosting_genuine fr_env fr_file fr_result /\
  exists res err, returns fr_env toy_sched fr_file 21 32 toy_zip res err.
Proof.
  split; [exact (proj1 C36_nonvacuous)|]. split; [|destruct C36_nonvacuous as (_ & (res & err & fr & R & _) & _); eauto].
  destruct (toy_with [(id_v2, fr_v2); (id_frosting, fr_block)]) as (before & pairs & cd & rec & A & Es & rec' & Pa & Sec).
  { repeat constructor; cbn [fst snd]; unfold is_uint32, id_v2, id_frosting; try lia; vm_compute; discriminate. }
  { intros b id Q. apply (f_equal (@rev _)) in Q. rewrite rev_app_distr in Q. injection Q as _ Q _. vm_compute in Q. discriminate. }
  { vm_compute. discriminate. }
  injection Sec as <- <- <-. exists toy_before, pairs, toy_cd, rec, [(id_v2, fr_v2); (id_frosting, fr_block)].
  split; [exact A|]. split; [exact Es|].
  exists fr_block, [map z2b [1; 9; 9]], (map z2b [0; 0] ++ fr_sha), fr_sha, fr_sig, fr_signed, (match e_base64 fr_env frosting_key with Some k => k | None => [] end), (Some fr_v2), 
    (toy_before ++ le32 0x7109871a ++ fr_v2 ++ toy_cd ++ toy_eocd (zlen toy_cd) (zlen toy_before) []).
  split; [exists [(id_v2, fr_v2)], []; split; [reflexivity|intros []]|].
  split.
  { exists (zlen fr_signed), (varint_enc (zlen fr_signed)), (vf fr_proto), (varint_enc (zlen fr_meta)), (zlen fr_meta), (vf (map z2b [1; 9; 9])), (vf (map z2b [0; 0] ++ fr_sha)),
      (vf (vf (map z2b [0]) ++ vf fr_sig)).
    split; [apply fr_varint; vm_compute; split; [discriminate|reflexivity]|]. split; [apply fr_vfield; vm_compute; reflexivity|].
    split; [apply fr_varint; vm_compute; split; [discriminate|reflexivity]|].
    split; [exists [vf (map z2b [1; 9; 9])]; split; [repeat constructor; apply fr_vfield; vm_compute; reflexivity | vm_compute; reflexivity]|].
    split; [apply fr_vfield; vm_compute; reflexivity|]. split; [vm_compute; reflexivity|]. split; [vm_compute; reflexivity|].
    split; [vm_compute; discriminate|]. split; [vm_compute; discriminate|].
    exists fr_signed, (varint_enc (zlen (vf (map z2b [0]) ++ vf fr_sig))), (vf (map z2b [0]) ++ vf fr_sig), [], [vf (map z2b [0])], (vf fr_sig), [].
    split; [vm_compute; reflexivity|]. split; [reflexivity|]. split; [apply fr_varint; vm_compute; split; [discriminate|reflexivity]|].
    split; [vm_compute; reflexivity|]. split; [apply fr_vfield; vm_compute; reflexivity|]. split; [reflexivity|].
    repeat constructor. exists (map z2b [0]). apply fr_vfield. vm_compute. reflexivity. }
  split. { repeat constructor. exists 1, (varint_enc 1), (map z2b [9; 9]). split; [discriminate|]. split; [apply fr_varint; lia|vm_compute; reflexivity]. }
  split. { exists (varint_enc 0), (varint_enc 0). split; [apply fr_varint; lia|]. split; [apply fr_varint; lia|]. split; vm_compute; reflexivity. }
  split; [vm_compute; reflexivity|]. split; [discriminate|]. split; [reflexivity|].
  split. { eexists _, _, _. split; [reflexivity|]. split; [vm_compute; reflexivity|]. split; [lia|]. split; [lia|]. vm_compute. reflexivity. }
  split; [reflexivity|]. split.
  { intro p. split; [intro Q; injection Q as <-; exists [], [(id_frosting, fr_block)]; split; [reflexivity|intros [Q|[]]; discriminate]|].
    intros (b & a & Q & N). destruct b as [|[? ?] [|[? ?] [|]]]; try discriminate. now injection Q as <- <-. }
  split; [|reflexivity]. eexists. split; [exact Pa|]. reflexivity.
Qed.
