(** That the concrete encodings of [ToyPkcs7] and [ToyX509] are DER, and the document a concrete certificate encodes. *)
From Coq Require Import String.
From Coq Require Import Lia.
From Verif.Model Require Import Bytes Env GoStrings Asn1 Pkcs7 X509.
From Verif.Spec Require Import Ber Asn1 Asn1Value Pkcs7 X509 Encoding.
From Verif.Proofs Require Import BytesFacts BerFacts Asn1Codec DerFacts X509Honest.
From Verif.Examples Require Import Toy ToyApk ToyPkcs7 ToyX509.

Lemma tlv_length n : 0 <= n < 65536 -> der_length n (if n <? 128 then [z2b n] else if n <? 256 then [x81; z2b n] else [x82; z2b (n / 256); z2b n]).
Proof.
  intros H. destruct (Z.ltb_spec n 128); [apply short_min; lia|].
  destruct (Z.ltb_spec n 256).
  - assert (E : be_val [z2b n] = n). { rewrite be_val_cons, be_val_nil. change (zlen ([] : bytes)) with 0. rewrite b2z_z2b, Z.mod_small by lia. lia. }
    rewrite <- E at 1. apply (long_min (z2b n) []); [lia| |reflexivity]. intros C. apply (f_equal b2z) in C. rewrite b2z_z2b, Z.mod_small in C by lia. change (b2z x00) with 0 in C. lia.
  - assert (E : be_val [z2b (n / 256); z2b n] = n). { rewrite !be_val_cons, be_val_nil. change (zlen ([] : bytes)) with 0. change (zlen [z2b n]) with 1. rewrite !b2z_z2b. rewrite (Z.mod_small (n / 256)) by (split; [apply Z.div_pos; lia|apply Z.div_lt_upper_bound; lia]). pose proof (Z.div_mod n 256). lia. }
    rewrite <- E at 1. apply (long_min (z2b (n / 256)) [z2b n]); [lia| |reflexivity]. intros C. apply (f_equal b2z) in C. rewrite b2z_z2b, Z.mod_small in C by (split; [apply Z.div_pos; lia|apply Z.div_lt_upper_bound; lia]). change (b2z x00) with 0 in C. assert (256 / 256 <= n / 256) by (apply Z.div_le_mono; lia). change (256 / 256) with 1 in *. lia.
Qed.
Lemma tlv_der class t k x b : 0 <= class < 4 -> 0 <= t < 31 -> x = z2b (class * 64 + (if k : bool then 32 else 0) + t) -> zlen b <? 65536 = true -> der_element class t k b (tlv x b).
Proof.
  intros HC HT -> HL. apply Z.ltb_lt in HL. pose proof (zlen_nonneg b). eexists [_], _. split; [unfold tlv; reflexivity|]. split; [|apply tlv_length; lia].
  split; [split; [exact HC|]; left; split; [exact HT|reflexivity]|]. intros c r E1 E2. exfalso. assert (c = z2b (class * 64 + (if k then 32 else 0) + t)) as -> by congruence. rewrite b2z_z2b in E2.
  rewrite (Z.mod_small (class * 64 + _ + t) 256) in E2 by (destruct k; lia). assert (E3 : (class * 64 + (if k then 32 else 0) + t) mod 32 = t); [|lia].
  assert (E4 : class * 64 + (if k then 32 else 0) + t = t + (class * 2 + if k then 1 else 0) * 32) by (destruct k; lia). rewrite E4, Z.mod_add, Z.mod_small by lia. reflexivity.
Qed.
Lemma tlv_size x b : zlen (tlv x b) <= 4 + zlen b.
Proof. unfold tlv. rewrite zlen_cons, zlen_app. destruct (_ <? _); [|destruct (_ <? _)]; rewrite ?zlen_cons; change (zlen ([] : bytes)) with 0; lia. Qed.
Ltac der_tlv := apply tlv_der; [lia|lia|reflexivity|vm_compute; reflexivity].
Lemma valid_oid_b a b r : ((0 <=? a) && (a <=? 2) && (0 <=? b) && (b <? 40) && forallb (fun n => (0 <=? n) && (n <=? max_int32)) r)%bool = true -> valid_oid (a :: b :: r).
Proof.
  intros H. apply andb_true_iff in H as [H H5]. apply andb_true_iff in H as [H H4]. apply andb_true_iff in H as [H H3]. apply andb_true_iff in H as [H1 H2]. apply Z.leb_le in H1, H2, H3. apply Z.ltb_lt in H4.
  exists a, b, r. unfold max_int32 in *. repeat split; try lia. apply Forall_forall. intros n Hn. rewrite forallb_forall in H5. specialize (H5 n Hn). apply andb_true_iff in H5 as [H6 H7]. apply Z.leb_le in H6, H7. lia.
Qed.
Ltac valid := apply valid_oid_b; vm_compute; reflexivity.
Lemma oid_tlv o b : valid_oid o -> encodeOid o = Some b -> zlen b <? 65536 = true -> oid_element o (tlv x06 b).
Proof. intros HV HE HL. exists b. split; [|apply tlv_der; [lia|lia|reflexivity|exact HL]]. destruct (encodeOid_der o HV) as (b' & E1 & HB). assert (b' = b) as -> by congruence. exact HB. Qed.
Ltac oid_ := apply oid_tlv; [valid|vm_compute; reflexivity|vm_compute; reflexivity].
Lemma int_tlv l z : parseBigInt l = Some z -> zlen l <? 65536 = true -> integer_element z (tlv x02 l).
Proof. intros H HL. exists l. split; [apply parseBigInt_iff; exact H|apply tlv_der; [lia|lia|reflexivity|exact HL]]. Qed.
Lemma null_element : is_element e_null.
Proof. exists 0, 5, false, []. apply der_small; [|vm_compute; reflexivity]. change e_null with (tlv x05 []). der_tlv. Qed.
Lemma alg_tlv o b : valid_oid o -> encodeOid o = Some b -> zlen b <? 65500 = true -> algorithm_der (o, Some e_null) (seq [tlv x06 b; e_null]).
Proof.
  intros HV HE HL. apply Z.ltb_lt in HL. exists (tlv x06 b), e_null. cbn [fst snd optional]. split; [apply oid_tlv; [exact HV|exact HE|apply Z.ltb_lt; lia]|]. split; [split; [exact null_element|reflexivity]|].
  apply tlv_der; [lia|lia|reflexivity|]. apply Z.ltb_lt. cbn [concat]. unfold tlv. rewrite zlen_app, zlen_cons, zlen_app. change (zlen (e_null ++ [])) with 2. pose proof (zlen_nonneg b). destruct (zlen b <? 128); [|destruct (zlen b <? 256)]; rewrite ?zlen_cons; change (zlen ([] : bytes)) with 0; lia.
Qed.
Ltac alg_ := apply alg_tlv; [valid|vm_compute; reflexivity|vm_compute; reflexivity].

(** *** The document of the concrete certificate *)
Definition x_name_doc : name_doc := [[([2; 5; 4; 6], (19, s2b "CZ"))]; [([2; 5; 4; 3], (12, s2b "Signer"))]].
Definition x_doc (spki : bytes) (key : gokey) (exts : list ext_doc) : cert_doc := {|
  d_version := Some 2; d_serial := 42; d_sigalg := ([1; 2; 840; 113549; 1; 1; 11], Some e_null); d_issuer := x_name_doc; d_not_before := 13; d_not_after := 115;
  d_subject := x_name_doc; d_key := key; d_spki := spki; d_issuer_uid := None; d_subject_uid := None; d_exts := Some exts;
  d_outer_alg := ([1; 2; 840; 113549; 1; 1; 11], Some e_null); d_signature := s2b "signature" |}.
Definition x_ski_doc : ext_doc := {| x_id := [2; 5; 29; 14]; x_critical := false; x_value := tlv x04 (s2b "id") |}.
Definition x_usage_doc : ext_doc := {| x_id := [2; 5; 29; 15]; x_critical := true; x_value := tlv x03 [x07; x80] |}.
Definition x_unknown_doc (crit : bool) : ext_doc := {| x_id := [1; 2; 3]; x_critical := crit; x_value := s2b "??" |}.

Lemma string_attribute o b t x s : valid_oid o -> encodeOid o = Some b -> zlen b <? 200 = true -> zlen s <? 200 = true -> 0 <= t < 31 -> x = z2b t -> string_ok (k_text toy_k) t s ->
  name_attribute_der (k_text toy_k) (o, (t, s)) (seq [tlv x06 b; tlv x s]).
Proof.
  intros HV HE Hb Hs HT -> HS. apply Z.ltb_lt in Hb, Hs. pose proof (zlen_nonneg b). pose proof (zlen_nonneg s). exists (tlv x06 b), (tlv (z2b t) s). cbn [fst snd]. split; [apply oid_tlv; [exact HV|exact HE|apply Z.ltb_lt; lia]|]. split; [exact HV|]. split; [exact HS|].
  split; [apply tlv_der; [lia|lia|reflexivity|apply Z.ltb_lt; lia]|]. apply tlv_der; [lia|lia|reflexivity|]. apply Z.ltb_lt. cbn [concat]. unfold tlv. rewrite !zlen_app, !zlen_cons, !zlen_app. change (zlen ([] : bytes)) with 0.
  repeat match goal with |- context [zlen (if ?c then _ else _)] => destruct c end; rewrite ?zlen_cons; change (zlen ([] : bytes)) with 0; lia.
Qed.
Lemma x_name_der : name_der (k_text toy_k) x_name_doc x_name.
Proof.
  eexists. split; [|unfold x_name; der_tlv]. repeat constructor.
  - eexists. split; [|der_tlv]. repeat constructor. apply string_attribute; [valid|vm_compute; reflexivity|vm_compute; reflexivity|vm_compute; reflexivity|lia|reflexivity|]. left. left. reflexivity.
  - eexists. split; [|der_tlv]. repeat constructor. apply string_attribute; [valid|vm_compute; reflexivity|vm_compute; reflexivity|vm_compute; reflexivity|lia|reflexivity|]. right. left. split; reflexivity.
Qed.
Lemma x_mail_der m : m = "a@b"%string \/ m = "c@d"%string -> name_der (k_text toy_k) [[([1; 2; 840; 113549; 1; 9; 1], (22, s2b m))]; [([2; 5; 4; 3], (12, s2b "Signer"))]] (x_mail m).
Proof.
  intros Hm. eexists. split; [|unfold x_mail; destruct Hm as [-> | ->]; der_tlv]. repeat constructor.
  - eexists. split; [|destruct Hm as [-> | ->]; der_tlv]. repeat constructor. destruct Hm as [-> | ->]; (apply string_attribute; [valid|vm_compute; reflexivity|vm_compute; reflexivity|vm_compute; reflexivity|lia|reflexivity|]; right; right; left; split; [reflexivity|repeat constructor; vm_compute; reflexivity]).
  - eexists. split; [|der_tlv]. repeat constructor. apply string_attribute; [valid|vm_compute; reflexivity|vm_compute; reflexivity|vm_compute; reflexivity|lia|reflexivity|]. right. left. split; reflexivity.
Qed.
(** An RSA key *)
Lemma x_rsa_size n : zlen n < 128 -> zlen (concat [int n; int [x03]]) < 160.
Proof. intros H. cbn [concat]. rewrite !zlen_app. change (zlen (int [x03])) with 3. change (zlen ([] : bytes)) with 0. pose proof (tlv_size x02 n). unfold int. lia. Qed.
Lemma x_rsa_spki n : zlen n <? 128 = true -> spki_of (id_rsa, Some e_null) (seq [int n; int [x03]]) (x_rsa n).
Proof.
  intros Hn. apply Z.ltb_lt in Hn. pose proof (zlen_nonneg n). exists (seq [pkcs [x01; x01]; e_null]), (bits (seq [int n; int [x03]])).
  pose proof (x_rsa_size n Hn) as S1. pose proof (tlv_size x30 (concat [int n; int [x03]])) as S2. fold (seq [int n; int [x03]]) in S2. pose proof (tlv_size x03 (x00 :: seq [int n; int [x03]])) as S3. rewrite zlen_cons in S3. fold (bits (seq [int n; int [x03]])) in S3.
  split; [unfold pkcs; alg_|]. split; [apply tlv_der; [lia|lia|reflexivity|apply Z.ltb_lt; rewrite zlen_cons; lia]|].
  apply tlv_der; [lia|lia|reflexivity|]. apply Z.ltb_lt. cbn [concat]. rewrite !zlen_app. change (zlen (seq [pkcs [x01; x01]; e_null])) with 15. change (zlen ([] : bytes)) with 0. lia.
Qed.
Lemma x_rsa_der n z : parseBigInt n = Some z -> 0 < z -> zlen n <? 128 = true -> spki_der toy_k (GRsa z 3) (x_rsa n).
Proof.
  intros HZ Hz Hn. assert (Hn2 := Hn). apply Z.ltb_lt in Hn2. pose proof (zlen_nonneg n). eapply sp_rsa; [exact Hz|lia|apply (int_tlv n); [exact HZ|apply Z.ltb_lt; lia]|apply (int_tlv [x03]); vm_compute; reflexivity| |apply x_rsa_spki; exact Hn].
  apply tlv_der; [lia|lia|reflexivity|]. apply Z.ltb_lt. pose proof (x_rsa_size n Hn2). unfold int in *. lia.
Qed.
Lemma x_cert_der spki key exts encs : spki_der toy_k key spki -> Forall2 extension_der exts encs -> zlen spki <? 4096 = true -> zlen (concat encs) <? 4096 = true ->
  certificate_der toy_k (x_doc spki key exts) (x_cert spki encs).
Proof.
  intros HK HX HS HC. apply Z.ltb_lt in HS, HC. pose proof (zlen_nonneg spki). pose proof (zlen_nonneg (concat encs)).
  assert (S1 : zlen (seq encs) < 4200) by (unfold seq; pose proof (tlv_size x30 (concat encs)); lia). pose proof (tlv_size xa3 (seq encs)) as S2.
  assert (S3 : zlen (concat [tlv xa0 (int [x02]); int [x2a]; x_sigalg; x_name; x_times; x_name; spki; tlv xa3 (seq encs)]) < 9000).
  { cbn [concat]. rewrite !zlen_app. change (zlen (tlv xa0 (int [x02]))) with 5. change (zlen (int [x2a])) with 3. change (zlen x_sigalg) with 15. change (zlen x_name) with 32. change (zlen x_times) with 34. change (zlen ([] : bytes)) with 0. lia. }
  exists (tlv xa0 (int [x02])), (int [x2a]), x_sigalg, x_name, (tlv x17 (s2b "200101000000Z")), (tlv x18 (s2b "20500101000000Z")), x_times, x_name, [], [], (tlv xa3 (seq encs)),
    (seq [tlv xa0 (int [x02]); int [x2a]; x_sigalg; x_name; x_times; x_name; spki; tlv xa3 (seq encs)]), x_sigalg, (bits (s2b "signature")).
  cbn [x_doc d_version d_serial d_sigalg d_issuer d_not_before d_not_after d_subject d_key d_spki d_issuer_uid d_subject_uid d_exts d_outer_alg d_signature optional].
  split; [split; [lia|]; exists (int [x02]); split; [apply int_tlv; vm_compute; reflexivity|der_tlv]|]. split; [apply int_tlv; vm_compute; reflexivity|]. split; [unfold x_sigalg, pkcs; alg_|]. split; [cbn [fst]; valid|]. split; [exact x_name_der|].
  split; [apply (td_utc _ _ (s2b "200101000000Z")); [vm_compute; reflexivity|der_tlv]|]. split; [apply (td_generalized _ _ (s2b "20500101000000Z")); [vm_compute; reflexivity|der_tlv]|]. split; [der_tlv|]. split; [exact x_name_der|]. split; [exact HK|]. split; [reflexivity|]. split; [reflexivity|].
  split; [exists encs, (seq encs); split; [exact HX|]; split; [apply tlv_der; [lia|lia|reflexivity|apply Z.ltb_lt; lia]|apply tlv_der; [lia|lia|reflexivity|apply Z.ltb_lt; lia]]|].
  split; [apply tlv_der; [lia|lia|reflexivity|]; apply Z.ltb_lt; apply (Z.lt_trans _ 9000); [exact S3|reflexivity]|]. split; [unfold x_sigalg, pkcs; alg_|]. split; [cbn [fst]; valid|]. split; [der_tlv|].
  apply tlv_der; [lia|lia|reflexivity|]. apply Z.ltb_lt. cbn [concat]. rewrite !zlen_app. change (zlen x_sigalg) with 15. change (zlen (bits (s2b "signature"))) with 12. change (zlen ([] : bytes)) with 0. unfold seq at 1. pose proof (tlv_size x30 (concat [tlv xa0 (int [x02]); int [x2a]; x_sigalg; x_name; x_times; x_name; spki; tlv xa3 (seq encs)])). lia.
Qed.
Lemma x_ski_der : extension_der x_ski_doc x_ski.
Proof. exists (tlv x06 [x55; x1d; x0e]), [], (tlv x04 (tlv x04 (s2b "id"))). cbn [x_ski_doc x_id x_critical x_value]. split; [oid_|]. split; [valid|]. split; [reflexivity|]. split; [der_tlv|]. unfold x_ski, seq_der. change (concat [tlv x06 [x55; x1d; x0e]; []; tlv x04 (tlv x04 (s2b "id"))]) with (concat [tlv x06 [x55; x1d; x0e]; tlv x04 (tlv x04 (s2b "id"))]). der_tlv. Qed.
Lemma x_usage_der : extension_der x_usage_doc x_usage.
Proof. exists (tlv x06 [x55; x1d; x0f]), (tlv x01 [xff]), (tlv x04 (tlv x03 [x07; x80])). cbn [x_usage_doc x_id x_critical x_value]. split; [oid_|]. split; [valid|]. split; [der_tlv|]. split; [der_tlv|]. der_tlv. Qed.
Lemma x_unknown_der c : extension_der (x_unknown_doc c) (x_unknown c).
Proof. exists (tlv x06 [x2a; x03]), (if c then tlv x01 [xff] else []), (tlv x04 (s2b "??")). cbn [x_unknown_doc x_id x_critical x_value]. split; [oid_|]. split; [valid|]. split; [destruct c; [der_tlv|reflexivity]|]. split; [der_tlv|]. destruct c; der_tlv. Qed.
