(** C87, C88: SignedData objects that are made can be read and verify *)
From Coq Require Import String Lia Permutation.
From Verif.Model Require Import Bytes Env GoStrings Ber Asn1 Pkcs7 X509 Pkcs7Verify Pkcs7Sign.
From Verif.Spec Require Import Ber Asn1 Asn1Value Pkcs7 X509 Revocation Pkcs7Verify Pkcs7Sign.
From Verif.Proofs Require Import BytesFacts BerFacts Asn1Codec Asn1Header Asn1Value Asn1Decode DerFacts DerSize Pkcs7Facts Pkcs7VerifyFacts Pkcs7Doc X509Honest Pkcs7SignFacts Pkcs7Made.
From Verif.Props Require Import Ber Pkcs7 Pkcs7Verify.
From Verif.Examples Require Import Toy ToyPkcs7 ToyX509 ToySigned DerToy.

Lemma made_parse K digests content certs crls ms parsed : Forall mk_ok ms -> small (file_enc (body_enc digests content certs crls ms)) -> trees certs ->
  Forall (fun m => tree (sc_issuer (m_cert m)) /\ Forall (fun a : oid * bytes => tree (snd a)) (m_attrs m)) ms -> parseCertsWithIssuer K certs = Some parsed ->
  exists p, p7Parse K (file_enc (body_enc digests content certs crls ms)) = Ret (Some p) /\ po_certs p = parsed /\ content_says (bdoc digests content certs crls ms) p.
Proof.
  intros HF HS HC HT HP. destruct (file_tree _ _ _ _ _ HF HS HC HT) as (o & HO). pose proof (file_der (k_text K) _ _ _ _ _ HF HS) as HD.
  destruct (C86_parse K _ _ parsed o [] HD) as (p & E & H); [|exact HO|exact HS|exact HP|rewrite app_nil_r in E; exists p; auto].
  cbn [bdoc c_doc]. unfold doc_oids. cbn [s_content_type s_digests s_signers]. constructor; [exact valid_data|]. apply Forall_app. split.
  - destruct digests; constructor; [exact valid_sha1|constructor].
  - assert (HF' : Forall mk_ok (isort mless ms)) by (eapply Permutation_Forall; [apply isort_perm|exact HF]). apply Forall_forall. intros x Hx. apply in_flat_map in Hx as (d & Hd & Hx). apply in_map_iff in Hd as (m & <- & Hm).
    rewrite Forall_forall in HF'. destruct (HF' m Hm) as (_ & _ & HG). unfold signer_oids in Hx. cbn [mdoc sd_digest sd_enc sd_attrs sd_unauth fst map] in Hx. rewrite app_nil_r in Hx.
    destruct Hx as [<-|[<-|Hx]]; [exact valid_sha1|exact valid_sha1rsa|]. rewrite map_map in Hx. apply in_map_iff in Hx as (a & <- & Ha). rewrite Forall_forall in HG. exact (HG a Ha).
Qed.

Lemma Forall2_weaken {A B} (R S : A -> B -> Prop) l l' : (forall a b, R a b -> S a b) -> Forall2 R l l' -> Forall2 S l l'.
Proof. intros H. induction 1; constructor; auto. Qed.
Lemma Forall2_join {A B C D} (R : A -> B -> Prop) (S : C -> D -> Prop) (f : A -> C) ms : forall l is_, Forall2 R ms l -> Forall2 S (map f ms) is_ ->
  Forall2 (fun s i => exists m, In m ms /\ R m s /\ S (f m) i) l is_.
Proof.
  induction ms as [|m t IH]; intros l is_ H1 H2; inversion H1; subst; cbn [map] in H2; inversion H2; subst; [constructor|].
  constructor; [exists m; split; [left; reflexivity|split; assumption]|]. eapply Forall2_weaken; [|apply IH; eassumption]. intros s i (x & Hx & HR). exists x. split; [right; exact Hx|exact HR].
Qed.

(** C87.  Whatever is signed, by however many signers, Finish succeeds; what it returns is read by Parse as content,
    certificates (in the order of the calls) and signers (in some order), and Verify accepts it. *)
Theorem C87_round_trip : forall K E D rsaSign data calls,
  Forall (call_ok K) calls -> distinct (certificates calls) -> keys_fit K E rsaSign calls -> zlen (concat (map sc_raw (certificates calls))) < 2 ^ 31 ->
  exists b, made (k_text K) (e_hash E HSha1) rsaSign data calls = Some b /\ (zlen b < 2 ^ 31 ->
    exists p, p7Parse K b = Ret (Some p) /\ po_envelope p = None /\ po_content p = (if detached calls then [] else data) /\
      Forall2 (from_parser K) (certificates calls) (po_certs p) /\
      (exists l, Permutation (signers calls) l /\ Forall2 info_of l (po_signers p)) /\
      (signers calls <> [] -> p7Verify K E D (with_content p data) = None) /\
      (forall s, signers calls = [s] -> exists c, getOnlySigner p = Some c /\ from_parser K (fst s) c)).
Proof.
  intros K E D rsaSign data calls HC HD HK HS. destruct (made_file K E rsaSign data calls HC HK HS) as (ms & HM & EM). eexists. split; [exact EM|]. intros HL.
  destruct (calls_certs K calls HC) as (certs & HF).
  assert (HO : Forall mk_ok ms) by (clear -HM; induction HM; constructor; [eapply made_ok; eassumption|assumption]).
  assert (HT : Forall (fun m => tree (sc_issuer (m_cert m)) /\ Forall (fun a : oid * bytes => tree (snd a)) (m_attrs m)) ms).
  { assert (HB : forall m, In m ms -> small (menc m)).
    { intros m Hm. unfold file_enc, body_enc in HL. fold (small (el 0 16 true (el 0 6 false oid_signed ++ el 2 0 true (el 0 16 true (el 0 2 false [x01] ++ el 0 17 true (denc true) ++ el 0 16 true (el 0 6 false oid_data ++ cenc (content_of data calls)) ++ el 2 0 true (concat (map sc_raw (certificates calls))) ++ crlenc false ++ el 0 17 true (concat (map menc (isort mless ms)))))))) in HL.
      smalls. eapply small_concat; [eassumption|]. apply in_map. apply (Permutation_in _ (isort_perm mless ms)). exact Hm. }
    apply Forall_forall. intros m Hm. destruct (Forall2_In_r _ _ _ _ HM Hm) as (s & Hs & HMm). pose proof (made_ok _ _ _ _ _ HMm) as Om. pose proof (values_small m Om (HB m Hm)) as HV. destruct HMm as (E1 & (now & extra & E2 & E3 & T & F) & parsed & msg & (_ & TI & _) & _). split; [exact TI|].
    pose proof (isort_perm aless (attrs_of E data now extra)) as HP. rewrite <- E3 in HP. 
    assert (Hmd : small (el 0 4 false (e_hash E HSha1 data))). { rewrite Forall_forall in HV. apply (HV (oidMessageDigest, el 0 4 false (e_hash E HSha1 data))). apply (Permutation_in _ HP). right. left. reflexivity. }
    smalls. eapply Permutation_Forall; [exact HP|]. constructor; [cbn [snd]; apply tree_el; [lia|lia|reflexivity|discriminate]|]. constructor; [cbn [snd]; tree_by|]. constructor; [exact T|]. eapply Forall_impl; [|exact F]. intros a (_ & Ta & _). exact Ta. }
  destruct (made_parse K true (content_of data calls) (concat (map sc_raw (certificates calls))) false ms certs HO HL (calls_trees K _ _ HF) HT (calls_parse K _ _ HF)) as (p & EP & EC & (P1 & P2 & P3 & PR & P4)).
  exists p. cbn [bdoc c_doc c_content s_signers] in *. split; [exact EP|]. split; [exact P3|]. split; [rewrite P2; unfold content_of; destruct (detached calls); reflexivity|]. split; [rewrite EC; exact HF|].
  assert (HB : forall m, In m (isort mless ms) -> small (menc m)).
  { intros m Hm. unfold file_enc, body_enc in HL. fold (small (el 0 16 true (el 0 6 false oid_signed ++ el 2 0 true (el 0 16 true (el 0 2 false [x01] ++ el 0 17 true (denc true) ++ el 0 16 true (el 0 6 false oid_data ++ cenc (content_of data calls)) ++ el 2 0 true (concat (map sc_raw (certificates calls))) ++ crlenc false ++ el 0 17 true (concat (map menc (isort mless ms)))))))) in HL.
    smalls. eapply small_concat; [eassumption|]. apply in_map. exact Hm. }
  destruct (Forall2_perm_r (fun m s => made_signer K E data s m) ms (isort mless ms) (isort_perm mless ms) (signers calls)) as (l & HMl & HPl).
  { clear -HM. induction HM; constructor; assumption. }
  assert (HI : Forall2 (fun s i => exists m, In m (isort mless ms) /\ made_signer K E data s m /\ info_says (mdoc m) i) l (po_signers p)).
  { exact (Forall2_join _ _ mdoc _ _ _ HMl P4). }
  assert (HSG : forall s, In s l -> In (fst s) (certificates calls)).
  { intros s Hs. apply (Permutation_in _ (Permutation_sym HPl)) in Hs. unfold signers in Hs. apply in_flat_map in Hs as (x & Hx & Hs). unfold certificates. apply in_flat_map. exists x. split; [exact Hx|]. destruct x; [destruct Hs as [<-|[]]; left; reflexivity|contradiction|contradiction]. }
  split; [exists l; split; [exact HPl|]; clear -HI HB; induction HI as [|s i l l' (m & Hm & H1 & H2) F IH]; constructor; [apply (signer_read K E data s m i H1 (HB m Hm) H2)|exact IH]|].
  split.
  - intros HN. unfold p7Verify. cbn [with_content po_signers]. destruct (po_signers p) as [|i0 t0] eqn:ES; [exfalso; inversion HI; subst; apply HN, Permutation_nil, Permutation_sym; exact HPl|]. rewrite <- ES in *. clear ES i0 t0.
    apply verifyAll_iff, Forall_forall. intros i Hi. destruct (Forall2_In_r _ _ _ _ HI Hi) as (s & Hs & m & Hm & H1 & H2).
    apply (signer_verifies K E D data (certificates calls) certs s m i); try assumption; [apply HB; exact Hm|apply HSG; exact Hs|reflexivity].
  - intros s Es. rewrite Es in HPl. apply Permutation_length_1_inv in HPl. subst l. inversion HI as [|? i ? t' (m & Hm & H1 & H2) HN E1 E2]; subst. inversion HN; subst.
    unfold getOnlySigner. rewrite <- E2. destruct (signer_read K E data s m i H1 (HB m Hm) H2) as ((J1 & J2 & _) & _).
    destruct (cert_found K (certificates calls) (po_certs p) (fst s) i HF HD (HSG s (or_introl eq_refl)) J1 J2) as (c & E3 & E4). exists c. auto.
Qed.
Print Assumptions C87_round_trip.

(** C88.  DegenerateCertificate of certificates, one after the other: Parse gives exactly these certificates, no content and
    no signer, and Verify does not accept it. *)
Theorem C88_degenerate : forall K E D certs parsed, Forall tree certs -> parseCertsWithIssuer K (concat certs) = Some parsed -> zlen (concat certs) < 2 ^ 31 ->
  exists b, degenerateCertificate (k_text K) (concat certs) = Some b /\ (zlen b < 2 ^ 31 ->
    exists p, p7Parse K b = Ret (Some p) /\ po_certs p = parsed /\ po_content p = [] /\ po_signers p = [] /\ po_crls p = [] /\ p7Verify K E D p = Some ENoSigners).
Proof.
  intros K E D certs parsed HT HP HS. exists (file_enc (body_enc false None (concat certs) true [])). split.
  - unfold degenerateCertificate. change (marshalCertificateBytes (k_text K) (concat certs)) with (Some (el 2 0 true (concat certs))). apply (write_file (k_text K) false None (concat certs) true []); [constructor|exact HS].
  - intros HL. destruct (made_parse K false None (concat certs) true [] parsed (Forall_nil _) HL (trees_concat _ HT) (Forall_nil _) HP) as (p & EP & EC & (P1 & P2 & P3 & PR & P4)).
    exists p. split; [exact EP|]. split; [exact EC|]. split; [exact P2|]. assert (ES : po_signers p = []) by (inversion P4; reflexivity). split; [exact ES|]. split; [exact PR|]. unfold p7Verify. rewrite ES. reflexivity.
Qed.
Print Assumptions C88_degenerate.

(** *** Examples *)
Lemma tree_tlv x b : b2z x mod 32 <> 31 -> (b2z x / 32) mod 2 = 0 -> (zlen b <? 65536) = true -> tree (tlv x b).
Proof.
  intros H1 H2 H3. apply Z.ltb_lt in H3. exists (Prim [x] b). unfold tlv. change (x :: ?l ++ b) with ([x] ++ l ++ b). constructor; [|apply tlv_length; pose proof (zlen_nonneg b); lia].
  exists x, []. split; [reflexivity|]. split; [rewrite H2; reflexivity|]. left. split; [exact H1|reflexivity].
Qed.
Lemma tree_nest x l : b2z x mod 32 <> 31 -> (b2z x / 32) mod 2 = 1 -> (zlen (concat l) <? 65536) = true -> Forall tree l -> tree (tlv x (concat l)).
Proof.
  intros H1 H2 H3 HT. apply Z.ltb_lt in H3. destruct (trees_concat l HT) as (os & HO). exists (Struct [x] os). unfold tlv. change (x :: ?y ++ concat l) with ([x] ++ y ++ concat l).
  apply der_struct; [|exact HO|apply tlv_length; pose proof (zlen_nonneg (concat l)); lia]. exists x, []. split; [reflexivity|]. split; [rewrite H2; reflexivity|]. left. split; [exact H1|reflexivity].
Qed.
Lemma tree_nest1 x b : b2z x mod 32 <> 31 -> (b2z x / 32) mod 2 = 1 -> (zlen b <? 65536) = true -> tree b -> tree (tlv x b).
Proof. intros H1 H2 H3 HT. rewrite <- (app_nil_r b). change (b ++ []) with (concat [b]). apply tree_nest; [exact H1|exact H2|cbn [concat]; rewrite app_nil_r; exact H3|repeat constructor; exact HT]. Qed.
Ltac toy_tree := repeat first [ progress (unfold seq, set, int, bits, pkcs) | apply Forall_cons | apply Forall_nil
  | (apply tree_tlv; [vm_compute; discriminate|reflexivity|vm_compute; reflexivity])
  | (apply tree_nest; [vm_compute; discriminate|reflexivity|vm_compute; reflexivity|])
  | (apply tree_nest1; [vm_compute; discriminate|reflexivity|vm_compute; reflexivity|]) ].
Lemma null_tree : tree e_null.
Proof. change e_null with (tlv x05 []). toy_tree. Qed.
Lemma name_tree : tree x_name. Proof. unfold x_name. toy_tree. Qed.
Lemma cert_tree : tree s_cert.
Proof. unfold s_cert, x_cert, x_sigalg, x_times, x_rsa, x_ski. toy_tree; first [exact null_tree|exact name_tree]. Qed.
Definition g_cert : scert := {| sc_raw := s_cert; sc_issuer := x_name; sc_serial := 42 |}.
(** A toy key signs a digest by returning it. *)
Definition g_env : env := {|
  e_hash := toy_hash; e_rsa_pss := fun _ _ _ _ _ => false; e_rsa_pkcs1 := fun _ _ _ _ => false; e_ecdsa := fun _ _ _ _ => false; e_dsa := fun _ _ _ _ => false;
  e_asn1_ints := fun _ => None; e_asn1_rs_std := fun _ => None; e_asn1_rs_andr := fun _ => None; e_pkix_andr := fun _ => None; e_pkix_std := fun _ => None;
  e_cert_andr := fun _ => None; e_cert_std := fun _ => None; e_pkcs7 := fun _ => Ret None; e_asn1_oid := fun _ => None; e_asn1_octets := fun _ => None;
  e_marshal_attrs := fun _ => None; e_cert_check := fun _ a m s => (a =? 3) && bytes_eqb s (toy_hash HSha1 m);
  e_base64 := fun _ => None; e_parse_xml := e_parse_xml toy_env; e_to_lower := e_to_lower toy_env |}.
Definition g_sign (key digest : bytes) : option bytes := Some digest.
Definition g_calls : list call := [CSigner g_cert [] (tlv x17 (s2b "200101000000Z")) [([1; 2; 3], tlv x04 (s2b "hi"))]; CDetach; CSigner g_cert [] (tlv x17 (s2b "200101000001Z")) []].
Lemma g_from : exists parsed, from_parser toy_k g_cert parsed.
Proof.
  eexists. split; [exact cert_tree|]. split; [exact name_tree|]. split.
  - exists 0, 16, true. eexists. apply der_small; [|vm_compute; reflexivity]. cbn [g_cert sc_issuer]. unfold x_name, seq. apply (tlv_der 0 16 true); [lia|lia|reflexivity|vm_compute; reflexivity].
  - split; [vm_compute; reflexivity|]. split; reflexivity.
Qed.
Example C87_nonvacuous : Forall (call_ok toy_k) g_calls /\ distinct (certificates g_calls) /\ keys_fit toy_k g_env g_sign g_calls /\ zlen (concat (map sc_raw (certificates g_calls))) < 2 ^ 31 /\
  (exists b, made (k_text toy_k) (e_hash g_env HSha1) g_sign (s2b "pay 1") g_calls = Some b /\ zlen b < 2 ^ 31) /\ List.length (signers g_calls) = 2%nat /\ detached g_calls = true.
Proof.
  split. { constructor; [|constructor; [exact I|constructor; [|constructor]]].
    - split; [exact g_from|]. split; [toy_tree|]. constructor; [|constructor]. split; [valid|]. split; [cbn [snd]; toy_tree|discriminate].
    - split; [exact g_from|]. split; [toy_tree|constructor]. }
  split. { intros c c' H H' _ _. destruct H as [<-|[<-|[]]]; destruct H' as [<-|[<-|[]]]; reflexivity. }
  split. { intros c key now extra parsed _ _ m. eexists. split; [reflexivity|]. cbn [e_cert_check g_env e_hash]. change (SHA1WithRSA =? 3) with true. cbn [andb]. apply bytes_eqb_eq. reflexivity. }
  split; [vm_compute; reflexivity|]. split; [|split; reflexivity]. eexists. split; [vm_compute; reflexivity|vm_compute; reflexivity].
Qed.
(** Two copies of the certificate *)
Example C88_nonvacuous : Forall tree [s_cert; s_cert] /\ exists parsed, parseCertsWithIssuer toy_k (concat [s_cert; s_cert]) = Some parsed /\ List.length parsed = 2%nat /\
  exists b, degenerateCertificate (k_text toy_k) (concat [s_cert; s_cert]) = Some b /\ zlen b < 2 ^ 31.
Proof.
  split; [repeat constructor; exact cert_tree|]. eexists. split; [vm_compute; reflexivity|]. split; [reflexivity|]. eexists. split; [vm_compute; reflexivity|vm_compute; reflexivity].
Qed.

(** A document with content, without certificates and signers, with one revocation list that revokes one serial number. *)
Definition r_time (n : string) : bytes := tlv x17 (s2b n).
Definition r_entry : bytes := seq [int [x07]; r_time "200101000000Z"; seq [x_ski]].
Definition r_tbs : bytes := seq [int [x01]; x_sigalg; x_name; r_time "210101000000Z"; r_time "2201010000Z"; seq [r_entry]; tlv xa0 (seq [x_usage])].
Definition r_list : bytes := seq [r_tbs; x_sigalg; bits (s2b "crl signature")].
Definition r_file : bytes := seq [pkcs [x07; x02]; tlv xa0 (seq [int [x01]; set [x_sigalg]; seq [pkcs [x07; x01]; tlv xa0 (tlv x04 (s2b "pay 1"))]; tlv xa1 r_list; set []])].
Definition r_alg : oid * option bytes := ([1; 2; 840; 113549; 1; 1; 11], Some e_null).
Definition r_crl : crl_doc := {|
  rl_version := Some 1; rl_alg := r_alg; rl_issuer := x_name_doc; rl_this := 13; rl_next := Some 11;
  rl_revoked := Some [{| rd_serial := 7; rd_date := 13; rd_exts := Some [x_ski_doc] |}]; rl_exts := Some [x_usage_doc]; rl_tbs := r_tbs; rl_outer := r_alg; rl_signature := s2b "crl signature" |}.
Definition r_doc : content_doc := {|
  c_doc := {| s_version := 1; s_digests := [r_alg]; s_content_type := [1; 2; 840; 113549; 1; 7; 1]; s_certs := None; s_signers := [] |};
  c_content := Some (s2b "pay 1"); c_crls := Some [r_crl] |}.
Lemma r_alg_der : algorithm_der r_alg x_sigalg.
Proof. unfold r_alg, x_sigalg, pkcs. alg_. Qed.
Lemma r_list_der : crl_der (k_text toy_k) r_crl r_list.
Proof.
  exists (int [x01]), x_sigalg, x_name, (r_time "210101000000Z"), (r_time "2201010000Z"), (seq [r_entry]), (tlv xa0 (seq [x_usage])), x_sigalg, (bits (s2b "crl signature")).
  cbn [r_crl rl_version rl_alg rl_issuer rl_this rl_next rl_revoked rl_exts rl_tbs rl_outer rl_signature optional].
  split; [split; [lia|apply int_tlv; vm_compute; reflexivity]|]. split; [exact r_alg_der|]. split; [cbn [fst r_alg]; valid|]. split; [exact x_name_der|].
  split; [apply (td_utc _ _ (s2b "210101000000Z")); [vm_compute; reflexivity|der_tlv]|]. split; [apply (td_utc _ _ (s2b "2201010000Z")); [vm_compute; reflexivity|der_tlv]|].
  split. { exists [r_entry]. split; [|der_tlv]. constructor; [|constructor]. exists (int [x07]), (r_time "200101000000Z"), (seq [x_ski]). cbn [rd_serial rd_date rd_exts optional].
    split; [apply int_tlv; vm_compute; reflexivity|]. split; [apply (td_utc _ _ (s2b "200101000000Z")); [vm_compute; reflexivity|der_tlv]|].
    split; [exists [x_ski]; split; [constructor; [exact x_ski_der|constructor]|der_tlv]|der_tlv]. }
  split. { exists (seq [x_usage]). split; [exists [x_usage]; split; [constructor; [exact x_usage_der|constructor]|der_tlv]|der_tlv]. }
  split; [der_tlv|]. split; [exact r_alg_der|]. split; [cbn [fst r_alg]; valid|]. split; [der_tlv|der_tlv].
Qed.
Lemma r_tree : tree r_file.
Proof. unfold r_file, r_list, r_tbs, r_entry, r_time, x_sigalg, x_ski, x_usage. toy_tree; first [exact null_tree|exact name_tree]. Qed.
Example C86_nonvacuous : content_der (k_text toy_k) r_doc r_file /\ Forall valid_oid (doc_oids (c_doc r_doc)) /\ (exists o, der o r_file) /\ zlen r_file < 2 ^ 31 /\
  exists p, p7Parse toy_k r_file = Ret (Some p) /\ map cl_this (po_crls p) = [13] /\ map (fun l => map rv_serial (cl_revoked l)) (po_crls p) = [[7]].
Proof.
  split.
  { eexists (int [x01]), [x_sigalg], (set [x_sigalg]), (pkcs [x07; x01]), (tlv xa0 (tlv x04 (s2b "pay 1"))), _, [], (tlv xa1 r_list), [], (set []), _, (pkcs [x07; x02]), _.
    cbn [r_doc c_doc c_content c_crls s_version s_digests s_content_type s_certs s_signers optional].
    split; [lia|]. split; [apply int_tlv; vm_compute; reflexivity|]. split; [constructor; [exact r_alg_der|constructor]|]. split; [der_tlv|]. split; [unfold pkcs; oid_|].
    split; [eexists; split; [|der_tlv]; der_tlv|]. split; [der_tlv|]. split; [reflexivity|]. split; [exists [r_list]; split; [constructor; [exact r_list_der|constructor]|der_tlv]|].
    split; [constructor|]. split; [der_tlv|]. split; [der_tlv|]. split; [unfold pkcs; oid_|]. split; [der_tlv|]. unfold r_file. der_tlv. }
  split; [cbn [doc_oids c_doc r_doc s_content_type s_digests s_signers map fst r_alg flat_map app]; repeat constructor; valid|].
  split; [exact r_tree|]. split; [vm_compute; reflexivity|]. eexists. split; [vm_compute; reflexivity|]. split; reflexivity.
Qed.
