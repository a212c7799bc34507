(** C69-C75: certificates and public keys (internal/x509andr). *)
From Coq Require Import String.
From Coq Require Import Lia.
From Verif.Model Require Import Bytes Env Asn1 Pkcs7 X509 Result Verify.
From Verif.Spec Require Import Ber Asn1 Asn1Value Pkcs7 X509 Encoding Algorithms ApkLayout Nondet Digests Entries Signer SignerV3 Verified Calls.
From Verif.Proofs Require Import BytesFacts BerFacts Asn1Codec DerFacts Asn1Value Pkcs7Honest ApkFacts PropFacts UtilsFacts X509Facts X509Keys X509Honest X509Cert X509Ext X509Names X509Loose.
From Verif.Props Require Import SchemeV2 SchemeV3.
From Verif.Examples Require Import Toy ToyApk ToyPkcs7 ToyX509 DerToy.

(** C69: a parsed certificate carries exactly the bytes it was parsed from, one SEQUENCE with nothing after it. *)
Theorem C69_certificate_bytes : forall K E b c, e_cert_andr (withX509 K E) b = Some c ->
  c_raw c = b /\ exists content, element 0 16 true content b.
Proof.
  intros K E b c H. split; [exact (parse_certificate_raw K b c H)|]. apply parse_certificate_iff in H as (v & H & _). apply certificate_spki in H as (full & E1 & _ & (inner & HE) & _).
  rewrite app_nil_r in E1. subst full. exists inner. exact HE.
Qed.
Print Assumptions C69_certificate_bytes.
(** The certificates of a PKCS#7 block are exactly the certificates standing there one after the other, each parsed on its own. *)
Theorem C69_certificate_list : forall K E data cs, q_certs (x509P7 K) data = Some cs <->
  (data = concat (map c_raw cs) /\ Forall (fun c => e_cert_andr (withX509 K E) (c_raw c) = Some c) cs).
Proof.
  intros K E data cs. cbn [q_certs x509P7]. rewrite parse_certificates_iff. split.
  - intros (fs & -> & F). assert (fs = map c_raw cs) as ->. { induction F as [|f c fs cs Hf F IH]; [reflexivity|]. cbn [map]. rewrite (parse_certificate_raw K f c Hf), IH. reflexivity. }
    split; [reflexivity|]. cbn [e_cert_andr withX509]. rewrite Forall_forall. intros c Hc. clear E. revert F. induction cs as [|x cs IH]; [contradiction|]. cbn [map]. intros F. inversion F; subst. destruct Hc as [-> |Hc]; [assumption|auto].
  - intros (-> & F). exists (map c_raw cs). split; [reflexivity|]. induction F as [|c cs Hc F IH]; [constructor|]. cbn [map]. constructor; [exact Hc|exact IH].
Qed.
Print Assumptions C69_certificate_list.
Example C69_nonvacuous : exists c, e_cert_andr x_env (x_cert (x_rsa x_modulus) [x_ski]) = Some c /\ c_serial c = 42 /\
  q_certs (x509P7 toy_k) (x_cert (x_rsa x_modulus) [x_ski] ++ x_cert x_ec []) <> None /\ e_cert_andr x_env (x_cert (x_rsa x_modulus) [x_ski] ++ [x00]) = None.
Proof. eexists. split; [vm_compute; reflexivity|]. split; [vm_compute; reflexivity|]. split; [vm_compute; discriminate|vm_compute; reflexivity]. Qed.

(** C70: the key read from the public key information recorded for a certificate is the certificate's key: none for algorithms
    other than RSA, DSA and ECDSA (for which the certificate has no key), and except for RSA keys with modulus 0. *)
Theorem C70_certificate_key_partial : forall K E b c, e_cert_andr (withX509 K E) b = Some c -> zlen (c_spki c) < 2 ^ 31 -> (forall k, c_key c <> KRsa k 0) ->
  e_pkix_andr (withX509 K E) (c_spki c) = match c_key c with KOther _ => None | k => Some k end.
Proof.
  intros K E b c H HL HZ. destruct (key_of_certificate K b c H HL HZ) as [(HK & HN)|(k & HP & HK)]; cbn [e_pkix_andr withX509].
  - rewrite HN, HK. reflexivity.
  - rewrite HP, HK. cbn [option_map]. destruct k; try reflexivity. exfalso.
    unfold parsePKIXPublicKey in HP. destruct (unmarshalAll K tySpki _) as [pki|]; [|discriminate]. destruct (getPublicKeyAlgorithmFromOID _); try discriminate;
      match type of HP with option_map fst ?x = _ => destruct x as [[k' re]|] eqn:EP; [|discriminate] end; apply parsePublicKey_kind in EP; cbn [option_map fst] in HP; assert (k' = GNone) as -> by congruence; exact EP.
Qed.
Print Assumptions C70_certificate_key_partial.
(** A certificate with modulus -1 gets the key 0; read again from the recorded information, the modulus is 254. *)
Theorem C70_certificate_key_refuted : ~ (forall K E b c, e_cert_andr (withX509 K E) b = Some c -> zlen (c_spki c) < 2 ^ 31 ->
  e_pkix_andr (withX509 K E) (c_spki c) = match c_key c with KOther _ => None | k => Some k end).
Proof.
  intros H. assert (HC : exists c, e_cert_andr (withX509 toy_k toy_env) (x_cert (x_rsa [xff]) []) = Some c /\ zlen (c_spki c) < 2 ^ 31 /\
    e_pkix_andr (withX509 toy_k toy_env) (c_spki c) = Some (KRsa (keyMaterial [254; 3]) 8) /\ c_key c = KRsa (keyMaterial [0; 3]) 0).
  { eexists. split; [vm_compute; reflexivity|]. split; [vm_compute; reflexivity|]. split; vm_compute; reflexivity. }
  destruct HC as (c & H1 & H2 & H3 & H4). specialize (H toy_k toy_env _ _ H1 H2). rewrite H3, H4 in H. assert (C : KRsa (keyMaterial [254; 3]) 8 <> KRsa (keyMaterial [0; 3]) 0) by discriminate. congruence.
Qed.
Print Assumptions C70_certificate_key_refuted.

(** Hence the signature of every signer of an accepted v2 block was checked with the key of the signer's certificate. *)
Definition weak_rsa (k : pubkey) : Prop := exists b, k = KRsa b 0.
Lemma signed_by_own_key : forall K E sd sigs pk digs cs chain algo digest, fits pk ->
  signed_by (withX509 K E) sd sigs pk digs cs chain algo digest ->
  exists algos sig main others, chain = main :: others /\ signature_list sigs algos algo sig /\ (weak_rsa (c_key main) \/ sig_valid (withX509 K E) (c_key main) algo sd sig).
Proof.
  intros K E sd sigs pk digs cs chain algo digest HF (algos & sig & key & main & others & HSL & HK & HV & HC & -> & HP & _). exists algos, sig, main, others. split; [reflexivity|]. split; [exact HSL|].
  assert (HM : exists enc, e_cert_andr (withX509 K E) enc = Some main). { destruct HC as (encs & _ & _ & F). inversion F; subst. eauto. }
  destruct HM as (enc & HM). assert (D : weak_rsa (c_key main) \/ forall k, c_key main <> KRsa k 0).
  { destruct (c_key main) as [k b|k q|k|k] eqn:EK; try (right; intros x C; discriminate). destruct (Z.eq_dec b 0) as [-> |N]; [left; exists k; reflexivity|right; intros x C; congruence]. }
  destruct D as [D|D]; [left; exact D|right]. assert (zlen (c_spki main) < 2 ^ 31) by (rewrite HP; unfold fits in HF; lia).
  pose proof (C70_certificate_key_partial K E enc main HM ltac:(assumption) D) as HE. rewrite HP, HK in HE. destruct (c_key main) as [k b|k q|k|k] eqn:EK; try discriminate; match type of HE with Some key = Some ?x => assert (XE : key = x) by congruence; rewrite XE in HV; exact HV end.
Qed.
Theorem C70_v2_signed_with_certificate_key : forall K E S, hash_sizes_ok E -> sched_ok S -> forall file es sections minSdk maxSdk z res block signers junk,
  verifies (withX509 K E) S file minSdk maxSdk z res -> scheme res = 2 ->
  apk_with file es sections -> last_entry es id_v2 block -> block = lp (lps signers) ++ junk -> fits (lps signers) -> Forall fits signers ->
  forall signer, In signer signers ->
    exists signedData sigs rest algos algo sig main others,
      signer = lp signedData ++ lp sigs ++ rest /\ signature_list sigs algos algo sig /\ In (main :: others) (chains res) /\
      (weak_rsa (c_key main) \/ sig_valid (withX509 K E) (c_key main) algo signedData sig).
Proof.
  intros K E S HE HS file es sections minSdk maxSdk z res block signers junk V Id A L -> G1 G2 signer HI.
  pose proof (verifies_known (withX509 K E) S HE HS _ _ _ _ _ _ _ V A) as Vd. rewrite Id in Vd.
  destruct (scheme_2 _ _ _ _ _ _ _ Vd) as (is & c0 & (_ & Ne & b & L' & (ss & j & Q & F1 & F2 & F & _) & Dm) & Qc & _ & _).
  assert (b = lp (lps signers) ++ junk) by (eapply last_entry_fun; eassumption). subst b.
  apply lp_inj in H as [Q' _]; [|assumption|assumption]. apply UtilsFacts.lps_inj in Q'; [|assumption|assumption]. subst ss.
  assert (exists i, In i is /\ v2_signer (withX509 K E) maxSdk (present_in es) signer (si_chain i) (si_algo i) (si_digest i)) as (i & Ii & Vs).
  { clear - F HI. induction F; [destruct HI|]. destruct HI as [->|I]; [exists y; split; [now left | assumption]|]. destruct IHF as (i & ? & ?); [assumption|]. exists i. split; [now right | assumption]. }
  destruct Vs as (sd & sigs & pk & jk & digs & cs & attrs & jk' & al & A1 & A2 & A3 & A4 & A5 & A6 & A7 & A8 & B & _).
  destruct (signed_by_own_key K E _ _ _ _ _ _ _ _ A4 B) as (algos & sig & main & others & E1 & E2 & E3). exists sd, sigs, (lp pk ++ jk), algos, (si_algo i), sig, main, others.
  split; [exact A1|]. split; [exact E2|]. split; [|exact E3]. rewrite Qc. apply in_or_app. right. unfold chains2. rewrite <- E1. now apply in_map.
Qed.
Print Assumptions C70_v2_signed_with_certificate_key.
(** The same for the signers of a v3 block and of a v3.1 block. *)
Theorem C70_v3_signed_with_certificate_key : forall K E S, hash_sizes_ok E -> sched_ok S -> forall file es sections minSdk maxSdk z res id,
  verifies (withX509 K E) S file minSdk maxSdk z res -> (scheme res = 3 /\ id = id_v3 \/ scheme res = 31 /\ id = id_v31) -> apk_with file es sections ->
  exists block signers junk, last_entry es id block /\ block = lp (lps signers) ++ junk /\ zlen signers = zlen (chains res) /\
  forall signer, In signer signers ->
    exists signedData sigs lo hi rest algos algo sig main others,
      signer = lp signedData ++ le32 lo ++ le32 hi ++ lp sigs ++ rest /\ signature_list sigs algos algo sig /\ In (main :: others) (chains res) /\
      (weak_rsa (c_key main) \/ sig_valid (withX509 K E) (c_key main) algo signedData sig).
Proof.
  intros K E S HE HS file es sections minSdk maxSdk z res id V Id A.
  assert (G : exists block is, last_entry es id block /\ v3_block (withX509 K E) maxSdk 0 block is /\ chains res = chains3 is).
  { destruct (C16_ranges_cover (withX509 K E) S HE HS file es sections minSdk maxSdk z res V A) as [G3 G31]. destruct Id as [(Id & ->)|(Id & ->)].
    - destruct (G3 Id) as (block & is & L & B & C & _). exists block, is. auto.
    - destruct (G31 Id) as (block & block3 & is & is3 & rot & L & _ & B & C & _). exists block, is. auto. }
  destruct G as (block & is & L & (signers & junk & Q & F1 & F2 & F & _) & C). exists block, signers, junk. split; [exact L|]. split; [exact Q|].
  split. { rewrite C. unfold chains3, zlen. rewrite map_length. clear -F. induction F; cbn [List.length]; lia. }
  intros signer HI. assert (exists i, In i is /\ v3_signer (withX509 K E) maxSdk 0 signer i) as (i & Ii & Vs).
  { clear - F HI. induction F; [destruct HI|]. destruct HI as [->|I]; [exists y; split; [now left | assumption]|]. destruct IHF as (i & ? & ?); [assumption|]. exists i. split; [now right | assumption]. }
  destruct Vs as (sd & sigs & pk & jk & digs & cs & attrs & jk' & al & main & others & A1 & A2 & A3 & A4 & A5 & A6 & A7 & A8 & A9 & A10 & A11 & A12 & A13 & A14 & B & _).
  destruct (signed_by_own_key K E _ _ _ _ _ _ _ _ A6 B) as (algos & sig & main' & others' & E1 & E2 & E3). exists sd, sigs, (i3_min i), (i3_max i), (lp pk ++ jk), algos, (si_algo (i3_signer i)), sig, main', others'.
  split; [exact A1|]. split; [exact E2|]. split; [|exact E3]. rewrite C. unfold chains3. rewrite <- E1. apply (in_map (fun i => si_chain (i3_signer i))). exact Ii.
Qed.
Print Assumptions C70_v3_signed_with_certificate_key.
Example C70_nonvacuous : exists res, verifies x_env toy_sched x_v2 24 30 toy_zip res /\ scheme res = 2 /\
  exists c, chains res = [[c]] /\ c_key c = KRsa x_key 16 /\ c_raw c = x_cert (x_rsa x_modulus) [x_ski].
Proof.
  eexists. split; [eexists; split; [vm_compute; reflexivity | split; reflexivity] |]. split; [vm_compute; reflexivity|]. eexists. split; [vm_compute; reflexivity|]. split; vm_compute; reflexivity.
Qed.

(** C71: a modulus encoded as a negative number is read as the unsigned value of its octets; proved unless the first octet is 0xff. *)
Definition rsa_spki (octets : bytes) (e : Z) (params : option bytes) (f : bytes) : Prop :=
  exists n ei key, der_element 0 2 false octets n /\ integer_element e ei /\ seq_der [n; ei] key /\ spki_of (id_rsa, params) key f.
Theorem C71_unsigned_modulus_partial : forall K E octets z e params f, integer_octets octets z -> z <> 0 -> 0 < e < 2 ^ 63 -> b2z (nth 0 octets x00) <> 255 ->
  rsa_spki octets e params f -> zlen f < 2 ^ 31 ->
  e_pkix_andr (withX509 K E) f = Some (pubkeyOf (GRsa (be_val octets) e)).
Proof.
  intros K E octets z e params f HO Hz He Hff (n & ei & key & HN & HE & HS & HK) HL. cbn [e_pkix_andr withX509].
  destruct (spki_value K _ _ _ HK ltac:(apply valid_id; cbn; tauto) HL) as (v & E1 & E2 & E3 & E4 & EP). cbn [fst snd] in *. unfold parsePKIXPublicKey. rewrite (unmarshal_all K tySpki v f EP), E2.
  change (getPublicKeyAlgorithmFromOID id_rsa) with RSA. cbv beta iota. unfold parsePublicKey. rewrite E1, rightAlign_whole.
  assert (HLk : zlen key < 2 ^ 31). { destruct HK as (a & bs & _ & HB & HQ). apply der_element_size in HB, HQ. cbn [concat] in HQ. rewrite !zlen_app in HQ. rewrite zlen_cons in HB. change (zlen ([] : bytes)) with 0 in HQ. pose proof (zlen_nonneg a). lia. }
  pose proof (der_element_size _ _ _ _ _ HS) as HZ. cbn [concat] in HZ. rewrite !zlen_app in HZ. change (zlen ([] : bytes)) with 0 in HZ. pose proof (zlen_nonneg n). pose proof (zlen_nonneg ei).
  assert (EU : unmarshalAll K tyPkcs1 key = Some (VStruct [] [VInt z; VInt e])).
  { apply unmarshalAll_some. unfold unmarshal. rewrite <- (app_nil_r key). apply (struct_field (k_text K) _ _ (concat [n; ei])); [exact HS|exact HLk|]. cbn [concat]. rewrite Asn1Value.parseFields_cons, (big_field (k_text K) _ z n) by (try (exists octets; auto); lia).
    rewrite Asn1Value.parseFields_cons, (int64_field (k_text K) _ e ei []) by (try assumption; lia). reflexivity. }
  rewrite EU. cbn [field nth asInt]. destruct HO as ((HNE & HR & HV) & HM). pose proof (be_val_range octets) as HB.
  destruct (Z.leb_spec z 0) as [L|L].
  - destruct (Z.leb_spec e 0); [lia|]. cbn [option_map fst]. destruct octets as [|x t]; [congruence|]. cbn [nth] in Hff.
    rewrite (fixModulus_unsigned x t z); [reflexivity|split; [split; [exact HNE|split; assumption]|exact HM]|]. split; [|pose proof (b2z_range x); lia].
    rewrite zlen_cons in HR, HV. pose proof (zlen_nonneg t) as HT. rewrite be_val_cons in HV. pose proof (be_val_range t) as HBT. pose proof (b2z_range x).
    assert (P : 256 ^ (1 + zlen t) = 256 * 256 ^ zlen t) by (rewrite Z.pow_add_r by lia; lia). assert (0 < 256 ^ zlen t) by (apply Z.pow_pos_nonneg; lia). rewrite P in *.
    assert (HV2 : z mod (256 * 256 ^ zlen t) = z + 256 * 256 ^ zlen t). { symmetry. apply Z.mod_unique_pos with (q := -1); lia. }
    rewrite HV2 in HV. nia.
  - destruct (Z.leb_spec e 0); [lia|]. cbn [option_map fst]. do 2 f_equal. f_equal. rewrite HV. symmetry. apply Z.mod_small. lia.
Qed.
Print Assumptions C71_unsigned_modulus_partial.
(** With a first octet 0xff octets are lost (here ff 7f becomes 7f), and modulus 0 becomes 254. *)
Theorem C71_unsigned_modulus_refuted : exists K E octets z, integer_octets octets z /\ z <> 0 /\ rsa_spki octets 3 (Some e_null) (x_rsa octets) /\
  e_pkix_andr (withX509 K E) (x_rsa octets) = Some (pubkeyOf (GRsa 127 3)) /\ be_val octets = 65407.
Proof.
  exists toy_k, toy_env, [xff; x7f], (-129). split; [apply Asn1Codec.parseBigInt_iff; reflexivity|]. split; [discriminate|]. split; [|split; vm_compute; reflexivity].
  exists (int [xff; x7f]), (int [x03]), (seq [int [xff; x7f]; int [x03]]). split; [der_tlv|]. split; [apply int_tlv; vm_compute; reflexivity|]. split; [der_tlv|]. apply x_rsa_spki. reflexivity.
Qed.
Print Assumptions C71_unsigned_modulus_refuted.
(** Modulus 0 becomes 254. *)
Theorem C71_zero_modulus_refuted : exists K E, rsa_spki [x00] 3 (Some e_null) (x_rsa [x00]) /\ e_pkix_andr (withX509 K E) (x_rsa [x00]) = Some (pubkeyOf (GRsa 254 3)).
Proof.
  exists toy_k, toy_env. split; [|vm_compute; reflexivity]. exists (int [x00]), (int [x03]), (seq [int [x00]; int [x03]]). split; [der_tlv|]. split; [apply int_tlv; vm_compute; reflexivity|]. split; [der_tlv|]. apply x_rsa_spki. reflexivity.
Qed.
Print Assumptions C71_zero_modulus_refuted.
Example C71_nonvacuous : rsa_spki [xf1; x23] 3 (Some e_null) (x_rsa [xf1; x23]) /\ integer_octets [xf1; x23] (-3805) /\ e_pkix_andr x_env (x_rsa [xf1; x23]) = Some (pubkeyOf (GRsa 61731 3)).
Proof.
  split; [|split; [apply Asn1Codec.parseBigInt_iff; reflexivity|vm_compute; reflexivity]].
  exists (int [xf1; x23]), (int [x03]), (seq [int [xf1; x23]; int [x03]]). split; [der_tlv|]. split; [apply int_tlv; vm_compute; reflexivity|]. split; [der_tlv|]. apply x_rsa_spki. reflexivity.
Qed.

(** C72: a certificate is marked as having an unhandled critical extension exactly if it has a critical extension that is not one of
    the ten recognised ones, or critical alternative names without an e-mail address, DNS name or IP address. *)
Lemma parsed_certificate : forall K d f, certificate_der K d f -> zlen f < 2 ^ 31 ->
  exists sigalg, asOid (field 0 sigalg) = fst (d_sigalg d) /\ rawFull (field 1 sigalg) = (match snd (d_sigalg d) with Some e => e | None => [] end) /\
  parseCertificateForGo K f = option_map (fun u => {| c_raw := f; c_spki := d_spki d; c_key := pubkeyOf (d_key d); c_issuer := goName (name_text (d_issuer d)); c_subject := goName (name_text (d_subject d));
    c_serial := d_serial d; c_sigalg := getSignatureAlgorithmFromAI K sigalg; c_not_before := d_not_before d; c_not_after := d_not_after d; c_unhandled_critical := u |}) (parseExtensions K (map ext_val (present (d_exts d)))).
Proof.
  intros K d f HD HL. destruct (certificate_value K d f HD HL) as (v & EU & ER & EK & ES & ESe & EA1 & EA2 & EI & ESub & ET1 & ET2 & EX). cbv zeta in *. exists (field 2 (field 0 v)). split; [exact EA1|]. split; [exact EA2|].
  unfold parseCertificateForGo. rewrite (proj2 (unmarshalAll_some K tyCertificate f v) EU). unfold parseCertificate. rewrite EK, ES, EI, ESub, EX, ER, ESe, ET1, ET2.
  assert ((match d_key d with GRsa n e => Some (d_spki d) | _ => Some (d_spki d) end) = Some (d_spki d)) as -> by (destruct (d_key d); reflexivity). destruct (parseExtensions K _); reflexivity.
Qed.
Theorem C72_unhandled_critical : forall K E d f c, certificate_der K d f -> zlen f < 2 ^ 31 -> e_cert_andr (withX509 K E) f = Some c ->
  (c_unhandled_critical c = true <-> exists l x, d_exts d = Some l /\ In x l /\ x_critical x = true /\ unhandled x).
Proof.
  intros K E d f c HD HL HC. cbn [e_cert_andr withX509] in HC. destruct (parsed_certificate K d f HD HL) as (sa & _ & _ & HP). rewrite HC in HP. destruct (parseExtensions K (map ext_val (present (d_exts d)))) as [u|] eqn:EX; [|discriminate].
  cbn [option_map] in HP. match type of HP with Some c = Some ?x => assert (c = x) as -> by congruence end. cbn [c_unhandled_critical]. apply extensions_unhandled in EX. rewrite EX. split.
  - intros (x & HI & HCr & HU). destruct (d_exts d) as [l|]; cbn [present] in HI; [|contradiction]. exists l, x. auto.
  - intros (l & x & El & HI & HCr & HU). exists x. rewrite El. cbn [present]. auto.
Qed.
Print Assumptions C72_unhandled_critical.
Example C72_nonvacuous : (exists c, e_cert_andr x_env (x_cert x_ec [x_ski; x_unknown true]) = Some c /\ c_unhandled_critical c = true) /\
  (exists c, e_cert_andr x_env (x_cert x_ec [x_usage; x_unknown false; x_san x82]) = Some c /\ c_unhandled_critical c = false) /\
  (exists c, e_cert_andr x_env (x_cert x_ec [x_usage; x_san x86]) = Some c /\ c_unhandled_critical c = true).
Proof. split; [|split]; (eexists; split; [vm_compute; reflexivity|vm_compute; reflexivity]). Qed.

(** C73: what a certificate in DER says is what is read from it (names: see C75; signature algorithm: C74; extensions: C72). *)
Lemma ext_small K d f l x : certificate_der K d f -> zlen f < 2 ^ 31 -> d_exts d = Some l -> In x l -> zlen (x_value x) < 2 ^ 31.
Proof.
  intros HD HL El Hx.
    destruct HD as (version & serial & sigalg & issuer & nb & na & validity & subject & iuid & suid & exts & tbs & outer & sig & _ & _ & _ & _ & _ & _ & _ & _ & _ & _ & _ & _ & HXD & HTbs & _ & _ & _ & HF). rewrite El in HXD. cbn [optional] in HXD. destruct HXD as (es & s & F & HS & HE).
    assert (HG : exists g, In g es /\ extension_der x g). { clear -F Hx. induction F as [|y g l es Hy F IH]; [contradiction|]. destruct Hx as [-> |Hx]; [exists g; split; [left; reflexivity|exact Hy]|]. destruct (IH Hx) as (g' & H1 & H2). exists g'. split; [right; exact H1|exact H2]. }
    destruct HG as (g & Hg & (i & cr & v & _ & _ & _ & Hv & HQ)). apply concat_bound in Hg.
    apply der_element_size in HF, HTbs, HE, HS, HQ, Hv. cbn [concat] in HF, HTbs, HQ. rewrite !zlen_app in HF. rewrite !zlen_app in HTbs. rewrite !zlen_app in HQ. change (zlen ([] : bytes)) with 0 in *.
    repeat match goal with |- _ => match goal with H : context [zlen ?a] |- _ => lazymatch goal with _ : 0 <= zlen a |- _ => fail | _ => pose proof (zlen_nonneg a) end end end. lia.
Qed.
Theorem C73_certificate_read : forall K E d f, certificate_der K d f -> zlen f < 2 ^ 31 ->
  (forall l x, d_exts d = Some l -> In x l -> value_ok (x_critical x) (x_id x) (x_value x)) ->
  exists c, e_cert_andr (withX509 K E) f = Some c /\ c_raw c = f /\ c_spki c = d_spki d /\ c_key c = pubkeyOf (d_key d) /\ c_serial c = d_serial d /\
    c_issuer c = goName (name_text (d_issuer d)) /\ c_subject c = goName (name_text (d_subject d)) /\ c_not_before c = d_not_before d /\ c_not_after c = d_not_after d.
Proof.
  intros K E d f HD HL HV. cbn [e_cert_andr withX509]. destruct (parsed_certificate K d f HD HL) as (sa & _ & _ & HP).
  assert (HX : exists u, parseExtensions K (map ext_val (present (d_exts d))) = Some u).
  { apply extensions_accepted. apply Forall_forall. intros x Hx. destruct (d_exts d) as [l|] eqn:El; cbn [present] in Hx; [|contradiction]. split; [exact (HV l x eq_refl Hx)|]. exact (ext_small K d f l x HD HL El Hx). }
  destruct HX as (u & HX). rewrite HX in HP. cbn [option_map] in HP. eexists. split; [exact HP|]. cbn. repeat split; reflexivity.
Qed.
Print Assumptions C73_certificate_read.
(** A concrete certificate with three extensions. *)
Definition x_exts : list ext_doc := [x_ski_doc; x_usage_doc; x_unknown_doc true].
Lemma x_read : certificate_der toy_k (x_doc (x_rsa x_modulus) (GRsa 61731 3) x_exts) (x_cert (x_rsa x_modulus) [x_ski; x_usage; x_unknown true]).
Proof. apply x_cert_der; [apply x_rsa_der; [vm_compute; reflexivity|lia|reflexivity]| |reflexivity|reflexivity]. repeat constructor; [apply x_ski_der|apply x_usage_der|apply x_unknown_der]. Qed.
Example C73_nonvacuous : certificate_der toy_k (x_doc (x_rsa x_modulus) (GRsa 61731 3) x_exts) (x_cert (x_rsa x_modulus) [x_ski; x_usage; x_unknown true]) /\
  zlen (x_cert (x_rsa x_modulus) [x_ski; x_usage; x_unknown true]) < 2 ^ 31 /\ (forall x, In x x_exts -> value_ok (x_critical x) (x_id x) (x_value x)).
Proof.
  split; [exact x_read|]. split; [reflexivity|]. intros x HX. cbn [x_exts In] in HX. destruct HX as [<-|[<-|[<-|[]]]].
  - apply (vo_key_id _ (s2b "id")). der_tlv.
  - apply vo_usage. exists 7, [x80]. split; [lia|]. split; [discriminate|]. split; [reflexivity|]. der_tlv.
  - apply vo_other. cbn [x_unknown_doc x_id recognised map In]. intros C. repeat (destruct C as [C|C]; [discriminate|]). exact C.
Qed.

(** A critical extension with the DNS name "a.b" and a distribution point with a name, reasons and an issuer *)
Definition x_constraints : bytes := seq [tlv xa0 (seq [tlv x82 (s2b "a.b")]); tlv xa1 (seq [tlv x82 (s2b "c"); tlv x80 [x00]])].
Definition x_points : bytes := seq [seq [tlv xa0 (tlv xa0 (tlv x86 (s2b "http://x"))); tlv x81 [x05; x20]; tlv xa2 x_name]; seq [tlv xa0 (tlv xa0 (tlv x86 (s2b "http://y")))]].
Example C73_values : value_ok true (ce 30) x_constraints /\ value_ok true (ce 31) x_points.
Proof.
  split.
  - apply (vo_names _ (Some [Some (s2b "a.b")]) (Some [Some (s2b "c")]) (tlv xa0 (seq [tlv x82 (s2b "a.b")])) (tlv xa1 (seq [tlv x82 (s2b "c"); tlv x80 [x00]]))); cbn [optional].
    + exists [seq [tlv x82 (s2b "a.b")]]. split; [|cbn [concat]; rewrite app_nil_r; der_tlv]. constructor; [|constructor]. exists (tlv x82 (s2b "a.b")), []. split; [der_tlv|]. split; [repeat constructor; vm_compute; reflexivity|der_tlv].
    + exists [seq [tlv x82 (s2b "c"); tlv x80 [x00]]]. split; [|cbn [concat]; rewrite app_nil_r; der_tlv]. constructor; [|constructor]. exists (tlv x82 (s2b "c")), (tlv x80 [x00]). split; [der_tlv|]. split; [repeat constructor; vm_compute; reflexivity|der_tlv].
    + unfold x_constraints. der_tlv.
    + intros _. split; intros x d E HI; (assert (x = [d]) as -> by (inversion E; subst x; destruct HI as [<-|[]]; reflexivity)); inversion E; do 2 eexists; reflexivity.
  - assert (HX : forall u, zlen u <? 100 = true -> is_element (tlv x86 u)).
    { intros u Hu. apply Z.ltb_lt in Hu. exists 2, 6, false, u. apply der_small; [apply tlv_der; [lia|lia|reflexivity|apply Z.ltb_lt; lia]|]. pose proof (tlv_size x86 u). lia. }
    apply (vo_points _ [seq [tlv xa0 (tlv xa0 (tlv x86 (s2b "http://x"))); tlv x81 [x05; x20]; tlv xa2 x_name]; seq [tlv xa0 (tlv xa0 (tlv x86 (s2b "http://y")))]]); [|unfold x_points; der_tlv].
    constructor; [|constructor; [|constructor]].
    + exists (Some [tlv x86 (s2b "http://x")]), (Some (5, [x20])), (Some x_name), (tlv xa0 (tlv xa0 (tlv x86 (s2b "http://x")))), (tlv x81 [x05; x20]), (tlv xa2 x_name). cbn [optional fst snd].
      split; [split; [discriminate|]; split; [repeat constructor; apply HX; reflexivity|]; eexists; split; [|der_tlv]; cbn [concat]; rewrite app_nil_r; der_tlv|].
      split; [split; [split; [lia|]; split; [discriminate|reflexivity]|der_tlv]|]. split; [der_tlv|der_tlv].
    + exists (Some [tlv x86 (s2b "http://y")]), None, None, (tlv xa0 (tlv xa0 (tlv x86 (s2b "http://y")))), [], []. cbn [optional].
      split; [split; [discriminate|]; split; [repeat constructor; apply HX; reflexivity|]; eexists; split; [|der_tlv]; cbn [concat]; rewrite app_nil_r; der_tlv|]. split; [reflexivity|]. split; [reflexivity|der_tlv].
Qed.
(** A certificate whose first distribution point has a name relative to the issuer is not read: the code wants a SEQUENCE OF SETs there. *)
Theorem C73_relative_names_rejected : forall K E d f l x, certificate_der K d f -> zlen f < 2 ^ 31 -> d_exts d = Some l -> In x l -> x_id x = ce 31 -> relative_points (x_value x) ->
  e_cert_andr (withX509 K E) f = None.
Proof.
  intros K E d f l x HD HL EL HX HI HR. cbn [e_cert_andr withX509]. destruct (parsed_certificate K d f HD HL) as (sa & _ & _ & HP).
  rewrite HP, EL. cbn [present]. rewrite (extensions_none K l x HX); [reflexivity|]. rewrite HI, parse_known. apply relative_rejected; [exact HR|]. exact (ext_small K d f l x HD HL EL HX).
Qed.
Print Assumptions C73_relative_names_rejected.
Definition x_relative : bytes := seq [seq [tlv xa0 (tlv xa1 (seq [tlv x06 [x55; x04; x03]; tlv x0c (s2b "crl")]))]].
Example C73_relative_nonvacuous : relative_points x_relative.
Proof.
  exists (seq [tlv x06 [x55; x04; x03]; tlv x0c (s2b "crl")]), []. eexists _, _, [], _, []. split; [repeat constructor; eexists; der_tlv|]. split; [cbn [concat]; rewrite app_nil_r; der_tlv|]. split; [der_tlv|].
  split; [|unfold x_relative; der_tlv]. der_tlv.
Qed.

(** C74: the signature algorithm of a certificate. *)
Theorem C74_signature_algorithm : forall K E d f c, certificate_der K d f -> zlen f < 2 ^ 31 -> e_cert_andr (withX509 K E) f = Some c -> fst (d_sigalg d) <> id_pss ->
  (forall n, plain_algorithm (fst (d_sigalg d)) n -> c_sigalg c = n) /\ ((forall n, ~ plain_algorithm (fst (d_sigalg d)) n) -> c_sigalg c = 0).
Proof.
  intros K E d f c HD HL HC HP. cbn [e_cert_andr withX509] in HC. destruct (parsed_certificate K d f HD HL) as (sa & E1 & E2 & HQ). rewrite HC in HQ. destruct (parseExtensions K (map ext_val (present (d_exts d)))) as [u|]; [|discriminate].
  cbn [option_map] in HQ. match type of HQ with Some c = Some ?x => assert (c = x) as -> by congruence end. cbn [c_sigalg]. unfold getSignatureAlgorithmFromAI. rewrite E1, oidEqual_neq by exact HP. split.
  - intros n Hn. apply plain_table in Hn as (_ & e & HF & HN). rewrite HF. exact HN.
  - intros Hn. rewrite plain_unknown by assumption. reflexivity.
Qed.
Print Assumptions C74_signature_algorithm.
Example C74_nonvacuous : exists c, e_cert_andr x_env (x_cert (x_rsa x_modulus) [x_ski; x_usage; x_unknown true]) = Some c /\ c_sigalg c = 4 /\ plain_algorithm (fst (d_sigalg (x_doc (x_rsa x_modulus) (GRsa 61731 3) x_exts))) 4.
Proof. eexists. split; [vm_compute; reflexivity|]. split; [reflexivity|]. exact pa_sha256_rsa. Qed.
Theorem C74_pss : forall K E d p f c params, certificate_der K d f -> zlen f < 2 ^ 31 -> e_cert_andr (withX509 K E) f = Some c ->
  d_sigalg d = (id_pss, Some params) -> pss_der p params ->
  (forall n, 0 < n -> (c_sigalg c = n <-> pss_kind p n)) /\ ((forall n, ~ pss_kind p n) -> c_sigalg c = 0).
Proof.
  intros K E d p f c params HD HL HC HA HPD. cbn [e_cert_andr withX509] in HC. assert (HLp : zlen params < 2 ^ 31).
  { destruct HD as (version & serial & sigalg & issuer & nb & na & validity & subject & iuid & suid & exts & tbs & outer & sig & _ & _ & HAl & _ & _ & _ & _ & _ & _ & _ & _ & _ & _ & HTbs & _ & _ & _ & HF).
    destruct HAl as (o & ps & _ & HO & HS). rewrite HA in HO. cbn [snd optional] in HO. destruct HO as (_ & ->).
    apply der_element_size in HF, HTbs, HS. cbn [concat] in HF, HTbs, HS. rewrite !zlen_app in HF. rewrite !zlen_app in HTbs. rewrite !zlen_app in HS. change (zlen ([] : bytes)) with 0 in *.
    repeat match goal with |- _ => match goal with H : context [zlen ?a] |- _ => lazymatch goal with _ : 0 <= zlen a |- _ => fail | _ => pose proof (zlen_nonneg a) end end end. lia. }
  destruct (parsed_certificate K d f HD HL) as (sa & E1 & E2 & HQ). rewrite HC in HQ. destruct (parseExtensions K (map ext_val (present (d_exts d)))) as [u|]; [|discriminate].
  cbn [option_map] in HQ. match type of HQ with Some c = Some ?x => assert (c = x) as -> by congruence end. cbn [c_sigalg]. unfold getSignatureAlgorithmFromAI. rewrite E1, HA. cbn [fst snd]. change (oidEqual id_pss oidRSAPSS) with true. cbv iota. rewrite HA in E2. cbn [snd] in E2. rewrite E2.
  split; [intros n Hn; apply pss_algorithm; assumption|]. intros HN. destruct (Z.lt_trichotomy (pssAlgorithm K params) 0) as [L|[L|L]]; [|exact L|].
  - exfalso. assert (0 <= pssAlgorithm K params); [|lia]. clear. unfold pssAlgorithm. destruct (unmarshal _ tyPss params) as [w [r|]]; [|lia]. destruct (unmarshal _ tyAlgorithm _) as [m [r2|]]; [|lia]. repeat match goal with |- context [if ?b then _ else _] => destruct b end; lia.
  - exfalso. apply (HN (pssAlgorithm K params)). apply (pss_algorithm K p params _ HPD HLp L). reflexivity.
Qed.
Print Assumptions C74_pss.
(** SHA-256, MGF1 with SHA-256 and a salt of 32 octets *)
Definition x_sha256 : bytes := seq [tlv x06 [x60; x86; x48; x01; x65; x03; x04; x02; x01]; e_null].
Definition x_pss : bytes := seq [tlv xa0 x_sha256; tlv xa1 (seq [pkcs [x01; x08]; x_sha256]); tlv xa2 (int [x20])].
Definition x_pss_doc : pss_doc := {| pss_hash := (id_sha 256, Some der_null); pss_mgf := id_mgf1; pss_mgf_hash := (id_sha 256, Some der_null); pss_salt := 32; pss_trailer := None |}.
Lemma x_pss_der : pss_der x_pss_doc x_pss.
Proof.
  exists x_sha256, (tlv xa0 x_sha256), x_sha256, (seq [pkcs [x01; x08]; x_sha256]), (tlv xa1 (seq [pkcs [x01; x08]; x_sha256])), (int [x20]), (tlv xa2 (int [x20])), []. cbn [x_pss_doc pss_hash pss_mgf pss_mgf_hash pss_salt pss_trailer optional].
  assert (A : algorithm_der (id_sha 256, Some der_null) x_sha256) by (unfold x_sha256; alg_).
  split; [exact A|]. split; [cbn [fst]; unfold id_sha; valid|]. split; [unfold explicit; der_tlv|]. split; [exact A|]. split; [cbn [fst]; unfold id_sha; valid|].
  split. { exists (pkcs [x01; x08]), x_sha256. cbn [fst snd optional]. split; [unfold pkcs; oid_|]. split; [|der_tlv]. split; [|reflexivity]. exists 0, 16, true, (concat [tlv x06 [x60; x86; x48; x01; x65; x03; x04; x02; x01]; e_null]). apply der_small; [unfold x_sha256; der_tlv|reflexivity]. }
  split; [valid|]. split; [unfold explicit; der_tlv|]. split; [split; [lia|apply int_tlv; vm_compute; reflexivity]|]. split; [unfold explicit; der_tlv|]. split; [reflexivity|]. unfold seq_der. change (concat [tlv xa0 x_sha256; tlv xa1 (seq [pkcs [x01; x08]; x_sha256]); tlv xa2 (int [x20]); []]) with (concat [tlv xa0 x_sha256; tlv xa1 (seq [pkcs [x01; x08]; x_sha256]); tlv xa2 (int [x20])]). unfold x_pss. der_tlv.
Qed.
Example C74_pss_nonvacuous : pss_der x_pss_doc x_pss /\ pss_kind x_pss_doc 13 /\ exists c, c_sigalg c = 13 /\
  e_cert_andr x_env (seq [seq [tlv xa0 (int [x02]); int [x2a]; seq [pkcs [x01; x0a]; x_pss]; x_name; x_times; x_name; x_rsa x_modulus]; x_sigalg; bits (s2b "signature")]) = Some c.
Proof. split; [exact x_pss_der|]. split; [exists 256; repeat split; auto|]. eexists. split; [|vm_compute; reflexivity]. reflexivity. Qed.

(** C75: which names are equal after Go has decoded them (issuer of a SignerInfo, issuer and subject of a certificate).
    The English property - equal only if the encoded names say the same - is refuted; proved is what equality means. *)
Theorem C75_names_partial : forall K n n' f f', name_der (k_text K) n f -> name_der (k_text K) n' f' -> zlen f < 2 ^ 31 -> zlen f' < 2 ^ 31 ->
  exists g g', issuerName (x509P7 K) f = Some g /\ issuerName (x509P7 K) f' = Some g' /\ (g = g' <-> same_for_go n n').
Proof.
  intros K n n' f f' HN HN' HL HL'. exists (goName (name_text n)), (goName (name_text n')).
  assert (G : forall n f, name_der (k_text K) n f -> zlen f < 2 ^ 31 -> issuerName (x509P7 K) f = Some (goName (name_text n))).
  { clear. intros n f H HL. unfold issuerName, unmarshal. pose proof (name_field (k_text K) n f H HL []) as HP. rewrite app_nil_r in HP. change (Pkcs7.X (x509P7 K)) with (k_text K). rewrite HP. f_equal. cbn [q_name x509P7]. f_equal. apply rdnSequence_val. }
  split; [apply G; assumption|]. split; [apply G; assumption|]. apply goName_iff.
Qed.
Print Assumptions C75_names_partial.
(** Names that differ only in the e-mail address are the same for it. *)
Theorem C75_names_refuted : exists K n n' f f' g, name_der (k_text K) n f /\ name_der (k_text K) n' f' /\ name_text n <> name_text n' /\
  issuerName (x509P7 K) f = Some g /\ issuerName (x509P7 K) f' = Some g.
Proof.
  exists toy_k. do 2 eexists. exists (x_mail "a@b"), (x_mail "c@d"). eexists. split; [apply x_mail_der; auto|]. split; [apply x_mail_der; auto|]. split; [discriminate|]. split; vm_compute; reflexivity.
Qed.
Print Assumptions C75_names_refuted.

(** C79: exactly which byte strings are accepted as public key, and as which key: RSA with positive exponent, DSA with positive
    parameters, and the uncompressed points (04, x, y) on the four curves; nothing after the SubjectPublicKeyInfo, and nothing after
    the key inside its BIT STRING. *)
Theorem C79_public_key : forall K E b k, e_pkix_andr (withX509 K E) b = Some k <-> exists g, key_loose K g b /\ k = pubkeyOf g.
Proof.
  intros K E b k. cbn [e_pkix_andr withX509]. split.
  - destruct (parsePKIXPublicKey K b) as [g|] eqn:EP; [|discriminate]. cbn [option_map]. intros H. exists g. split; [apply key_iff; exact EP|congruence].
  - intros (g & H & ->). apply key_iff in H. rewrite H. reflexivity.
Qed.
Print Assumptions C79_public_key.
(** Points in another form than the uncompressed one are refused, and so are DSA keys with a zero parameter. *)
Example C79_nonvacuous : e_pkix_andr x_env x_ec = Some (pubkeyOf (GEcdsa P256 (be_val (repeat x01 32)) (be_val (repeat x02 32)))) /\ e_pkix_andr x_env x_dsa = Some (pubkeyOf (GDsa 7 11 5 2)) /\
  e_pkix_andr x_env (seq [seq [tlv x06 [x2a; x86; x48; xce; x3d; x02; x01]; tlv x06 [x2a; x86; x48; xce; x3d; x03; x01; x07]]; bits (x02 :: repeat x01 32 ++ repeat x02 32)]) = None /\
  e_pkix_andr x_env (seq [seq [tlv x06 [x2a; x86; x48; xce; x38; x04; x01]; seq [int [x0b]; int [x00]; int [x02]]]; bits (int [x07])]) = None.
Proof. repeat split; vm_compute; reflexivity. Qed.

(** The size that goes with an accepted key: the bits of the RSA modulus, and of the DSA subgroup order q (to which hashes are cut, C13). *)
Theorem C79_key_sizes : forall K E b m size,
  (e_pkix_andr (withX509 K E) b = Some (KRsa m size) -> exists n e, key_loose K (GRsa n e) b /\ 0 <= n /\ (n = 0 /\ size = 0 \/ 0 < size /\ 2 ^ (size - 1) <= n < 2 ^ size)) /\
  (e_pkix_andr (withX509 K E) b = Some (KDsa m size) -> exists y p q g, key_loose K (GDsa y p q g) b /\ 0 < q /\ 0 < size /\ 2 ^ (size - 1) <= q < 2 ^ size).
Proof.
  assert (B : forall n, 0 <= n -> n = 0 /\ bitLen n = 0 \/ 0 < bitLen n /\ 2 ^ (bitLen n - 1) <= n < 2 ^ bitLen n).
  { intros n P. unfold bitLen. destruct (Z.eqb_spec n 0) as [-> | N]; [now left|]. right. rewrite Z.abs_eq by exact P.
    replace (Z.log2 n + 1 - 1) with (Z.log2 n) by lia. rewrite Z.add_1_r. pose proof (Z.log2_nonneg n). split; [lia | apply Z.log2_spec; lia]. }
  intros K E b m size. split; intros H; apply C79_public_key in H as (g & L & EK); destruct g as [n e | y p q g | c x y |]; try discriminate EK; injection EK as _ ->.
  - exists n, e. split; [exact L|]. assert (P : 0 <= n).
    { inversion L as [? ? ? ? ? ? ? ? ? ? ? ? MU | |]; subst. inversion MU; subst; try lia; apply BerFacts.be_val_range. }
    split; [exact P | now apply B].
  - exists y, p, q, g. split; [exact L|]. assert (P : 0 < q) by (inversion L; assumption). split; [exact P|].
    destruct (B q) as [[-> _] | G]; [lia | lia | exact G].
Qed.
Print Assumptions C79_key_sizes.

(** C80: an accepted certificate has the layout of RFC 5280, and serial number, validity and key are the ones standing there. *)
Theorem C80_certificate_layout : forall K E b c, e_cert_andr (withX509 K E) b = Some c -> certificate_loose K c b.
Proof. intros K E b c H. exact (certificate_sound K b c H). Qed.
Print Assumptions C80_certificate_layout.
Example C80_nonvacuous : exists c, e_cert_andr x_env (x_cert x_ec [x_ski]) = Some c /\ c_serial c = 42 /\ c_key c = pubkeyOf (GEcdsa P256 (be_val (repeat x01 32)) (be_val (repeat x02 32))).
Proof. eexists. split; [vm_compute; reflexivity|]. split; vm_compute; reflexivity. Qed.
