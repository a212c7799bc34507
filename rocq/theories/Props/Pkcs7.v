(** C61-C65: PKCS#7 signature blocks and the bytes their signatures cover. *)
From Coq Require Import String Lia.
From Verif.Model Require Import Bytes Env Ber Asn1 Pkcs7 SchemeV1.
From Verif.Spec Require Import Ber Asn1 Asn1Value Pkcs7 JarSigned Nondet.
From Verif.Proofs Require Import BytesFacts BerFacts Asn1Codec Asn1Header Asn1Value Asn1Decode DerFacts DerSize Pkcs7Facts Pkcs7Parse Pkcs7Honest.
From Verif.Examples Require Import Toy ToyApk ToyJar ToyPkcs7.
From Verif.Props Require Import Ber.

(** C61.  The bytes that a SignerInfo's signature covers are the DER SET of its attributes: computing them never fails,
    for any block file that was parsed. *)
Theorem C61_signed_bytes : forall Q data p info, pkcs7Parse Q data = Ret (Some p) -> In info (p7_signers p) ->
  Forall attribute_ok (ps_auth_attrs info) /\
  exists c b, attributes_der (map said (ps_auth_attrs info)) c /\ der_element 0 17 true c b /\ zlen b < 2 ^ 31 /\
    marshalAuthenticatedAttributes Q (ps_auth_attrs info) = Some b.
Proof.
  intros Q data p info H HI. destruct (parse_signers Q data p H) as (der & rest & inf & sd & _ & _ & _ & _ & ES & HF).
  { intros E. rewrite E in HI. exact HI. }
  rewrite ES in HI. apply in_map_iff in HI as (v & <- & Hv). pose proof (proj1 (Forall_forall _ _) HF v Hv) as HD.
  destruct (signer_attributes Q v HD) as (HA & c & b & H1 & H2 & H3). split; [exact HA|]. exists c, b. split; [exact H1|]. split; [exact H2|]. split; [exact H3|].
  exact (marshal_attributes (X Q) _ c b HA H1 H2 H3).
Qed.
Print Assumptions C61_signed_bytes.

(** These bytes determine the attributes: their types, their value elements, and what the verifier reads from them. *)
Theorem C61_injective : forall Q data p info Q' data' p' info' b,
  pkcs7Parse Q data = Ret (Some p) -> In info (p7_signers p) -> pkcs7Parse Q' data' = Ret (Some p') -> In info' (p7_signers p') ->
  marshalAuthenticatedAttributes Q (ps_auth_attrs info) = Some b -> marshalAuthenticatedAttributes Q' (ps_auth_attrs info') = Some b ->
  ps_auth_attrs info = ps_auth_attrs info'.
Proof.
  intros Q data p info Q' data' p' info' b H HI H' HI' HM HM'.
  destruct (C61_signed_bytes Q data p info H HI) as (F & c & b0 & A & D & L & M).
  destruct (C61_signed_bytes Q' data' p' info' H' HI') as (F' & c' & b0' & A' & D' & L' & M').
  assert (b0 = b) as -> by congruence. assert (b0' = b) as -> by congruence.
  assert (c = c') as <-.
  { pose proof (der_element_element _ _ _ _ _ D) as E. pose proof (der_element_element _ _ _ _ _ D') as E'.
    pose proof (der_element_size _ _ _ _ _ D) as Z1. pose proof (der_element_size _ _ _ _ _ D') as Z2.
    specialize (E ltac:(lia)). specialize (E' ltac:(lia)).
    destruct (element_prefix _ _ _ _ _ _ _ _ _ _ [] [] E E' eq_refl) as (_ & _ & _ & EC & _). exact EC. }
  pose proof (der_element_size _ _ _ _ _ D) as Z1.
  destruct (attributes_der_inj _ _ c F F' A A' ltac:(lia)) as (E1 & E2).
  clear -E1 E2. revert E1 E2. generalize (ps_auth_attrs info'). induction (ps_auth_attrs info) as [|x l IH]; intros [|y l'] E1 E2; try discriminate; [reflexivity|].
  cbn [map] in E1, E2. assert (said x = said y /\ map said l = map said l') as (S1 & S2) by (split; congruence).
  assert (pa_value x = pa_value y /\ map pa_value l = map pa_value l') as (S3 & S4) by (split; congruence).
  f_equal; [|apply IH; assumption]. destruct x, y. unfold said in S1. cbn in *. congruence.
Qed.
Print Assumptions C61_injective.

(** So a signature over attributes is a signature over a SET with exactly one messageDigest attribute, whose value starts
    with the OCTET STRING that is the digest of the signature file. *)
Definition digest_in (hash : bytes) (l : list (oid * bytes)) : Prop :=
  exists l1 value l2 class tag compound octets rest, l = l1 ++ ([1; 2; 840; 113549; 1; 9; 4], value) :: l2 /\
    element class tag compound (octets ++ rest) value /\ element 0 4 false hash octets /\
    forall a, In a (l1 ++ l2) -> fst a <> [1; 2; 840; 113549; 1; 9; 4].
Lemma unmarshalOctets_element Q b d : unmarshalOctets Q b = Some d -> exists f r, b = f ++ r /\ element 0 4 false d f.
Proof.
  unfold unmarshalOctets, unmarshal. destruct (parseField (X Q) TyBytes noParams (zeroVal TyBytes) b) as [v [r|]] eqn:E; [|destruct v; discriminate].
  intros H. assert (v = VBytes d) as -> by (destruct v; congruence).
  apply parseField_mandatory in E; [|discriminate|reflexivity|reflexivity]. destruct E as (t & u & inner & _ & HH & HC).
  apply (parseHeader_universal _ _ _ _ _ _ TagOctetString false) in HH; [|reflexivity|discriminate|discriminate]. destruct HH as (full & E & HE).
  cbn [parseContent] in HC. assert (d = inner) as -> by congruence. exists full, r. split; assumption.
Qed.
Theorem C61_signed_content : forall Q E data p info raw maxSdk m, pkcs7Parse Q data = Ret (Some p) -> In info (p7_signers p) ->
  signs (withPkcs7 Q E) p info raw maxSdk m ->
  (ps_auth_attrs info = [] /\ m = raw) \/
  (exists h c, In (ps_digest_alg info, h) [([1; 3; 14; 3; 2; 26], HSha1); ([2; 16; 840; 1; 101; 3; 4; 2; 1], HSha256)] /\
     der_element 0 17 true c m /\ attributes_der (map said (ps_auth_attrs info)) c /\ digest_in (e_hash E h raw) (map said (ps_auth_attrs info))).
Proof.
  intros Q E data p info raw maxSdk m H HI HS. destruct HS as [HE|m h HN Hh (l1 & a & l2 & El & Et & Ed & Eu) _ Hm]; [left; split; [exact HE|reflexivity]|]. right.
  destruct (C61_signed_bytes Q data p info H HI) as (F & c & b & A & D & L & M). exists h, c. cbn [e_marshal_attrs withPkcs7 e_asn1_octets e_hash] in *.
  assert (b = m) as -> by congruence. split; [exact Hh|]. split; [exact D|]. split; [exact A|].
  destruct (unmarshalOctets_element Q _ _ Ed) as (f & r & Ev & HEf). rewrite El in F. apply Forall_app in F as (_ & F). inversion F as [|? ? (_ & cl & tg & k & Hk) _]; subst.
  rewrite Ev in Hk. exists (map said l1), (pa_full a), (map said l2), cl, tg, k, f, r. rewrite El, map_app. cbn [map]. split; [unfold said at 2; rewrite Et; reflexivity|].
  split; [exact Hk|]. split; [exact HEf|]. intros x Hx. rewrite <- map_app in Hx. apply in_map_iff in Hx as (y & <- & Hy). exact (Eu y Hy).
Qed.
Print Assumptions C61_signed_content.
(** Two signature files for which the same bytes are signed: they are equal, or one of them is the SET of attributes, or
    they have the same digest. *)
Theorem C61_one_message_one_file : forall Q E data p info raw maxSdk data' p' info' raw' maxSdk' m,
  pkcs7Parse Q data = Ret (Some p) -> In info (p7_signers p) -> pkcs7Parse Q data' = Ret (Some p') -> In info' (p7_signers p') ->
  ps_digest_alg info = ps_digest_alg info' ->
  signs (withPkcs7 Q E) p info raw maxSdk m -> signs (withPkcs7 Q E) p' info' raw' maxSdk' m ->
  raw = raw' \/ m = raw \/ m = raw' \/ exists h, e_hash E h raw = e_hash E h raw'.
Proof.
  intros Q E data p info raw maxSdk data' p' info' raw' maxSdk' m H HI H' HI' Halg HS HS'.
  destruct HS as [HE|m h HN Hh (l1 & a & l2 & El & Et & Ed & Eu) _ Hm]; [right; left; reflexivity|].
  destruct HS' as [HE'|m h' HN' Hh' (l1' & a' & l2' & El' & Et' & Ed' & Eu') _ Hm']; [right; right; left; reflexivity|]. right. right. right.
  cbn [e_marshal_attrs withPkcs7 e_asn1_octets e_hash] in *.
  pose proof (C61_injective Q data p info Q data' p' info' m H HI H' HI' Hm Hm') as EA.
  assert (a = a') as <-.
  { assert (Ha : In a (l1' ++ a' :: l2')) by (rewrite <- El', <- EA, El; apply in_elt). apply in_app_or in Ha as [Ha|[Ha|Ha]]; [| congruence |].
    - exfalso. apply (Eu' a); [apply in_or_app; left; exact Ha|exact Et].
    - exfalso. apply (Eu' a); [apply in_or_app; right; exact Ha|exact Et]. }
  assert (h = h') as <-.
  { destruct Hh as [Hh|[Hh|[]]], Hh' as [Hh'|[Hh'|[]]]; congruence. }
  exists h. congruence.
Qed.
Print Assumptions C61_one_message_one_file.

Example C61_nonvacuous : exists p info b, pkcs7Parse toy_q (block []) = Ret (Some p) /\ In info (p7_signers p) /\
  List.length (ps_auth_attrs info) = 2%nat /\ marshalAuthenticatedAttributes toy_q (ps_auth_attrs info) = Some b /\ b = tlv x31 (e_attrs [] sf) /\
  signs p7_env p info sf 33 b.
Proof.
  eexists _, _, _. split; [vm_compute; reflexivity|]. split; [left; reflexivity|]. split; [reflexivity|]. split; [vm_compute; reflexivity|]. split; [vm_compute; reflexivity|].
  eapply (SignsAttributes _ _ _ _ _ _ HSha1).
  - discriminate.
  - left. reflexivity.
  - eexists [_], _, []. split; [reflexivity|]. split; [reflexivity|]. split; [vm_compute; reflexivity|]. intros a [<-|[]]. discriminate.
  - intros _. eexists [], _, [_]. split; [reflexivity|]. split; [reflexivity|]. split; [vm_compute; reflexivity|]. intros a [<-|[]]. discriminate.
  - vm_compute. reflexivity.
Qed.

(** C62 is false: the error of decoding the SignedData is dropped.  A SignedData with nothing but a version number is accepted. *)
Definition cut_block : bytes := seq [pkcs [x07; x02]; tlv xa0 (seq [tlv x02 [x01]])].
Lemma element_content class tag compound content class' tag' compound' content' f :
  der_element class tag compound content f -> element class' tag' compound' content' f -> zlen f < 2 ^ 31 -> content = content'.
Proof.
  intros D E HL. pose proof (der_element_size _ _ _ _ _ D). destruct (element_prefix _ _ _ _ _ _ _ _ _ _ [] [] (der_element_element _ _ _ _ _ D ltac:(lia)) E eq_refl) as (_ & _ & _ & EC & _). exact EC.
Qed.
Lemma element_first class tag compound content f class' tag' compound' content' f' r r' :
  der_element class tag compound content f -> element class' tag' compound' content' f' -> f ++ r = f' ++ r' -> zlen (f' ++ r') < 2 ^ 31 -> r = r'.
Proof.
  intros D E EQ HL. pose proof (der_element_size _ _ _ _ _ D). rewrite <- EQ, zlen_app in HL. pose proof (zlen_nonneg r).
  destruct (element_prefix _ _ _ _ _ _ _ _ _ _ r r' (der_element_element _ _ _ _ _ D ltac:(lia)) E EQ) as (_ & _ & _ & _ & _ & ER). exact ER.
Qed.
Lemma tlv_length (c : bytes) : zlen c < 65536 -> der_length (zlen c)
  (if zlen c <? 128 then [z2b (zlen c)] else if zlen c <? 256 then [x81; z2b (zlen c)] else [x82; z2b (zlen c / 256); z2b (zlen c)]).
Proof.
  intros HL. pose proof (zlen_nonneg c) as HN. generalize dependent (zlen c). intros n HL HN.
  destruct (Z.ltb_spec n 128); [constructor; lia|]. destruct (Z.ltb_spec n 256).
  - assert (E : be_val [z2b n] = n). { unfold be_val. cbn [fold_left]. rewrite b2z_z2b, Z.mod_small by lia. lia. }
    rewrite <- E at 1. apply (long_min (z2b n) []); [rewrite E; lia| |reflexivity]. intros C. apply (f_equal b2z) in C. rewrite b2z_z2b, Z.mod_small in C by lia. change (b2z x00) with 0 in C. lia.
  - pose proof (Z.div_mod n 256 ltac:(lia)) as DM. pose proof (Z.mod_pos_bound n 256 ltac:(lia)) as MB.
    assert (E : be_val [z2b (n / 256); z2b n] = n). { unfold be_val. cbn [fold_left]. rewrite !b2z_z2b. rewrite (Z.mod_small (n / 256) 256) by (split; [apply Z.div_pos; lia|apply Z.div_lt_upper_bound; lia]). lia. }
    rewrite <- E at 1. apply (long_min (z2b (n / 256)) [z2b n]); [rewrite E; lia| |reflexivity]. intros C. apply (f_equal b2z) in C. rewrite b2z_z2b in C.
    rewrite (Z.mod_small (n / 256) 256) in C by (split; [apply Z.div_pos; lia|apply Z.div_lt_upper_bound; lia]). change (b2z x00) with 0 in C. lia.
Qed.
Lemma tlv_der (class tag : Z) (compound : bool) (t : byte) (c : bytes) : 0 <= class < 4 -> 0 <= tag < 31 -> t = z2b (class * 64 + (if compound then 32 else 0) + tag) -> zlen c < 65536 ->
  der_element class tag compound c (tlv t c).
Proof.
  intros HC HT -> HL. eexists [_], _. split; [reflexivity|]. split; [|apply tlv_length; exact HL]. split; [split; [exact HC|left; split; [exact HT|reflexivity]]|].
  intros b x E M. exfalso. assert (b = z2b (class * 64 + (if compound then 32 else 0) + tag)) as -> by congruence. rewrite b2z_z2b in M.
  assert (Hs : 0 <= class * 64 + (if compound then 32 else 0) + tag < 256) by (destruct compound; lia). rewrite (Z.mod_small _ 256 Hs) in M.
  replace (class * 64 + (if compound then 32 else 0) + tag) with (tag + (class * 2 + (if compound then 1 else 0)) * 32) in M by (destruct compound; lia).
  rewrite Z.mod_add, Z.mod_small in M by lia. lia.
Qed.

Theorem C62_refuted : (forall Q, exists p, pkcs7Parse Q cut_block = Ret (Some p)) /\ forall d, ~ signed_data_der d cut_block.
Proof.
  split; [intros Q; eexists; unfold pkcs7Parse; change (ber2der cut_block) with (BRet cut_block); vm_compute; reflexivity|].
  intros d (ver & digests & digest_set & ctype & cinfo & certs & signers & signer_set & sdata & sd_oid & explicit & _ & Hver & _ & Hds & _ & Hci & _ & _ & Hss & HS & Hoid & Hexp & HF).
  unfold seq_der in HF, HS. cbn [concat] in HF, HS. rewrite app_nil_r in HF, HS.
  assert (E1 : sd_oid ++ explicit = pkcs [x07; x02] ++ tlv xa0 (seq [tlv x02 [x01]])).
  { eapply element_content; [exact HF| |reflexivity]. apply der_element_element; [apply (tlv_der 0 16 true); [lia|lia|reflexivity|reflexivity]|reflexivity]. }
  destruct Hoid as (oct & _ & Hoid). assert (E2 : explicit = tlv xa0 (seq [tlv x02 [x01]])).
  { eapply element_first; [exact Hoid| |exact E1|reflexivity]. apply der_element_element; [apply (tlv_der 0 6 false); [lia|lia|reflexivity|reflexivity]|reflexivity]. }
  rewrite E2 in Hexp. assert (E3 : sdata = seq [tlv x02 [x01]]).
  { eapply element_content; [exact Hexp| |reflexivity]. apply der_element_element; [apply (tlv_der 2 0 true); [lia|lia|reflexivity|reflexivity]|reflexivity]. }
  rewrite E3 in HS. assert (E4 : ver ++ digest_set ++ cinfo ++ certs ++ signer_set = tlv x02 [x01]).
  { eapply element_content; [exact HS| |reflexivity]. apply der_element_element; [apply (tlv_der 0 16 true); [lia|lia|reflexivity|reflexivity]|reflexivity]. }
  apply (f_equal (@zlen byte)) in E4. rewrite !zlen_app in E4. change (zlen (tlv x02 [x01])) with 3 in E4.
  apply der_element_size in Hds. apply der_element_size in Hci. pose proof (zlen_nonneg (concat digests)). pose proof (zlen_nonneg (concat [ctype])). pose proof (zlen_nonneg ver). pose proof (zlen_nonneg certs). pose proof (zlen_nonneg signer_set). lia.
Qed.
(** What holds: if there is a signer, everything was decoded, and all the input was used. *)
Theorem C62_signers_decoded_partial : forall Q data p, pkcs7Parse Q data = Ret (Some p) -> p7_signers p <> [] ->
  exists der info sd rest, ber2der data = BRet der /\ unmarshal (q_text Q) tyContentInfo der = (info, Some []) /\
    asOid (field 0 info) = [1; 2; 840; 113549; 1; 7; 2] /\ unmarshal (q_text Q) tySignedData (rawBytes (field 1 info)) = (sd, Some rest).
Proof.
  intros Q data p H HN. destruct (parse_signers Q data p H HN) as (der & rest & info & sd & H1 & H2 & H3 & H4 & _). exists der, info, sd, rest. auto.
Qed.
Print Assumptions C62_signers_decoded_partial.
(** So a block whose decoding failed verifies nothing. *)
Theorem C62_no_signer_no_verification_partial : forall Q E S data p raw minSdk maxSdk ch, pkcs7Parse Q data = Ret (Some p) ->
  block_verified (withPkcs7 Q E) S p raw minSdk maxSdk ch ->
  exists der info sd rest, ber2der data = BRet der /\ unmarshal (q_text Q) tyContentInfo der = (info, Some []) /\
    unmarshal (q_text Q) tySignedData (rawBytes (field 1 info)) = (sd, Some rest).
Proof.
  intros Q E S data p raw minSdk maxSdk ch H (c & t & info & _ & _ & HI & _). destruct (C62_signers_decoded_partial Q data p H) as (der & i & sd & rest & H1 & H2 & _ & H3).
  - intros C. rewrite C in HI. destruct (minSdk <? 24); [destruct HI as (r & HI); discriminate|exact HI].
  - exists der, i, sd, rest. auto.
Qed.
Print Assumptions C62_no_signer_no_verification_partial.
Example C62_nonvacuous : exists p, pkcs7Parse toy_q (block []) = Ret (Some p) /\ p7_signers p <> [].
Proof. eexists. split; [vm_compute; reflexivity|discriminate]. Qed.

(** C63 is false: bytes after the value of a signed attribute, inside the attribute, are not covered by the signature.
    Two APKs whose block files differ inside the signed attributes only are accepted with the same certificates. *)
Theorem C63_refuted : exists attrs attrs' sig chains, attrs <> attrs' /\ chains <> [] /\ sched_ok toy_sched /\
  verifySchemeV1 p7_env toy_sched (jar mf sf (e_block "K"%byte attrs sig) the_manifest_xml a_txt) false 10 33 = Ret (chains, None) /\
  verifySchemeV1 p7_env toy_sched (jar mf sf (e_block "K"%byte attrs' sig) the_manifest_xml a_txt) false 10 33 = Ret (chains, None).
Proof.
  exists (e_attrs [x05; x00] sf), (e_attrs [x04; x00] sf), (psign "K"%byte sf). eexists. split; [vm_compute; discriminate|]. split; [|split; [exact toy_sched_ok|split; vm_compute; reflexivity]]. discriminate.
Qed.
(** What holds: for an object in DER the signature covers the attributes exactly as they are in the file, with the SET tag
    in place of the context tag. *)
Lemma attribute_der_unique a f f' : attribute_der a f -> attribute_der a f' -> f = f'.
Proof.
  intros (o & t & HO & HT & H) (o' & t' & HO' & HT' & H'). rewrite (oid_der_unique _ _ _ HO' HO) in HT'. rewrite (der_element_unique _ _ _ _ _ _ HT' HT) in H'. exact (der_element_unique _ _ _ _ _ _ H H').
Qed.
Lemma attributes_der_unique l c : attributes_der l c -> forall c', attributes_der l c' -> c = c'.
Proof.
  induction 1 as [|a f l fs Ha Hl IH]; intros c' H; inversion H as [|? f' ? fs' Ha' Hl']; subst; [reflexivity|]. f_equal; [exact (attribute_der_unique _ _ _ Ha Ha')|apply IH; exact Hl'].
Qed.
Theorem C63_der_object_partial : forall Q d f certs o, signed_data_der d f -> Forall valid_oid (doc_oids d) -> der o f -> zlen f < 2 ^ 31 ->
  (match s_certs d with Some c => q_certs Q c = Some certs | None => certs = [] end) ->
  exists p, pkcs7Parse Q f = Ret (Some p) /\
    Forall2 (fun (sd : signer_doc) (info : p7_signer) => forall l attrs, sd_attrs sd = Some l -> tagged_attributes 0 l attrs ->
      exists c b, der_element 2 0 true c attrs /\ der_element 0 17 true c b /\ marshalAuthenticatedAttributes Q (ps_auth_attrs info) = Some b)
    (s_signers d) (p7_signers p).
Proof.
  intros Q d f certs o HS HV HD HL HC. assert (HB : ber2der f = BRet f) by (rewrite <- (app_nil_r f) at 1; exact (C40_der_unchanged o f [] HD HL)).
  destruct (signed_data_parse Q d f certs HS HV HL HC HB) as (p & HP & _ & _ & HF). exists p. split; [exact HP|].
  assert (HA : forall info, In info (p7_signers p) -> exists c b, attributes_der (map said (ps_auth_attrs info)) c /\ der_element 0 17 true c b /\ marshalAuthenticatedAttributes Q (ps_auth_attrs info) = Some b).
  { intros info HI. destruct (C61_signed_bytes Q f p info HP HI) as (_ & c & b & H1 & H2 & _ & H3). exists c, b. auto. }
  clear -HF HA. induction HF as [|sd info sds infos (_ & _ & _ & _ & _ & Hsaid & _) HF IH]; constructor.
  - intros l attrs El (c & H1 & _ & H2). destruct (HA info (or_introl eq_refl)) as (c' & b & A1 & A2 & A3). rewrite Hsaid, El in A1. cbn [present] in A1.
    rewrite (attributes_der_unique _ _ A1 _ H1) in A2. exists c, b. auto.
  - apply IH. intros i Hi. apply HA. right. exact Hi.
Qed.
Print Assumptions C63_der_object_partial.

(** C64.  The PKCS#7 object of an honest signer is parsed to what it says - in DER, or in any BER encoding of the same
    object. *)
Theorem C64_honest_object : forall Q d f certs o b rest, signed_data_der d f -> Forall valid_oid (doc_oids d) -> der o f -> zlen f < 2 ^ 31 ->
  ber false o b -> zlen b < 2 ^ 31 ->
  (match s_certs d with Some c => q_certs Q c = Some certs | None => certs = [] end) ->
  exists p, pkcs7Parse Q (b ++ rest) = Ret (Some p) /\ p7_certs p = certs /\ object_says (issuerName Q) d p.
Proof.
  intros Q d f certs o b rest HS HV HD HL HBER HLB HC. assert (HB : ber2der f = BRet f) by (rewrite <- (app_nil_r f) at 1; exact (C40_der_unchanged o f [] HD HL)).
  destruct (C40_transcodes_partial o b rest HBER HLB) as (f' & HB' & HD'). rewrite (C40_der_unique o f' f HD' HD) in HB'.
  destruct (signed_data_parse Q d f certs HS HV HL HC HB) as (p & HP & H). exists p. split; [|exact H]. rewrite <- HP. unfold pkcs7Parse. rewrite HB, HB'.
  destruct f as [|x f0] eqn:Ef; [cbn in HB; discriminate|]. destruct (b ++ rest) as [|y t]; [cbn in HB'; discriminate|]. reflexivity.
Qed.
Print Assumptions C64_honest_object.
Theorem C64_honest_der : forall Q d f certs o rest, signed_data_der d f -> Forall valid_oid (doc_oids d) -> der o f -> zlen f < 2 ^ 31 ->
  (match s_certs d with Some c => q_certs Q c = Some certs | None => certs = [] end) ->
  exists p, pkcs7Parse Q (f ++ rest) = Ret (Some p) /\ p7_certs p = certs /\ object_says (issuerName Q) d p.
Proof.
  intros Q d f certs o rest HS HV HD HL HC. assert (HB : forall rest, ber2der (f ++ rest) = BRet f) by (intros r; exact (C40_der_unchanged o f r HD HL)).
  pose proof (HB []) as HB0. rewrite app_nil_r in HB0. destruct (signed_data_parse Q d f certs HS HV HL HC HB0) as (p & HP & H). exists p. split; [|exact H].
  rewrite <- HP. unfold pkcs7Parse. rewrite HB, HB0. destruct f as [|x f0]; [cbn in HB0; discriminate|]. reflexivity.
Qed.
Print Assumptions C64_honest_der.

Lemma valid_example o : match o with a :: b :: r => (0 <=? a) && (a <=? 2) && (0 <=? b) && (b <=? max_int32 - 80) && ((a =? 2) || (b <? 40)) && forallb (fun n => (0 <=? n) && (n <=? max_int32)) r | _ => false end = true -> valid_oid o.
Proof.
  destruct o as [|a [|b r]]; try discriminate. intros H. rewrite !Bool.andb_true_iff, Bool.orb_true_iff in H. rewrite ?Z.leb_le, ?Z.eqb_eq, ?Z.ltb_lt in H. destruct H as (((((H1 & H2) & H3) & H4) & H5) & H6).
  exists a, b, r. rewrite forallb_forall in H6. repeat split; try lia. apply Forall_forall. intros n Hn. specialize (H6 n Hn). rewrite Bool.andb_true_iff, !Z.leb_le in H6. lia.
Qed.
Ltac der_tlv class tag compound := refine (tlv_der class tag compound _ _ _ _ _ _); [lia|lia|reflexivity|vm_compute; reflexivity].
Lemma oid_der_example o octets : valid_oid o -> encodeOid o = Some octets -> oid_der o octets.
Proof. intros V E. destruct (encodeOid_der o V) as (b & E' & D). assert (b = octets) as -> by congruence. exact D. Qed.
Lemma oid_example o octets : valid_oid o -> encodeOid o = Some octets -> zlen octets < 65536 -> oid_element o (tlv x06 octets).
Proof. intros V E L. destruct (encodeOid_der o V) as (b & E' & D). exists octets. assert (b = octets) as -> by congruence. split; [exact D|]. refine (tlv_der 0 6 false _ _ _ _ _ _); [lia|lia|reflexivity|exact L]. Qed.
Lemma integer_example : integer_element 1 (tlv x02 [x01]).
Proof. exists [x01]. split; [apply parseInt64_iff; vm_compute; reflexivity|]. der_tlv 0 2 false. Qed.
Lemma null_example : is_element e_null.
Proof. exists 0, 5, false, []. apply der_element_element; [|reflexivity]. change e_null with (tlv x05 []). der_tlv 0 5 false. Qed.
Ltac oid_tlv := apply oid_example; [apply valid_example; vm_compute; reflexivity|vm_compute; reflexivity|vm_compute; reflexivity].
Lemma block_document : signed_data_der block_doc (block []) /\ Forall valid_oid (doc_oids block_doc) /\ exists o, der o (block []).
Proof.
  assert (HA : algorithm_der ([1; 3; 14; 3; 2; 26], Some e_null) (ToyPkcs7.seq [e_sha1; e_null])).
  { exists e_sha1, e_null. split; [oid_tlv|]. split; [split; [exact null_example|reflexivity]|]. der_tlv 0 16 true. }
  split; [|split].
  - exists (tlv x02 [x01]), [ToyPkcs7.seq [e_sha1; e_null]]. eexists _, (pkcs [x07; x01]), _, _, [e_signer (e_attrs [] sf) (psign "K"%byte sf)], _, _, (pkcs [x07; x02]), _.
    split; [cbn; lia|]. split; [exact integer_example|]. split; [constructor; [exact HA|constructor]|]. split; [der_tlv 0 17 true|].
    split; [oid_tlv|]. split; [der_tlv 0 16 true|]. split; [cbn [optional s_certs block_doc]; der_tlv 2 0 true|].
    split; [|split; [der_tlv 0 17 true|split; [der_tlv 0 16 true|split; [oid_tlv|split; [der_tlv 2 0 true|unfold block, e_block; cbn [concat]; der_tlv 0 16 true]]]]].
    constructor; [|constructor]. exists (tlv x02 [x01]), (tlv x02 [x01]). eexists _, _, _, (ToyPkcs7.seq [pkcs [x01; x01]; e_null]), _, [].
    split; [cbn; lia|]. split; [exact integer_example|]. split; [exact integer_example|].
    split; [eexists 0, 16, true, _; apply der_element_element; [der_tlv 0 16 true|reflexivity]|].
    split; [der_tlv 0 16 true|]. split; [exact HA|]. split.
    + exists (e_attrs [] sf). split; [|split; [constructor; [|constructor; [|constructor]]|der_tlv 2 0 true]].
      * unfold e_attrs. rewrite <- (app_nil_r (ToyPkcs7.seq [pkcs [x09; x04]; ToyPkcs7.set [tlv x04 (toy_hash HSha1 sf)]])).
        constructor; [|constructor; [|constructor]].
        -- exists ([x2a; x86; x48; x86; xf7; x0d; x01] ++ [x09; x03]), (pkcs [x09; x03]). split; [apply oid_der_example; [apply valid_example|]; vm_compute; reflexivity|].
           split; [|cbn [snd concat app]]; [der_tlv 0 6 false|der_tlv 0 16 true].
        -- exists ([x2a; x86; x48; x86; xf7; x0d; x01] ++ [x09; x04]), (pkcs [x09; x04]). split; [apply oid_der_example; [apply valid_example|]; vm_compute; reflexivity|].
           split; [der_tlv 0 6 false|]. cbn [snd concat app]. der_tlv 0 16 true.
      * eexists 0, 17, true, _. apply der_element_element; [der_tlv 0 17 true|reflexivity].
      * eexists 0, 17, true, _. apply der_element_element; [der_tlv 0 17 true|reflexivity].
    + split; [|split; [der_tlv 0 4 false|split; [reflexivity|der_tlv 0 16 true]]].
      exists (pkcs [x01; x01]), e_null. split; [oid_tlv|]. split; [split; [exact null_example|reflexivity]|der_tlv 0 16 true].
  - cbn. repeat (constructor; [apply valid_example; vm_compute; reflexivity|]). constructor.
  - apply (C40_output_is_der (block []) (block [])); [vm_compute; reflexivity|vm_compute; reflexivity].
Qed.
Example C63_nonvacuous : signed_data_der block_doc (block []) /\ Forall valid_oid (doc_oids block_doc) /\ (exists o, der o (block [])) /\ zlen (block []) < 2 ^ 31 /\
  (exists certs, match s_certs block_doc with Some c => q_certs toy_q c = Some certs | None => certs = [] end) /\
  (exists sd l attrs, In sd (s_signers block_doc) /\ sd_attrs sd = Some l /\ tagged_attributes 0 l attrs).
Proof.
  destruct block_document as (H1 & H2 & H3). split; [exact H1|]. split; [exact H2|]. split; [exact H3|]. split; [vm_compute; reflexivity|]. split; [eexists; vm_compute; reflexivity|].
  destruct H1 as (? & ? & ? & ? & ? & ? & sg & ? & ? & ? & ? & _ & _ & _ & _ & _ & _ & _ & HF & _). inversion HF as [|sd f0 ? ? Hsd _]; subst.
  destruct Hsd as (? & ? & ? & ? & attrs & ? & ? & ? & _ & _ & _ & _ & _ & _ & HA & _). exists block_signer. eexists _, attrs. split; [left; reflexivity|]. split; [reflexivity|exact HA].
Qed.
(** The example object with an overlong length of the outermost element *)
Example C64_nonvacuous : exists o b, signed_data_der block_doc (block []) /\ Forall valid_oid (doc_oids block_doc) /\ der o (block []) /\ zlen (block []) < 2 ^ 31 /\
  ber false o b /\ b <> block [] /\ zlen b < 2 ^ 31 /\ exists certs, q_certs toy_q (tlv x04 ["K"%byte]) = Some certs.
Proof.
  destruct block_document as (H1 & H2 & o & H3). assert (HL : zlen (block []) < 2 ^ 31) by (vm_compute; reflexivity).
  assert (H4 : exists l body, block [] = [x30] ++ l ++ body /\ zlen l = 2 /\ be_val (takeZ 1 (dropZ 1 l)) = zlen body /\ exists b1, l = [x81; b1]).
  { exists (takeZ 2 (dropZ 1 (block []))), (dropZ 3 (block [])). split; [vm_compute; reflexivity|]. split; [vm_compute; reflexivity|]. split; [vm_compute; reflexivity|]. eexists. vm_compute. reflexivity. }
  destruct H4 as (l & body & E & _ & EV & b1 & El). rewrite El in EV, E. change (takeZ 1 (dropZ 1 [x81; b1])) with [b1] in EV.
  exists o, ([x30] ++ [x82; x00; b1] ++ body). split; [exact H1|]. split; [exact H2|]. split; [exact H3|]. split; [exact HL|].
  rewrite E in HL, H3. rewrite !zlen_app in HL. change (zlen [x30]) with 1 in HL. change (zlen [x81; b1]) with 2 in HL.
  assert (EV3 : be_val [x00; b1] = zlen body). { rewrite <- EV. reflexivity. }
  split; [|split; [rewrite E; discriminate|split; [rewrite !zlen_app; change (zlen [x30]) with 1; change (zlen [x82; x00; b1]) with 3; assert (zlen body < 65536); [rewrite <- EV; pose proof (b2z_range b1); unfold be_val; cbn [fold_left]; lia|lia]|eexists; vm_compute; reflexivity]]].
  assert (HI : forall k t r, identifier k t -> t ++ r = x30 :: ([x81; b1] ++ body) -> k = true /\ t = [x30] /\ r = [x81; b1] ++ body).
  { intros k t r (x & y & -> & Hk & Hy) EQ. cbn [app] in EQ. assert (x = x30) as -> by congruence. destruct Hy as [(_ & ->)|(C & _)]; [|exfalso; vm_compute in C; discriminate].
    split; [destruct k; [reflexivity|exfalso; vm_compute in Hk; discriminate]|]. split; [reflexivity|]. cbn [app] in EQ |- *. congruence. }
  inversion H3 as [t c ln Ht Hln Ho Hf|t os bd ln Ht Hos Hln Ho Hf].
  - destruct (HI false t (ln ++ c) Ht Hf) as (C & _). discriminate.
  - destruct (HI true t (ln ++ bd) Ht Hf) as (_ & -> & EB).
    assert (bd = body) as ->.
    { apply der_length_ber in Hln as Hln2. 2:{ apply (f_equal (@zlen byte)) in EB. rewrite !zlen_app in EB. change (zlen [x81; b1]) with 2 in EB. pose proof (zlen_nonneg ln). lia. }
      inversion Hln as [n Hn E1 E2|c d Hc Hnz Hd E1 E2].
      - rewrite <- E2 in EB. cbn [app] in EB. assert (C : z2b (zlen bd) = x81) by congruence. apply (f_equal b2z) in C. rewrite b2z_z2b, Z.mod_small in C by lia. change (b2z x81) with 129 in C. lia.
      - rewrite <- E2 in EB. cbn [app] in EB. assert (C : z2b (128 + zlen (c :: d)) = x81) by congruence. apply (f_equal b2z) in C. rewrite b2z_z2b, Z.mod_small in C by (pose proof (zlen_nonneg (c :: d)); lia). change (b2z x81) with 129 in C.
        rewrite zlen_cons in C. destruct d as [|d1 d]; [|rewrite zlen_cons in C; pose proof (zlen_nonneg d); lia]. cbn [app] in EB. congruence. }
    apply ber_definite; [exact Ht|apply (proj2 (der_ber_mut false)); [exact Hos|lia]|]. rewrite <- EV3. apply long_form; [change (zlen [x00; b1]) with 2; lia|]. rewrite EV3. lia.
Qed.

(** C65.  Marshal followed by Unmarshal gives back the value and leaves the rest, for every type description and every
    value of it without optional, defaulted, interface-typed, raw-content or time parts. *)
Theorem C65_round_trip : forall X ty p v b old rest, storable ty p v -> makeField X ty p v = Some b -> zlen b < 2 ^ 31 ->
  parseField X ty p old (b ++ rest) = (v, Some rest).
Proof. intros X. exact (proj1 (value_round_trip X)). Qed.
Print Assumptions C65_round_trip.
Definition sample_type : gotype := TyStruct false (FCons noParams TyInt (FCons noParams TyOid (FCons pSet (TySlice false TyBytes) (FCons noParams TyRaw FNil)))).
Definition sample_value : goval := VStruct [] [VInt (-129); VOid [1; 2; 840]; VSlice [VBytes [x41]; VBytes []]; VRaw 0 5 false [] e_null].
Example C65_nonvacuous : storable sample_type noParams sample_value /\ exists b, makeField (q_text toy_q) sample_type noParams sample_value = Some b /\ zlen b < 2 ^ 31.
Proof.
  split; [|eexists; split; [vm_compute; reflexivity|vm_compute; reflexivity]].
  assert (M : mandatory noParams) by (repeat split; discriminate). assert (M' : mandatory pSet) by (repeat split; discriminate).
  assert (HE : element 0 5 false [] e_null). { apply der_element_element; [|reflexivity]. change e_null with (tlv x05 []). der_tlv 0 5 false. }
  assert (HO : valid_oid [1; 2; 840]) by (apply valid_example; reflexivity).
  assert (HZ : - 2 ^ 63 <= -129 < 2 ^ 63) by (split; [discriminate|reflexivity]).
  unfold sample_type, sample_value. split; [exact M|]. split; [reflexivity|]. split; [exact (conj M HZ)|]. split; [exact (conj M HO)|].
  split; [exact (conj M' (conj (conj M I) (conj (conj M I) I)))|]. split; [exact (conj M (conj eq_refl (conj eq_refl HE)))|exact I].
Qed.
