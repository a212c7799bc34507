(** C41: the ASN.1 codecs. *)
From Coq Require Import Lia.
From Verif.Model Require Import Bytes Env Ber Asn1.
From Verif.Spec Require Import Ber Asn1.
From Verif.Proofs Require Import BytesFacts BerFacts Asn1Codec Asn1Header.

(** Tag and length: what the encoder writes is read back, and exactly its bytes are consumed. *)
Theorem C41_header_round_trip : forall t rest, valid_header t ->
  parseTagAndLength (appendTagAndLength t ++ rest) = Some (t, rest).
Proof. exact parse_append_header. Qed.
(** The decoder reads exactly the identifier and length octets of X.690 (leading zeros allowed) ... *)
Theorem C41_header_decoder : forall s t rest, parseTagAndLength s = Some (t, rest) <->
  exists id len, s = id ++ len ++ rest /\ identifier_octets (tl_class t) (tl_tag t) (tl_compound t) id /\ definite_length (tl_length t) len.
Proof. exact parseTagAndLength_iff. Qed.
(** ... and the encoder writes the shortest ones. *)
Theorem C41_header_encoder : forall t, valid_header t -> exists id len, appendTagAndLength t = id ++ len /\
  identifier_shortest (tl_class t) (tl_tag t) (tl_compound t) id /\ der_length (tl_length t) len.
Proof. exact append_header_shortest. Qed.

(** Base 128 numbers *)
Theorem C41_base128_round_trip : forall n rest, 0 <= n <= max_int32 -> parseBase128Int (appendBase128Int n ++ rest) = Some (n, rest).
Proof. exact parse_append_base128. Qed.
Theorem C41_base128_decoder : forall s n rest, parseBase128Int s = Some (n, rest) <->
  exists b, s = b ++ rest /\ base128_octets b n /\ zlen b <= 5 /\ n <= max_int32.
Proof. exact parseBase128_iff. Qed.
Theorem C41_base128_encoder : forall n, 0 <= n <= max_int32 -> base128_shortest (appendBase128Int n) n.
Proof. intros n H. apply (appendBase128_octets n H). Qed.

(** OBJECT IDENTIFIER *)
Theorem C41_oid_round_trip : forall o, valid_oid o -> exists b, encodeOid o = Some b /\ parseObjectIdentifier b = Some o.
Proof. intros o H. destruct (encodeOid_octets o H) as (bs & HE & _). exists (concat bs). split; [exact HE|]. apply (parse_encode_oid o _ H HE). Qed.
(** What is decoded is the identifier that the octets stand for, and it is one that can be encoded. *)
Theorem C41_oid_decoder : forall s o, parseObjectIdentifier s = Some o -> oid_octets o s /\ valid_oid o.
Proof.
  intros s o H. apply parseOid_iff in H as (a & b & r & bs & -> & Ha & Hb & Hab & <- & F).
  assert (G : forall l bs, Forall2 (fun n c => base128_octets c n /\ zlen c <= 5 /\ n <= max_int32) l bs -> numbers_octets l (concat bs) /\ Forall (fun n => 0 <= n <= max_int32) l).
  { clear. intros l bs F. induction F as [|n c l bs (H1 & H2 & H3) F (I1 & I2)]; [split; constructor|]. cbn [concat]. split; [constructor; assumption|].
    constructor; [|exact I2]. apply base128_octets_nonneg in H1. lia. }
  apply G in F as (F1 & F2). inversion F2 as [|? ? H0 F3]; subst. split.
  - exists a, b, r. auto.
  - exists a, b, r. repeat split; try assumption; lia.
Qed.

(** INTEGER in an int64 or int32: exactly the shortest two's complement octets of the number. *)
Theorem C41_int64_decoder : forall b z, parseInt64 b = Some z <-> integer_octets b z /\ zlen b <= 8.
Proof. exact parseInt64_iff. Qed.
Theorem C41_int64_round_trip : forall z, - 2 ^ 63 <= z < 2 ^ 63 -> integer_octets (encodeInt64 z) z /\ parseInt64 (encodeInt64 z) = Some z.
Proof. intros z H. split; [apply (encodeInt64_octets z H)|apply parse_encode_int64; exact H]. Qed.
Theorem C41_int64_injective : forall b z, parseInt64 b = Some z -> encodeInt64 z = b.
Proof. intros b z H. apply (encode_parse_int64 b z H). Qed.
Theorem C41_int32_decoder : forall b z, parseInt32 b = Some z <-> integer_octets b z /\ zlen b <= 8 /\ - 2 ^ 31 <= z < 2 ^ 31.
Proof.
  intros b z. unfold parseInt32. change (2 ^ 31) with 2147483648. destruct (parseInt64 b) as [v|] eqn:E.
  - pose proof E as E2. apply parseInt64_iff in E2 as (HO & HL). split.
    + destruct (Z.eqb_spec v (wrap32 v)) as [W|]; [|discriminate]. intros H. assert (z = v) as -> by congruence. pose proof (wrap32_range v) as R. unfold min_int32, max_int32 in R. split; [exact HO|]. lia.
    + intros (HO' & _ & HR). assert (z = v) as -> by (eapply twos_unique; [apply HO'|apply HO]).
      rewrite wrap32_id by (unfold min_int32, max_int32; lia). rewrite Z.eqb_refl. reflexivity.
  - split; [discriminate|]. intros (HO & HL & _). exfalso. assert (parseInt64 b = Some z) by (apply parseInt64_iff; auto). congruence.
Qed.

(** INTEGER in a big.Int: the same with no limit. *)
Theorem C41_bigint_decoder : forall b z, parseBigInt b = Some z <-> integer_octets b z.
Proof. exact parseBigInt_iff. Qed.
Theorem C41_bigint_round_trip : forall z, integer_octets (encodeBigInt z) z /\ parseBigInt (encodeBigInt z) = Some z.
Proof. intros z. split; [apply encodeBigInt_octets|apply parse_encode_big]. Qed.
Theorem C41_bigint_injective : forall b z, parseBigInt b = Some z -> encodeBigInt z = b.
Proof. exact encode_parse_big. Qed.

(** BOOLEAN and BIT STRING *)
Theorem C41_bool_decoder : forall b v, parseBool b = Some v <-> b = [if v then xff else x00].
Proof. exact parseBool_iff. Qed.
Theorem C41_bits_decoder : forall b u n, parseBitString b = Some (u, n) <->
  exists pad, b = z2b pad :: u /\ 0 <= pad < 8 /\ n = 8 * zlen u - pad /\ (u = [] -> pad = 0) /\ (u <> [] -> b2z (last u x00) mod 2 ^ pad = 0).
Proof. exact parseBits_iff. Qed.
Theorem C41_bits_round_trip : forall b u n, parseBitString b = Some (u, n) -> encodeBitString u n = b.
Proof.
  intros b u n H. apply parseBits_iff in H as (pad & -> & Hp & -> & _). unfold encodeBitString. f_equal. f_equal.
  replace (8 * zlen u - pad) with (- pad + zlen u * 8) by lia. rewrite Z.mod_add by lia.
  destruct (Z.eq_dec pad 0) as [->|N]; [reflexivity|]. replace ((- pad) mod 8) with (8 - pad) by (apply Z.mod_unique with (-1); lia).
  replace (8 - (8 - pad)) with pad by lia. apply Z.mod_small. lia.
Qed.

(** Concrete values: a private tag number needing three octets and a length needing two; sha256WithRSA; the smallest
    int64; -129; a number above 2^64. *)
Example C41_nonvacuous_header : let t := {| tl_class := 3; tl_tag := 70000; tl_length := 300; tl_compound := true |} in
  valid_header t /\ appendTagAndLength t = [xff; x84; xa2; x70; x82; x01; x2c].
Proof. cbv zeta. split; [unfold valid_header, max_int32; cbn; lia|vm_compute; reflexivity]. Qed.
Example C41_nonvacuous_oid : let o := [1; 2; 840; 113549; 1; 1; 11] in
  valid_oid o /\ encodeOid o = Some [x2a; x86; x48; x86; xf7; x0d; x01; x01; x0b].
Proof.
  cbv zeta. split; [|vm_compute; reflexivity]. exists 1, 2, [840; 113549; 1; 1; 11]. unfold max_int32. repeat split; try lia.
  repeat constructor; lia.
Qed.
Example C41_nonvacuous_int : encodeInt64 (- 2 ^ 63) = [x80; x00; x00; x00; x00; x00; x00; x00] /\ parseInt64 [xff; x7f] = Some (-129) /\
  parseInt64 [xff; xff] = None /\ parseBigInt [x01; x00; x00; x00; x00; x00; x00; x00; x02] = Some (2 ^ 64 + 2) /\ encodeBigInt (-128) = [x80].
Proof. vm_compute. repeat split. Qed.
Example C41_nonvacuous_bits : parseBitString [x03; xa8] = Some ([xa8], 5) /\ parseBitString [x03; xa1] = None.
Proof. vm_compute. split; reflexivity. Qed.
