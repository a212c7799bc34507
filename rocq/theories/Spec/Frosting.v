(** Google Play frosting: the format described in the comment of frosting.go:22-81, as encoders. *)
From Coq Require Import String.
From Verif.Model Require Import Bytes Env Result Verify.
From Verif.Spec Require Import Encoding ApkLayout Digests Entries.

(** Base-128 little-endian integers; the top bit of every byte but the last is set.  (Over-long forms
    included.) *)
Inductive varint : Z -> bytes -> Prop :=
| varint_last z : 0 <= z < 128 -> varint z [z2b z]
| varint_more low z bs : 0 <= low < 128 -> varint z bs -> varint (low + 128 * z) (z2b (low + 128) :: bs).

(** The shortest form. *)
Fixpoint varint_canonical (fuel : nat) (z : Z) : bytes :=
  match fuel with
  | O => []
  | S f => if z <? 128 then [z2b z] else z2b (z mod 128 + 128) :: varint_canonical f (z / 128)
  end.
Definition varint_enc (z : Z) : bytes := varint_canonical 5 z.

(** The int32 a varint of at most five bytes stands for (excess bits are dropped). *)
Definition varint32 (v : Z) (bs : bytes) : Prop := exists z, varint z bs /\ zlen bs <= 5 /\ v = wrap32 z.

(** A field preceded by its length, and a sequence of such fields. *)
Definition vfield (x enc : bytes) : Prop := exists l, varint32 (zlen x) l /\ enc = l ++ x.
Definition vfields (xs : list bytes) (enc : bytes) : Prop := exists encs, Forall2 vfield xs encs /\ enc = concat encs.

(** A metadata entry that is switched off, and one that is on. *)
Definition disabled_entry (e : bytes) : Prop := exists d ds rest, d <> 0 /\ varint32 d ds /\ e = ds ++ rest.
Definition enabled_entry (keyIndex : Z) (fileSha256 e : bytes) : Prop :=
  exists ds ks, varint32 0 ds /\ varint32 keyIndex ks /\ e = ds ++ ks ++ fileSha256 /\ zlen fileSha256 = 32.

(** [frosting_block block proto skipped e sig signed]: [block] starts with the size of the protobuf and the
    metadata, the size-prefixed [proto] and the size of the metadata; the metadata starts with the entries
    [skipped], then [e]; [signed] is everything from the size of [proto] to the end of [e]; after as many bytes
    as announced there is an array whose entry number |skipped| is [sig]. *)
Definition frosting_block (block proto : bytes) (skipped : list bytes) (e sig signed : bytes) : Prop :=
  exists total totals protoE metas metaSize skipE eE rest,
    varint32 total totals /\ vfield proto protoE /\ varint32 metaSize metas /\ vfields skipped skipE /\ vfield e eE /\
    signed = protoE ++ metas ++ skipE ++ eE /\
    block = totals ++ signed ++ rest /\
    zlen (skipE ++ eE) <= metaSize /\ zlen proto + metaSize <= total /\
    exists pm sigs arr junk before sigE after,
      block = totals ++ pm ++ sigs ++ arr ++ junk /\ zlen pm = total /\ varint32 (zlen arr) sigs /\
      arr = concat before ++ sigE ++ after /\ vfield sig sigE /\ List.length before = List.length skipped /\
      Forall (fun b => exists x, vfield x b) before.

(** ECDSA over SHA-256 with the first two integers of the ASN.1 sequence [sig], as Go's standard library reads it. *)
Definition ecdsa_sha256_ok (E : env) (spki msg sig : bytes) : Prop :=
  exists k r s, e_pkix_std E spki = Some (KEcdsa k) /\ e_asn1_rs_std E sig = Some (r, s, false) /\ 0 < r /\ 0 < s /\
    e_ecdsa E k (e_hash E HSha256 msg) r s = true.
(** SEQUENCE { INTEGER r, INTEGER s } takes at least 8 bytes. *)
Definition ecdsa_sig_min (E : env) : Prop := forall sig rs, e_asn1_rs_std E sig = Some rs -> 8 <= zlen sig.

(** What the file hash covers. *)
Definition frosting_hashed (before : bytes) (v2 : option bytes) (cd rec : bytes) (msg : bytes) : Prop :=
  exists rec', patched rec (zlen before) rec' /\
    msg = before ++ match v2 with Some (x :: t) => le32 0x7109871a ++ x :: t | _ => [] end ++ cd ++ rec'.

(** The only key (SubjectPublicKeyInfo, base64). *)
Definition frosting_key : bytes :=
  s2b "MFkwEwYHKoZIzj0CAQYIKoZIzj0DAQcDQgAEZH2+1+E07dnErAD3L6BbTnaohU0bbXriNlJI7VxJU+LjdSwPyXR5pomARAMoyPkMksLz/gitUPtFuJoPL2ziEw==".

(** The part that concerns the entries [es] of the signing block: in the last frosting block among them the first
    enabled metadata entry (after fewer than 32767 disabled ones) names key 0 and holds SHA-256 of the protected parts
    of the file; the signature with the same index was made with that key over everything from the size of the
    protobuf, which is not empty, to the end of that entry. *)
Definition frosting_parts (E : env) (before : bytes) (es : list (Z * bytes)) (cd rec : bytes) (fr : frostingResult) : Prop :=
  exists block skipped e sha sig signed spki v2 msg,
    last_entry es id_frosting block /\
    frosting_block block (fr_protobufInfo fr) skipped e sig signed /\ Forall disabled_entry skipped /\ enabled_entry 0 sha e /\
    zlen skipped < 32767 /\ fr_protobufInfo fr <> [] /\
    e_base64 E (frosting_key) = Some spki /\ ecdsa_sha256_ok E spki signed sig /\
    fr_keySha256 fr = hex_encode (e_hash E HSha256 spki) /\
    (forall p, v2 = Some p <-> last_entry es id_v2 p) /\ frosting_hashed before v2 cd rec msg /\ sha = e_hash E HSha256 msg.

(** What a frosting result without error means: the above, for all entries of the signing block, or for those before the
    first malformed one, and then the call fails with the not-found error. *)
Definition frosting_verified (E : env) (file : bytes) (err : option verr) (fr : frostingResult) : Prop :=
  exists before pairs cd rec es rest,
    apk file before pairs cd rec /\ pairs = enc_entries es ++ rest /\ Forall entry_fits es /\
    (rest <> [] -> (exists m, err = Some (ErrNotFound m)) /\ ~ exists es', entries_of pairs es') /\
    frosting_parts E before es cd rec fr.

(** A file with well-formed signing block and frosting made for it. *)
Definition frosting_genuine (E : env) (file : bytes) (fr : frostingResult) : Prop :=
  exists before pairs cd rec es,
    apk file before pairs cd rec /\ entries_of pairs es /\ frosting_parts E before es cd rec fr.
