(** Layout of an APK file around the signing block. *)
From Verif.Model Require Import Bytes.
From Verif.Spec Require Import Encoding.

(** [eocd_at file off cdSize cdOff rec]: a ZIP End Of Central Directory record [rec] (with its comment)
    starts at offset [off] of [file] and extends to the end of the file. *)
Definition eocd_at (file : bytes) (off cdSize cdOff : Z) (rec : bytes) : Prop :=
  exists pre mid comment,
    file = pre ++ rec /\ zlen pre = off /\
    rec = le32 0x06054b50 ++ mid ++ le32 cdSize ++ le32 cdOff ++ le_enc 2 (zlen comment) ++ comment /\
    zlen mid = 8 /\ zlen comment <= 65535 /\ is_uint32 cdSize /\ is_uint32 cdOff.

(** A usable record: the central directory ends exactly where the record starts. *)
Definition good_eocd (file : bytes) (off cdSize cdOff : Z) (rec : bytes) : Prop :=
  eocd_at file off cdSize cdOff rec /\ cdOff < off /\ cdOff + cdSize = off.

(** The record closest to the end of the file (shortest comment) is the one that counts. *)
Definition last_eocd (file : bytes) (off : Z) : Prop :=
  forall off' s c r, eocd_at file off' s c r -> off' <= off.

(** A ZIP64 end-of-central-directory locator stands right before the record (such files are refused). *)
Definition zip64_locator (file : bytes) (off : Z) : Prop :=
  exists pre post, file = pre ++ le32 0x07064b50 ++ post /\ zlen pre = off - 20.

(** ASCII "APK Sig Block 42" *)
Definition apk_sig_block_magic : bytes :=
  map z2b [0x41;0x50;0x4b;0x20;0x53;0x69;0x67;0x20;0x42;0x6c;0x6f;0x63;0x6b;0x20;0x34;0x32].

(** APK Signing Block holding [pairs]: size, pairs, size, magic; the size counts everything after the
    first size field. *)
Definition signing_block (pairs : bytes) : bytes :=
  le64 (zlen pairs + 24) ++ pairs ++ le64 (zlen pairs + 24) ++ apk_sig_block_magic.

(** [block_before file cdOff off pairs]: the signing block with [pairs] occupies [off, cdOff). *)
Definition block_before (file : bytes) (cdOff off : Z) (pairs : bytes) : Prop :=
  exists pre post,
    file = pre ++ signing_block pairs ++ post /\ zlen pre = off /\
    off + zlen (signing_block pairs) = cdOff /\ zlen pairs + 24 <= 2147483647 - 8.

(** One (id, payload) entry of the signing block. *)
Definition enc_entry (e : Z * bytes) : bytes := le64 (4 + zlen (snd e)) ++ le32 (fst e) ++ snd e.
Definition enc_entries (es : list (Z * bytes)) : bytes := flat_map enc_entry es.
Definition entry_fits (e : Z * bytes) : Prop := is_uint32 (fst e) /\ 4 + zlen (snd e) <= 2147483647.
