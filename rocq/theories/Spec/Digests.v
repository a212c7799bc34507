(** Content digests of APK Signature Scheme v2/v3
    (https://source.android.com/security/apksigning/v2#integrity-protected-contents), declaratively. *)
From Verif.Model Require Import Bytes Env.
From Verif.Spec Require Import Encoding Algorithms ApkLayout.

(** A (not ZIP64) APK with a signing block: contents, block holding [pairs], central directory, EOCD record. *)
Definition apk (file before pairs cd rec : bytes) : Prop :=
  file = before ++ signing_block pairs ++ cd ++ rec /\
  zlen pairs + 24 <= 2147483647 - 8 /\ cd <> [] /\
  eocd_at file (zlen (before ++ signing_block pairs ++ cd)) (zlen cd) (zlen (before ++ signing_block pairs)) rec /\
  last_eocd file (zlen (before ++ signing_block pairs ++ cd)) /\
  ~ zip64_locator file (zlen (before ++ signing_block pairs ++ cd)).

(** The EOCD record with its central-directory-offset field replaced. *)
Definition patched (rec : bytes) (off : Z) (rec' : bytes) : Prop :=
  exists a old b, rec = a ++ old ++ b /\ zlen a = 16 /\ zlen old = 4 /\ rec' = a ++ le32 off ++ b.

(** The protected sections, in order. *)
Definition protected (before cd rec : bytes) (sections : list bytes) : Prop :=
  exists rec', patched rec (zlen before) rec' /\ sections = [before; cd; rec'].

(** Consecutive pieces of 1 MiB, the last one possibly shorter but not empty. *)
Inductive chunked : bytes -> list bytes -> Prop :=
| chunked_nil : chunked [] []
| chunked_last c : 0 < zlen c <= 1048576 -> chunked c [c]
| chunked_cons c rest cs : zlen c = 1048576 -> rest <> [] -> chunked rest cs -> chunked (c ++ rest) (c :: cs).

Section Hash.
  Variable H : bytes -> bytes.

  Definition chunk_hash (c : bytes) : bytes := H (xa5 :: le32 (zlen c) ++ c).
  Definition top_hash (cs : list bytes) : bytes := H (x5a :: le32 (zlen cs) ++ concat (map chunk_hash cs)).
  Definition chunked_digest (sections : list bytes) (d : bytes) : Prop :=
    exists css, Forall2 chunked sections css /\ d = top_hash (concat css).

  (** One level of the verity tree: the hashes of the 4096-byte blocks of [c] (zero padded), zero padded. *)
  Definition verity_level (c l : bytes) : Prop :=
    exists p blocks q, 0 <= p < 4096 /\ c ++ zeros p = concat blocks /\ Forall (fun b => zlen b = 4096) blocks /\
      0 <= q < 4096 /\ l = concat (map (fun b => H (zeros 8 ++ b)) blocks) ++ zeros q /\ zlen l mod 4096 = 0.
  Inductive verity_root : bytes -> bytes -> Prop :=
  | vroot_top c l : verity_level c l -> zlen l = 4096 -> verity_root c (H (zeros 8 ++ l))
  | vroot_up c l d : verity_level c l -> 4096 < zlen l -> verity_root l d -> verity_root c d.
  Definition verity_digest (sections : list bytes) (d : bytes) : Prop :=
    exists root, verity_root (concat sections) root /\ d = root ++ le64 (zlen (concat sections)).

  (** The messages that are hashed on the way: chunks and the top message; blocks of all levels and the top level. *)
  Definition chunked_message (sections : list bytes) (m : bytes) : Prop :=
    exists css, Forall2 chunked sections css /\
      (m = x5a :: le32 (zlen (concat css)) ++ concat (map chunk_hash (concat css)) \/
       exists c, In c (concat css) /\ m = xa5 :: le32 (zlen c) ++ c).
  Inductive verity_message : bytes -> bytes -> Prop :=
  | vmsg_block c p blocks b : 0 <= p < 4096 -> c ++ zeros p = concat blocks -> Forall (fun b => zlen b = 4096) blocks ->
      In b blocks -> verity_message c (zeros 8 ++ b)
  | vmsg_top c l : verity_level c l -> zlen l = 4096 -> verity_message c (zeros 8 ++ l)
  | vmsg_up c l m : verity_level c l -> 4096 < zlen l -> verity_message l m -> verity_message c m.
End Hash.

(** The digest of each kind. *)
Definition content_digest (E : env) (k : digest_kind) (sections : list bytes) (d : bytes) : Prop :=
  match k with
  | ChunkedSha256 => chunked_digest (e_hash E HSha256) sections d
  | ChunkedSha512 => chunked_digest (e_hash E HSha512) sections d
  | VeritySha256 => zlen (hd [] sections) mod 4096 = 0 /\ verity_digest (e_hash E HSha256) sections d
  end.

(** The messages hashed to compute it, with the hash function. *)
Definition digest_message (E : env) (k : digest_kind) (sections : list bytes) (h : hash_id) (m : bytes) : Prop :=
  match k with
  | ChunkedSha256 => h = HSha256 /\ chunked_message (e_hash E h) sections m
  | ChunkedSha512 => h = HSha512 /\ chunked_message (e_hash E h) sections m
  | VeritySha256 => h = HSha256 /\ verity_message (e_hash E h) (concat sections) m
  end.

(** Hash functions have fixed output sizes. *)
Definition digest_octets (h : hash_id) : Z :=
  match h with HMd5 => 16 | HSha1 => 20 | HSha224 => 28 | HSha256 => 32 | HSha384 => 48 | HSha512 => 64 end.
Definition hash_sizes_ok (E : env) : Prop := forall h m, zlen (e_hash E h m) = digest_octets h.
