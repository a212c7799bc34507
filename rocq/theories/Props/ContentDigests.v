(** C05 - C08: content digests and data sources. *)
From Coq Require Import Permutation.
From Verif.Model Require Import Bytes Env SigBlock DataSource Result Digest.
From Verif.Spec Require Import Encoding Algorithms ApkLayout Sources Digests.
From Verif.Proofs Require Import DataSourceFacts IntegrityFacts.
From Verif.Examples Require Import Toy.

(** C08: every data source the code builds reads exactly the requested range of its contents, and
    refuses ranges beyond its end. *)
Theorem C08_source_reads : forall d content, source_of d content ->
  ds_length d = zlen content /\
  (forall pre out post, content = pre ++ out ++ post -> out <> [] -> ds_write d (zlen pre) (zlen out) = Some out) /\
  (forall off n, 0 <= off -> 0 <= n -> zlen content < off + n -> ds_write d off n = None).
Proof. exact source_reads. Qed.
Print Assumptions C08_source_reads.

Example C08_nonvacuous :
  source_of (dataSourceChained [dataSourceBytes toy_cd; dataSourceChained [dataSourceBytes toy_before; dataSourceBytes []]])
            (concat [toy_cd; concat [toy_before; []]]).
Proof. repeat constructor. Qed.

(** C05: the chunked digests, for any number of sections and any hash functions with fixed output size;
    refused only from 2097151 chunks (2 TiB). *)
Theorem C05_chunked_digest : forall E, hash_sizes_ok E -> forall ks dss sections css, NoDup ks -> ~ In VeritySha256 ks ->
  sources_of dss sections -> Forall2 chunked sections css ->
  (zlen (concat css) < 2097151 ->
   exists m, computeOneMbChunkContentDigests E (map kind_id ks) dss = Ret (Some m) /\
     forall k, In k ks -> exists d, zget (kind_id k) m = Some d /\ content_digest E k sections d) /\
  (2097151 <= zlen (concat css) -> computeOneMbChunkContentDigests E (map kind_id ks) dss = Ret None).
Proof. exact computeOneMb_sources. Qed.
Print Assumptions C05_chunked_digest.

(** Every byte string has such chunks. *)
Theorem C05_chunks_exist : forall content, exists cs, chunked content cs.
Proof. exact DigestFacts.chunked_exists. Qed.
Print Assumptions C05_chunks_exist.

(** C05/C07 for a whole APK: the check of a map of expected digests adds no error exactly when each of
    them is the digest of the three protected sections, whatever the order in which the map is visited. *)
Theorem C05_integrity_iff : forall E, hash_sizes_ok E -> forall file before pairs cd rec sections keys expected r,
  apk file before pairs cd rec -> protected before cd rec sections ->
  NoDup (map fst expected) -> Permutation keys (map fst expected) -> expected <> [] ->
  (forall a d, zget a expected = Some d -> exists k, a = kind_id k) ->
  exists e good,
    verifyIntegrity E file {| ei_eocdOffset := zlen (before ++ signing_block pairs ++ cd);
          ei_centralDirOffset := zlen (before ++ signing_block pairs);
          ei_centralDirSize := zlen cd; ei_eocd := rec |} (zlen before) keys expected r
      = Ret (mkCore (certs r) (signingLineage r) (warnings r) (errors r ++ e), good) /\
    (good = false -> e <> []) /\
    (e = [] <-> forall k d, zget (kind_id k) expected = Some d -> content_digest E k sections d).
Proof. exact verifyIntegrity_spec. Qed.
Print Assumptions C05_integrity_iff.

(** C07: the verity digest. *)
Theorem C07_verity_digest : forall E, hash_sizes_ok E -> forall dss sections, sources_of dss sections -> sections <> [] ->
  0 < zlen (concat sections) < 34359738368 ->
  (zlen (hd [] sections) mod 4096 = 0 ->
    exists d, computeVerityContentDigest E dss = Ret (Some d) /\ verity_digest (e_hash E HSha256) sections d) /\
  (zlen (hd [] sections) mod 4096 <> 0 -> computeVerityContentDigest E dss = Ret None).
Proof. exact computeVerity_sources. Qed.
Print Assumptions C07_verity_digest.

(** C06: equal digests mean equal protected bytes, or a collision of the hash function between two of
    the messages hashed to compute them. *)
Theorem C06_digest_commits : forall E, hash_sizes_ok E -> forall k sections sections' d,
  zlen (concat sections) < 18446744073709551616 -> zlen (concat sections') < 18446744073709551616 ->
  content_digest E k sections d -> content_digest E k sections' d ->
  concat sections = concat sections' \/
  exists h m m', digest_message E k sections h m /\ digest_message E k sections' h m' /\ m <> m' /\ e_hash E h m = e_hash E h m'.
Proof. exact content_digest_inj. Qed.
Print Assumptions C06_digest_commits.

(** The digest is determined by the protected bytes. *)
Theorem C06_digest_function : forall E k sections d d', hash_sizes_ok E ->
  content_digest E k sections d -> content_digest E k sections d' -> d = d'.
Proof. exact CollisionFacts.content_digest_fun. Qed.
Print Assumptions C06_digest_function.

Example C05_nonvacuous : exists m,
  computeContentDigests toy_env (map kind_id [ChunkedSha256; ChunkedSha512])
    [dataSourceBytes toy_before; dataSourceBytes toy_cd; dataSourceBytes []] = Ret (Some m) /\
  zlen (match zget 2 m with Some d => d | None => [] end) = 64.
Proof. eexists. split; vm_compute; reflexivity. Qed.

Example C07_nonvacuous : exists d,
  computeVerityContentDigest toy_env [dataSourceBytes (zeros 8192); dataSourceBytes toy_cd; dataSourceBytes toy_before] = Ret (Some d) /\ zlen d = 40.
Proof. eexists. split; vm_compute; reflexivity. Qed.
