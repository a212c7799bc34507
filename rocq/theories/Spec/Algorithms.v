(** The signature algorithms of APK Signature Scheme v2/v3
    (https://source.android.com/security/apksigning/v2#signature-algorithm-ids). *)
From Verif.Model Require Import Bytes Env.

Inductive digest_kind : Set := ChunkedSha256 | ChunkedSha512 | VeritySha256.

(** Numbers used by the code for the content digest kinds. *)
Definition kind_id (k : digest_kind) : Z :=
  match k with ChunkedSha256 => 1 | ChunkedSha512 => 2 | VeritySha256 => 3 end.

(** SHA-512 > verity SHA-256 > SHA-256 *)
Definition strength (k : digest_kind) : Z :=
  match k with ChunkedSha256 => 0 | VeritySha256 => 1 | ChunkedSha512 => 2 end.

(** id, content digest, lowest platform whose JCA implements it *)
Definition algorithm_table : list (Z * digest_kind * Z) :=
  [ (0x0101, ChunkedSha256, 23);   (* RSASSA-PSS, SHA2-256, 32 bytes of salt *)
    (0x0102, ChunkedSha512, 23);   (* RSASSA-PSS, SHA2-512, 64 bytes of salt *)
    (0x0103, ChunkedSha256, 1);    (* RSASSA-PKCS1-v1_5, SHA2-256 *)
    (0x0104, ChunkedSha512, 1);    (* RSASSA-PKCS1-v1_5, SHA2-512 *)
    (0x0201, ChunkedSha256, 11);   (* ECDSA, SHA2-256 *)
    (0x0202, ChunkedSha512, 11);   (* ECDSA, SHA2-512 *)
    (0x0301, ChunkedSha256, 1);    (* DSA, SHA2-256 *)
    (0x0421, VeritySha256, 1);     (* RSASSA-PKCS1-v1_5, verity SHA2-256 *)
    (0x0423, VeritySha256, 11);    (* ECDSA, verity *)
    (0x0425, VeritySha256, 1) ].   (* DSA, verity *)

Definition supported (a : Z) : Prop := exists k m, In (a, k, m) algorithm_table.
Definition has_kind (a : Z) (k : digest_kind) : Prop := exists m, In (a, k, m) algorithm_table.

(** [sig_valid E key algo data sig]: [sig] is a signature of [data] under [key] for algorithm [algo],
    in terms of the cryptographic primitives only. *)
Inductive sig_valid (E : env) : pubkey -> Z -> bytes -> bytes -> Prop :=
| sv_pss256 k n m s : e_rsa_pss E k HSha256 32 (e_hash E HSha256 m) s = true -> sig_valid E (KRsa k n) 0x0101 m s
| sv_pss512 k n m s : e_rsa_pss E k HSha512 64 (e_hash E HSha512 m) s = true -> sig_valid E (KRsa k n) 0x0102 m s
| sv_rsa256 k n m s : e_rsa_pkcs1 E k HSha256 (e_hash E HSha256 m) s = true -> sig_valid E (KRsa k n) 0x0103 m s
| sv_rsa512 k n m s : e_rsa_pkcs1 E k HSha512 (e_hash E HSha512 m) s = true -> sig_valid E (KRsa k n) 0x0104 m s
| sv_ec256 k m s r t l : e_asn1_ints E s = Some (r :: t :: l) -> e_ecdsa E k (e_hash E HSha256 m) r t = true ->
                         sig_valid E (KEcdsa k) 0x0201 m s
| sv_ec512 k m s r t l : e_asn1_ints E s = Some (r :: t :: l) -> e_ecdsa E k (e_hash E HSha512 m) r t = true ->
                         sig_valid E (KEcdsa k) 0x0202 m s
| sv_dsa k q m s r t l : e_asn1_ints E s = Some (r :: t :: l) ->
                         q / 8 <= zlen (e_hash E HSha256 m) ->
                         e_dsa E k (takeZ (q / 8) (e_hash E HSha256 m)) r t = true ->
                         sig_valid E (KDsa k q) 0x0301 m s
| sv_vrsa k n m s : e_rsa_pkcs1 E k HSha256 (e_hash E HSha256 m) s = true -> sig_valid E (KRsa k n) 0x0421 m s
| sv_vec k m s r t l : e_asn1_ints E s = Some (r :: t :: l) -> e_ecdsa E k (e_hash E HSha256 m) r t = true ->
                       sig_valid E (KEcdsa k) 0x0423 m s
| sv_vdsa k q m s r t l : e_asn1_ints E s = Some (r :: t :: l) ->
                          q / 8 <= zlen (e_hash E HSha256 m) ->
                          e_dsa E k (takeZ (q / 8) (e_hash E HSha256 m)) r t = true ->
                          sig_valid E (KDsa k q) 0x0425 m s.

(** Choice of the signature to verify among (algorithm, signature field) records: supported, at least
    as strong as every supported record, and the first one of that strength. *)
Definition strongest (records : list (Z * bytes)) (algo : Z) (field : bytes) : Prop :=
  exists before after k,
    records = before ++ (algo, field) :: after /\
    has_kind algo k /\
    (forall a f k', In (a, f) before -> has_kind a k' -> strength k' < strength k) /\
    (forall a f k', In (a, f) after -> has_kind a k' -> strength k' <= strength k).
