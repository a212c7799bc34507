(** What an honest signing tool (apksigner) writes. *)
From Verif.Model Require Import Bytes Env.
From Verif.Spec Require Import Encoding Algorithms Digests Signer.

(** One signer: encoded certificates (and what they parse to), public key, for each algorithm used the
    digest and the signature, and the additional attributes. *)
Record honest : Type := mkHonest {
  h_certs : list bytes; h_chain : list cert;
  h_pk : bytes; h_key : pubkey;
  h_sigs : list (Z * bytes * bytes);       (* algorithm, digest, signature *)
  h_attrs : list (Z * bytes)
}.
Definition h_digest_field (h : honest) : bytes := lps (map (fun s => enc_rec (fst (fst s), lp (snd (fst s)))) (h_sigs h)).
Definition h_signature_field (h : honest) : bytes := lps (map (fun s => enc_rec (fst (fst s), lp (snd s))) (h_sigs h)).
Definition h_attr_field (h : honest) : bytes := lps (map enc_rec (h_attrs h)).

(** v2 *)
Definition h_data2 (h : honest) : bytes := lp (h_digest_field h) ++ lp (lps (h_certs h)) ++ lp (h_attr_field h).
Definition h_signer2 (h : honest) : bytes := lp (h_data2 h) ++ lp (h_signature_field h) ++ lp (h_pk h).
(** v3, for SDK levels [lo..hi] *)
Definition h_data3 (h : honest) (lo hi : Z) : bytes := lp (h_digest_field h) ++ lp (lps (h_certs h)) ++ le32 lo ++ le32 hi ++ lp (h_attr_field h).
Definition h_signer3 (h : honest) (lo hi : Z) : bytes := lp (h_data3 h lo hi) ++ le32 lo ++ le32 hi ++ lp (h_signature_field h) ++ lp (h_pk h).

(** The signer did its work on [data] and on the contents. *)
Definition honest_over (E : env) (sections : list bytes) (data : bytes) (h : honest) : Prop :=
  Forall2 (fun e c => e_cert_andr E e = Some c) (h_certs h) (h_chain h) /\
  (exists main others, h_chain h = main :: others /\ c_spki main = h_pk h) /\
  e_pkix_andr E (h_pk h) = Some (h_key h) /\
  h_sigs h <> [] /\
  (forall a d s, In (a, d, s) (h_sigs h) ->
     sig_valid E (h_key h) a data s /\ exists k, has_kind a k /\ content_digest E k sections d) /\
  Forall (fun a => is_uint32 (fst a)) (h_attrs h).
