(** A signing block written by honest signers, down to the bytes of the certificates (C81). *)
From Verif.Model Require Import Bytes Env X509.
From Verif.Spec Require Import Encoding Algorithms Digests Signer Honest X509 HonestDer.

(** One signer: its certificate and the other certificates of the chain, each with its bytes; for each algorithm used the digest
    and the signature; the additional attributes. *)
Record apk_signer_doc : Type := {
  bd_main : cert_doc * bytes; bd_others : list (cert_doc * bytes);
  bd_sigs : list (Z * bytes * bytes); bd_attrs : list (Z * bytes)
}.
Definition bd_chain (b : apk_signer_doc) : list bytes := map snd (bd_main b :: bd_others b).
(** As written by Spec/Honest.v; the public key is the one in the certificate.  (The parsed chain plays no role in what is written.) *)
Definition bd_written (b : apk_signer_doc) (chain : list cert) : honest :=
  mkHonest (bd_chain b) chain (d_spki (fst (bd_main b))) (pubkeyOf (d_key (fst (bd_main b)))) (bd_sigs b) (bd_attrs b).
Definition bd_signer2 (b : apk_signer_doc) : bytes := h_signer2 (bd_written b []).
Definition bd_signer3 (b : apk_signer_doc) (lo hi : Z) : bytes := h_signer3 (bd_written b []) lo hi.

(** Signed with the key of the certificate, over data that contain the digests of the contents. *)
Record signer_doc_over (K : xenv) (E : env) (sections : list bytes) (data : bytes) (b : apk_signer_doc) : Prop := {
  bo_certs : Forall (good_certificate K) (bd_main b :: bd_others b);
  bo_key : d_key (fst (bd_main b)) <> GNone;
  bo_some : bd_sigs b <> [];
  bo_signed : forall a d s, In (a, d, s) (bd_sigs b) ->
    sig_valid E (pubkeyOf (d_key (fst (bd_main b)))) a data s /\ exists k, has_kind a k /\ content_digest E k sections d;
  bo_attrs : Forall (fun a => is_uint32 (fst a)) (bd_attrs b)
}.
