(** EnvelopedData documents and what it means to open them (C89-C91). *)
From Verif.Model Require Import Bytes Env Asn1 Pkcs7 X509 Pkcs7Verify Pkcs7Sign Pkcs7Envelope.
From Verif.Spec Require Import Ber Asn1 Asn1Value Pkcs7.

(** The content encryption algorithms in CBC mode, and AES with GCM *)
Definition cbc_algorithms : list (oid * blockCipher) := [
  ([1; 3; 14; 3; 2; 7], Des);
  ([1; 2; 840; 113549; 3; 7], TripleDes);
  ([2; 16; 840; 1; 101; 3; 4; 1; 42], Aes);
  ([2; 16; 840; 1; 101; 3; 4; 1; 2], Aes)].
Definition gcm_algorithm : oid := [2; 16; 840; 1; 101; 3; 4; 1; 6].
Definition block_length (c : blockCipher) : Z := match c with Des => 8 | TripleDes => 8 | Aes => 16 end.
Definition key_lengths (c : blockCipher) : list Z := match c with Des => [8] | TripleDes => [24] | Aes => [16; 24; 32] end.

(** RFC 2315, 10.3: the text ends with n octets of value n, and is a number of whole blocks. *)
Definition padding (n : Z) : bytes := repeat (z2b n) (Z.to_nat n).
Definition padded (block : Z) (pt text : bytes) : Prop := exists n, 1 <= n <= block /\ text = pt ++ padding n /\ zlen text mod block = 0.
(** What the code removes: the last octet says how many; 0 and more than a block are possible. *)
Definition loosely_padded (block : Z) (pt text : bytes) : Prop :=
  exists n, 0 <= n < 256 /\ text = pt ++ padding n /\ zlen text mod block = 0 /\ exists start, text = start ++ [z2b n].

(** The GCM parameters: an element with nonce [4] and tag length, as they are read *)
Definition gcm_params (params nonce : bytes) (icv : Z) : Prop :=
  exists f rest c n i more, params = f ++ rest /\ element 0 16 true c f /\ c = n ++ i ++ more /\ element 2 4 false nonce n /\
    exists octets, element 0 2 false octets i /\ integer_octets octets icv.
(** This key opens a content with this algorithm and these parameters; [pad_rule] says how the text is padded. *)
Inductive opens (pad_rule : Z -> bytes -> bytes -> Prop) (C : ciphers) (alg : oid) (params ct key pt : bytes) : Prop :=
| by_cbc c : In (alg, c) cbc_algorithms -> In (zlen key) (key_lengths c) -> zlen params = block_length c -> zlen ct mod block_length c = 0 ->
    pad_rule (block_length c) pt (ci_cbc_decrypt C c key params ct) -> opens pad_rule C alg params ct key pt
| by_gcm nonce : alg = gcm_algorithm -> In (zlen key) (key_lengths Aes) -> gcm_params params nonce 16 -> zlen nonce = 12 ->
    ci_gcm_open C key nonce ct = Some pt -> opens pad_rule C alg params ct key pt.
(** CBC decryption gives as many bytes as it gets. *)
Definition same_length (C : ciphers) : Prop := forall c key iv ct, zlen (ci_cbc_decrypt C c key iv ct) = zlen ct.

(** *** Documents *)
Record recipient_doc : Set := { rd_version : Z; rd_issuer : bytes; rd_serial : Z; rd_alg : oid * option bytes; rd_key : bytes }.
Definition recipient_der (d : recipient_doc) (f : bytes) : Prop :=
  exists ver serial ias alg key,
    - 2 ^ 63 <= rd_version d < 2 ^ 63 /\ integer_element (rd_version d) ver /\ integer_element (rd_serial d) serial /\ is_element (rd_issuer d) /\
    seq_der [rd_issuer d; serial] ias /\ algorithm_der (rd_alg d) alg /\ der_element 0 4 false (rd_key d) key /\ seq_der [ver; ias; alg; key] f.
(** The encrypted content: one octet string under the tag [0], or several in it, or none *)
Inductive sealed : Set := Whole (b : bytes) | Parts (l : list bytes) | NoContent.
Definition sealed_der (s : sealed) (f : bytes) : Prop :=
  match s with
  | Whole b => der_element 2 0 false b f
  | Parts l => exists fs, Forall2 (der_element 0 4 false) l fs /\ der_element 2 0 true (concat fs) f
  | NoContent => f = []
  end.
Definition sealed_bytes (s : sealed) : bytes := match s with Whole b => b | Parts l => concat l | NoContent => [] end.
Record envelope_doc : Set := { ed_version : Z; ed_recipients : list recipient_doc; ed_type : oid; ed_alg : oid * option bytes; ed_sealed : sealed }.
Definition envelope_der (d : envelope_doc) (f : bytes) : Prop :=
  exists ver recipients rset ctype alg content eci inner ed_oid explicit,
    - 2 ^ 63 <= ed_version d < 2 ^ 63 /\ integer_element (ed_version d) ver /\ Forall2 recipient_der (ed_recipients d) recipients /\ set_der recipients rset /\
    oid_element (ed_type d) ctype /\ algorithm_der (ed_alg d) alg /\ sealed_der (ed_sealed d) content /\ seq_der [ctype; alg; content] eci /\
    seq_der [ver; rset; eci] inner /\ oid_element [1; 2; 840; 113549; 1; 7; 3] ed_oid /\ der_element 2 0 true inner explicit /\ seq_der [ed_oid; explicit] f.
Definition envelope_oids (d : envelope_doc) : list oid := ed_type d :: fst (ed_alg d) :: map (fun r => fst (rd_alg r)) (ed_recipients d).
(** The contents of the parameters element *)
Definition params_content (x : option bytes) (b : bytes) : Prop :=
  match x with None => b = [] | Some f => exists class tag k, element class tag k b f end.
(** The first recipient with this certificate *)
Definition first_recipient (c : scert) (l : list recipient_doc) (r : recipient_doc) : Prop :=
  exists l1 l2, l = l1 ++ r :: l2 /\ rd_issuer r = sc_issuer c /\ rd_serial r = sc_serial c /\
    forall x, In x l1 -> ~ (rd_issuer x = sc_issuer c /\ rd_serial x = sc_serial c).
(** This certificate's key decrypts the document: it opens the encrypted key of the (first) recipient with the certificate's
    issuer and serial number, and that key opens the content. *)
Definition decrypts (pad_rule : Z -> bytes -> bytes -> Prop) (C : ciphers) (d : envelope_doc) (c : scert) (key pt : bytes) : Prop :=
  exists r content_key params, first_recipient c (ed_recipients d) r /\ ci_rsa_decrypt C key (rd_key r) = Some content_key /\
    params_content (snd (ed_alg d)) params /\ opens pad_rule C (fst (ed_alg d)) params (sealed_bytes (ed_sealed d)) content_key pt.
(** When Decrypt panics: the private key is not an RSA key, the content is not a number of whole blocks, or the last octet of the
    text counts more octets than there are. *)
Definition decrypt_panics (C : ciphers) (d : envelope_doc) (c : scert) (key : dkey) : Prop :=
  exists r, first_recipient c (ed_recipients d) r /\
    (key = DOther \/
     exists k content_key params ci, key = DRsa k /\ ci_rsa_decrypt C k (rd_key r) = Some content_key /\ params_content (snd (ed_alg d)) params /\
       In (fst (ed_alg d), ci) cbc_algorithms /\ In (zlen content_key) (key_lengths ci) /\ zlen params = block_length ci /\
       (zlen (sealed_bytes (ed_sealed d)) mod block_length ci <> 0 \/
        exists text, text = ci_cbc_decrypt C ci content_key params (sealed_bytes (ed_sealed d)) /\ text <> [] /\ zlen text mod block_length ci = 0 /\ zlen text < b2z (last text x00))).

(** *** Encrypt *)
(** What rand.Read gives has the length that is asked for. *)
Definition sizes_fit (alg : contentAlg) (key iv : bytes) : Prop :=
  match alg with DesCbc => zlen key = 8 /\ zlen iv = 8 | Aes128Gcm => zlen key = 16 /\ zlen iv = 12 | OtherAlg => False end.
(** Decryption inverts encryption. *)
Definition ciphers_invert (C : ciphers) : Prop :=
  (forall c key iv text, zlen text mod block_length c = 0 -> ci_cbc_decrypt C c key iv (ci_cbc_encrypt C c key iv text) = text) /\
  (forall c key iv text, zlen text mod block_length c = 0 -> zlen (ci_cbc_encrypt C c key iv text) = zlen text) /\
  (forall key nonce text, ci_gcm_open C key nonce (ci_gcm_seal C key nonce text) = Some text).
(** The private key opens what was encrypted for this certificate. *)
Definition key_of (C : ciphers) (rsaEncrypt : nat -> scert -> bytes -> option bytes) (c : scert) (private : bytes) : Prop :=
  forall n m ek, rsaEncrypt n c m = Some ek -> ci_rsa_decrypt C private ek = Some m.
