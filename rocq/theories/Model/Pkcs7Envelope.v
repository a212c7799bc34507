(** /repo/fullsailor/pkcs7/pkcs7.go:362-526, 793-991: enveloped data - Decrypt, Encrypt, padding. *)
From Verif.Model Require Import Bytes Env Asn1 Pkcs7 X509 Pkcs7Verify Pkcs7Sign.

(** The block ciphers: crypto/des (DES, Triple DES), crypto/aes *)
Inductive blockCipher : Set := Des | TripleDes | Aes.
(** cipher.Block.BlockSize *)
Definition blockSize (c : blockCipher) : Z := match c with Des | TripleDes => 8 | Aes => 16 end.
(** des.NewCipher, des.NewTripleDESCipher, aes.NewCipher: an error for keys of another length *)
Definition keyFits (c : blockCipher) (key : bytes) : bool :=
  match c with
  | Des => zlen key =? 8
  | TripleDes => zlen key =? 24
  | Aes => (zlen key =? 16) || (zlen key =? 24) || (zlen key =? 32)
  end.
(** The cryptography, as functions: rsa.DecryptPKCS1v15, CBC mode on whole blocks, AES-GCM (12 bytes of nonce, 16 of tag, no
    additional data) *)
Record ciphers : Set := {
  ci_rsa_decrypt : bytes -> bytes -> option bytes;                          (* private key, message *)
  ci_cbc_encrypt : blockCipher -> bytes -> bytes -> bytes -> bytes;         (* key, iv, blocks *)
  ci_cbc_decrypt : blockCipher -> bytes -> bytes -> bytes -> bytes;
  ci_gcm_seal : bytes -> bytes -> bytes -> bytes;                           (* key, nonce, message *)
  ci_gcm_open : bytes -> bytes -> bytes -> option bytes
}.

(** pkcs7.go:494-504 pad; [padlen] is never 0 *)
Definition pad (data : bytes) (blocklen : Z) : option bytes :=
  if blocklen <? 1 then None
  else let padlen := blocklen - zlen data mod blocklen in
       Some (data ++ repeat (z2b padlen) (Z.to_nat padlen)).
(** pkcs7.go:506-526 unpad *)
Definition unpad (data : bytes) (blocklen : Z) : outcome (option bytes) :=
  if blocklen <? 1 then Ret None
  else if negb (zlen data mod blocklen =? 0) || (zlen data =? 0) then Ret None
  else
    let padlen := b2z (last data x00) in
    if zlen data <? padlen then Panic PSlice
    else if forallb (fun b => b2z b =? padlen) (dropZ (zlen data - padlen) data) then Ret (Some (takeZ (zlen data - padlen) data))
    else Ret None.

(** pkcs7.go:383-387; the content encryption algorithms that are known.  *)
Definition oidDesCbc : oid := [1; 3; 14; 3; 2; 7].
Definition oidDesEde3Cbc : oid := [1; 2; 840; 113549; 3; 7].
Definition oidAes256Cbc : oid := [2; 16; 840; 1; 101; 3; 4; 1; 42].
Definition oidAes128Gcm : oid := [2; 16; 840; 1; 101; 3; 4; 1; 6].
Definition oidAes128Cbc : oid := [2; 16; 840; 1; 101; 3; 4; 1; 2].
(** pkcs7.go:391-398, 424-433: the switch over the algorithm.  The second component: CBC mode? *)
Definition contentCipher (o : oid) : option (blockCipher * bool) :=
  if oidEqual o oidDesCbc then Some (Des, true)
  else if oidEqual o oidDesEde3Cbc then Some (TripleDes, true)
  else if oidEqual o oidAes256Cbc then Some (Aes, true)
  else if oidEqual o oidAes128Gcm then Some (Aes, false)
  else if oidEqual o oidAes128Cbc then Some (Aes, true)
  else None.
(** pkcs7.go:809-812 aesGCMParameters *)
Definition pTag (t : Z) : fparams := {| fp_optional := false; fp_explicit := false; fp_application := false; fp_private := false;
  fp_default := None; fp_tag := Some t; fp_stringType := 0; fp_set := false; fp_omitEmpty := false |}.
Definition tyGcmParams : gotype := TyStruct false (FCons (pTag 4) TyBytes (FCons noParams TyInt FNil)).

(** A private key: *rsa.PrivateKey, a nil one, or something else *)
Inductive dkey : Set := DRsa (k : bytes) | DNil | DOther.

Section WithEnv.
  Variable X : textenv.
  Variable C : ciphers.

  (** pkcs7.go:402-415: the OCTET STRINGs in a constructed content, up to the first thing that is not one.  Unmarshal returns
      nil only with an error. *)
  Fixpoint octetParts (fuel : nat) (b : bytes) : bytes :=
    match fuel with
    | O => []
    | Datatypes.S f => match unmarshal X TyBytes b with
                       | (v, Some rest) => asBytes v ++ octetParts f rest
                       | (_, None) => []
                       end
    end.
  Definition cyphertext (e : envelope) : bytes :=
    if en_compound e then octetParts (List.length (en_content e)) (en_content e) else en_content e.
  (** pkcs7.go:389-479 encryptedContentInfo.decrypt; Ret None = error *)
  Definition decryptContent (e : envelope) (key : bytes) : outcome (option bytes) :=
    match contentCipher (en_alg e) with
    | None => Ret None
    | Some (c, cbc) =>
        if negb (keyFits c key) then Ret None
        else if cbc then
          if negb (zlen (en_params e) =? blockSize c) then Ret None
          else if negb (zlen (cyphertext e) mod blockSize c =? 0) then Panic PExplicit   (* CryptBlocks: "input not full blocks" *)
          else unpad (ci_cbc_decrypt C c key (en_params e) (cyphertext e)) (blockSize c)
        else
          match unmarshal X tyGcmParams (en_params e) with
          | (_, None) => Ret None
          | (v, Some _) =>
              if negb (zlen (asBytes (field 0 v)) =? 12) then Ret None
              else if negb (asInt (field 1 v) =? 16) then Ret None
              else Ret (ci_gcm_open C key (asBytes (field 0 v)) (cyphertext e))
          end
    end.
  (** pkcs7.go:481-492 selectRecipientForCertificate: None if there is none.  The EncryptedKey of a parsed recipient is never
      nil. *)
  Definition selectRecipient (l : list recipient) (c : scert) : option recipient :=
    find (fun r => (sc_serial c =? rc_serial r) && bytes_eqb (sc_issuer c) (rc_issuer r)) l.
  (** pkcs7.go:362-381 Decrypt *)
  Definition p7Decrypt (p : pkcs7obj) (c : scert) (key : dkey) : outcome (option bytes) :=
    match po_envelope p with
    | None => Ret None
    | Some e =>
        match selectRecipient (en_recipients e) c with
        | None => Ret None
        | Some r =>
            match key with
            | DOther => Panic PTypeAssertion
            | DNil => Ret None
            | DRsa k => match ci_rsa_decrypt C k (rc_key r) with
                        | None => Ret None
                        | Some contentKey => decryptContent e contentKey
                        end
            end
        end
    end.

  (** *** Encrypt *)
  (** A recipient's certificate: its public key is an RSA key, or something else *)
  Record target : Set := { t_cert : scert; t_rsa : bool }.
  (** rsa.EncryptPKCS1v15 of the key for the recipient with this number; it is randomised *)
  Variable rsaEncrypt : nat -> scert -> bytes -> option bytes.
  (** ContentEncryptionAlgorithm, and what rand.Read gives: key, iv or nonce *)
  Inductive contentAlg : Set := DesCbc | Aes128Gcm | OtherAlg.

  (** pkcs7.go:981-984 marshalEncryptedContent *)
  Definition marshalEncryptedContent (b : bytes) : goval :=
    VRaw 2 0 true (match stdMarshal X TyBytes (VBytes b) with Some x => x | None => [] end) [].
  Definition contentVal (alg : oid) (params : goval) (content : bytes) : goval :=
    VStruct [] [VOid oidData; VStruct [] [VOid alg; params]; marshalEncryptedContent content].
  (** pkcs7.go:814-865 encryptAES128GCM *)
  Definition encryptGcm (key nonce content : bytes) : option goval :=
    match stdMarshal X tyGcmParams (VStruct [] [VBytes nonce; VInt 16]) with
    | None => None
    | Some params => Some (contentVal oidAes128Gcm (VRaw 0 16 false params []) (ci_gcm_seal C key nonce content))
    end.
  (** pkcs7.go:868-905 encryptDESCBC *)
  Definition encryptDes (key iv content : bytes) : option goval :=
    match pad content 8 with
    | None => None
    | Some text => Some (contentVal oidDesCbc (VRaw 0 4 false iv []) (ci_cbc_encrypt C Des key iv text))
    end.
  Definition recipientVal (c : scert) (key : bytes) : goval := VStruct [] [VInt 0; iasVal c; algVal oidEncryptionRSA; VBytes key].
  (** pkcs7.go:939-959, 986-991 the loop over the recipients, encryptKey *)
  Fixpoint recipientVals (n : nat) (key : bytes) (l : list target) : outcome (option (list goval)) :=
    match l with
    | [] => Ret (Some [])
    | t :: r =>
        if negb (t_rsa t) then Panic PTypeAssertion
        else match rsaEncrypt n (t_cert t) key with
             | None => Ret None
             | Some ek => match recipientVals (Datatypes.S n) key r with
                          | Ret (Some vs) => Ret (Some (recipientVal (t_cert t) ek :: vs))
                          | other => other
                          end
             end
    end.
  (** pkcs7.go:918-979 Encrypt *)
  Definition p7Encrypt (alg : contentAlg) (key iv content : bytes) (l : list target) : outcome (option bytes) :=
    match (match alg with DesCbc => encryptDes key iv content | Aes128Gcm => encryptGcm key iv content | OtherAlg => None end) with
    | None => Ret None
    | Some eci =>
        match recipientVals 0 key l with
        | Panic p => Panic p
        | Ret None => Ret None
        | Ret (Some vs) =>
            Ret (match stdMarshal X tyEnvelopedData (VStruct [] [VInt 0; VSlice vs; eci]) with
                 | None => None
                 | Some inner => stdMarshal X tyContentInfo (infoVal oidEnvelopedData (VRaw 2 0 true inner []))
                 end)
        end
    end.
End WithEnv.
