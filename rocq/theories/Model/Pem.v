(** internal/x509andr/pem_decrypt.go: password encryption of PEM blocks (RFC 1423).  The block ciphers (crypto/des, crypto/aes) and MD5 are
    arguments; crypto/cipher's CBC mode and encoding/hex (standard library) are modelled. *)
From Coq Require Import String.
From Verif Require Import Model.Bytes.

(** Stands for crypto/md5 and, by the number of the cipher, des.NewCipher, des.NewTripleDESCipher, aes.NewCipher (nil on error), as the pair
    of cipher.Block's Encrypt and Decrypt. *)
Record pemenv := { pe_md5 : bytes -> bytes; pe_newCipher : Z -> bytes -> option ((bytes -> bytes) * (bytes -> bytes)) }.

(** encoding/pem Block (standard library); the map Headers is an association list *)
Record pemBlock := { pb_type : bytes; pb_headers : list (bytes * bytes); pb_bytes : bytes }.

(** pem_decrypt.go:23-77 PEMCipher, rfc1423Algo, rfc1423Algos; cipherFunc is pe_newCipher at al_cipher *)
Record rfc1423Algo := mkAlgo { al_cipher : Z; al_name : bytes; al_keySize : Z; al_blockSize : Z }.
Definition rfc1423Algos : list rfc1423Algo :=
  [mkAlgo 1 (s2b "DES-CBC") 8 8; mkAlgo 2 (s2b "DES-EDE3-CBC") 24 8; mkAlgo 3 (s2b "AES-128-CBC") 16 16; mkAlgo 4 (s2b "AES-192-CBC") 24 16;
   mkAlgo 5 (s2b "AES-256-CBC") 32 16].

(** pem_decrypt.go:222-240 cipherByName, cipherByKey *)
Definition cipherByName (name : bytes) : option rfc1423Algo := find (fun a => bytes_eqb (al_name a) name) rfc1423Algos.
Definition cipherByKey (key : Z) : option rfc1423Algo := find (fun a => al_cipher a =? key) rfc1423Algos.

(** pem_decrypt.go:82-96 rfc1423Algo.deriveKey: the loop over out, whose filled part is acc (at most keySize passes when a digest is not empty) *)
Fixpoint deriveLoop (P : pemenv) (fuel : nat) (keySize : Z) (password salt digest acc : bytes) : bytes :=
  if zlen acc <? keySize then
    match fuel with
    | O => acc
    | S f => let d := pe_md5 P (digest ++ password ++ salt) in deriveLoop P f keySize password salt d (acc ++ takeZ (keySize - zlen acc) d)
    end
  else acc.
Definition deriveKey (P : pemenv) (c : rfc1423Algo) (password salt : bytes) : bytes :=
  deriveLoop P (Z.to_nat (al_keySize c)) (al_keySize c) password salt [] [].

(** pem_decrypt.go:99-102 IsEncryptedPEMBlock *)
Definition isEncryptedPEMBlock (b : pemBlock) : bool := match sget (s2b "DEK-Info") (pb_headers b) with Some _ => true | None => false end.

(** strings.Index(s, ",") with the two slices around it (standard library) *)
Fixpoint cutComma (s : bytes) : option (bytes * bytes) :=
  match s with
  | [] => None
  | x :: t => if b2z x =? 44 then Some ([], t) else match cutComma t with Some (a, b) => Some (x :: a, b) | None => None end
  end.

(** encoding/hex DecodeString (standard library) *)
Definition fromHexChar (c : byte) : option Z :=
  let z := b2z c in
  if (48 <=? z) && (z <=? 57) then Some (z - 48) else if (97 <=? z) && (z <=? 102) then Some (z - 87) else if (65 <=? z) && (z <=? 70) then Some (z - 55) else None.
Fixpoint hexDecode (s : bytes) : option bytes :=
  match s with
  | [] => Some []
  | [_] => None
  | a :: b :: t =>
      match fromHexChar a, fromHexChar b, hexDecode t with Some x, Some y, Some r => Some (z2b (16 * x + y) :: r) | _, _, _ => None end
  end.

(** crypto/cipher NewCBCEncrypter, NewCBCDecrypter, CryptBlocks (standard library), one block for each unit of fuel *)
Fixpoint xorBytes (a b : bytes) : bytes :=
  match a, b with x :: a', y :: b' => z2b (Z.lxor (b2z x) (b2z y)) :: xorBytes a' b' | _, _ => [] end.
Fixpoint cbcEncrypt (enc : bytes -> bytes) (bs : Z) (fuel : nat) (prev data : bytes) : bytes :=
  match fuel, data with
  | S f, _ :: _ => let c := enc (xorBytes (takeZ bs data) prev) in c ++ cbcEncrypt enc bs f c (dropZ bs data)
  | _, _ => []
  end.
Fixpoint cbcDecrypt (dec : bytes -> bytes) (bs : Z) (fuel : nat) (prev data : bytes) : bytes :=
  match fuel, data with
  | S f, _ :: _ => let c := takeZ bs data in xorBytes (dec c) prev ++ cbcDecrypt dec bs f c (dropZ bs data)
  | _, _ => []
  end.

(** (data, nil), (nil, IncorrectPasswordError), (nil, another error) *)
Inductive pemResult := PemData (data : bytes) | PemPassword | PemError.

(** pem_decrypt.go:114-178 DecryptPEMBlock.  The byte at dlen-1 is the head of the reversed data. *)
Definition unpad (blockSize : Z) (data : bytes) : pemResult :=
  match rev data with
  | [] => PemError
  | x :: _ =>
      if negb (zlen data mod blockSize =? 0) then PemError
      else let last := b2z x in
        if zlen data <? last then PemPassword
        else if (last =? 0) || (blockSize <? last) then PemPassword
        else if forallb (fun v => b2z v =? last) (dropZ (zlen data - last) data) then PemData (takeZ (zlen data - last) data)
        else PemPassword
  end.
Definition decryptPEMBlock (P : pemenv) (b : pemBlock) (password : bytes) : pemResult :=
  match sget (s2b "DEK-Info") (pb_headers b) with
  | None => PemError
  | Some dek =>
      match cutComma dek with
      | None => PemError
      | Some (mode, hexIV) =>
          match cipherByName mode with
          | None => PemError
          | Some ciph =>
              match hexDecode hexIV with
              | None => PemError
              | Some iv =>
                  if negb (zlen iv =? al_blockSize ciph) then PemError
                  else match pe_newCipher P (al_cipher ciph) (deriveKey P ciph password (takeZ 8 iv)) with
                       | None => PemError
                       | Some (_, dec) =>
                           if negb (zlen (pb_bytes b) mod al_blockSize ciph =? 0) then PemError
                           else unpad (al_blockSize ciph) (cbcDecrypt dec (al_blockSize ciph) (List.length (pb_bytes b)) iv (pb_bytes b))
                       end
              end
          end
      end
  end.

(** pem_decrypt.go:183-220 EncryptPEMBlock; rand is what the reader gives before it ends (io.ReadFull fails when that is too little) *)
Definition encryptPEMBlock (P : pemenv) (rand blockType data password : bytes) (alg : Z) : option pemBlock :=
  match cipherByKey alg with
  | None => None
  | Some ciph =>
      if zlen rand <? al_blockSize ciph then None
      else let iv := takeZ (al_blockSize ciph) rand in
        match pe_newCipher P (al_cipher ciph) (deriveKey P ciph password (takeZ 8 iv)) with
        | None => None
        | Some (enc, _) =>
            let pad := al_blockSize ciph - zlen data mod al_blockSize ciph in
            let encrypted := data ++ repeat (z2b pad) (Z.to_nat pad) in
            Some {| pb_type := blockType;
                    pb_headers := [(s2b "Proc-Type", s2b "4,ENCRYPTED"); (s2b "DEK-Info", al_name ciph ++ s2b "," ++ hex_encode iv)];
                    pb_bytes := cbcEncrypt enc (al_blockSize ciph) (List.length encrypted) iv encrypted |}
        end
  end.
