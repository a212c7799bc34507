(** Password-encrypted PEM blocks (RFC 1423): keys, headers, cipher block chaining and padding, as relations. *)
From Coq Require Import String.
From Verif Require Import Model.Bytes Model.Pem.

(** The five ciphers: number, name, bytes of a key, bytes of a block. *)
Definition pem_ciphers : list (Z * bytes * Z * Z) :=
  [(1, s2b "DES-CBC", 8, 8); (2, s2b "DES-EDE3-CBC", 24, 8); (3, s2b "AES-128-CBC", 16, 16); (4, s2b "AES-192-CBC", 24, 16); (5, s2b "AES-256-CBC", 32, 16)].

(** What is assumed of MD5 and of the block ciphers: sizes, and that decryption undoes encryption. *)
Definition ciphers_ok (P : pemenv) : Prop :=
  (forall m, zlen (pe_md5 P m) = 16) /\
  (forall c name ks bs key, In (c, name, ks, bs) pem_ciphers -> zlen key = ks -> exists enc dec, pe_newCipher P c key = Some (enc, dec) /\
     forall b, zlen b = bs -> zlen (enc b) = bs /\ zlen (dec b) = bs /\ dec (enc b) = b).

(** EVP_BytesToKey: D1 = MD5(password salt), D2 = MD5(D1 password salt), ...; the key is the beginning of D1 D2 ... *)
Inductive digest_chain (md5 : bytes -> bytes) (password salt : bytes) : bytes -> list bytes -> Prop :=
| dc_nil d : digest_chain md5 password salt d []
| dc_cons d l : digest_chain md5 password salt (md5 (d ++ password ++ salt)) l -> digest_chain md5 password salt d (md5 (d ++ password ++ salt) :: l).
Definition password_key (md5 : bytes -> bytes) (password salt : bytes) (size : Z) (key : bytes) : Prop :=
  zlen key = size /\ exists l rest, digest_chain md5 password salt [] l /\ concat l = key ++ rest.

(** Hexadecimal digits of both cases. *)
Inductive hex_value : byte -> Z -> Prop :=
| hv_digit c : 48 <= b2z c <= 57 -> hex_value c (b2z c - 48)
| hv_lower c : 97 <= b2z c <= 102 -> hex_value c (b2z c - 97 + 10)
| hv_upper c : 65 <= b2z c <= 70 -> hex_value c (b2z c - 65 + 10).
Inductive hex_of : bytes -> bytes -> Prop :=
| ho_nil : hex_of [] []
| ho_cons b data c d s : hex_value c (b2z b / 16) -> hex_value d (b2z b mod 16) -> hex_of data s -> hex_of (b :: data) (c :: d :: s).

(** The exclusive or of two strings of the same size. *)
Inductive xored : bytes -> bytes -> bytes -> Prop :=
| xo_nil : xored [] [] []
| xo_cons x y z a b c : b2z z = Z.lxor (b2z x) (b2z y) -> xored a b c -> xored (x :: a) (y :: b) (z :: c).
(** Cipher block chaining: decrypting each block of the cipher text and adding the block before it gives the plain text. *)
Inductive cbc (dec : bytes -> bytes) (bs : Z) : bytes -> bytes -> bytes -> Prop :=
| cbc_end prev : cbc dec bs prev [] []
| cbc_block prev c p crest prest : zlen c = bs -> xored (dec c) prev p -> cbc dec bs c crest prest -> cbc dec bs prev (c ++ crest) (p ++ prest).

(** The padding of RFC 1423: n bytes of value n, with 1 <= n <= the size of a block. *)
Definition padded (bs : Z) (data plain : bytes) : Prop := exists n, 1 <= n <= bs /\ plain = data ++ repeat (z2b n) (Z.to_nat n).

(** What a block says: its DEK-Info header names cipher and initialization vector, and with the key of the password, whose salt are the first
    8 bytes of the vector, the blocks decrypt to plain. *)
Definition decrypts_to (P : pemenv) (b : pemBlock) (password plain : bytes) (bs : Z) : Prop :=
  exists c name ks iv text key enc dec, In (c, name, ks, bs) pem_ciphers /\ sget (s2b "DEK-Info") (pb_headers b) = Some (name ++ s2b "," ++ text) /\
    hex_of iv text /\ zlen iv = bs /\ password_key (pe_md5 P) password (firstn 8 iv) ks key /\ pe_newCipher P c key = Some (enc, dec) /\
    cbc dec bs iv (pb_bytes b) plain.
