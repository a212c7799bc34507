(** C119: password-encrypted PEM blocks. *)
From Coq Require Import String Lia ZArith.
From Verif Require Import Model.Bytes Model.Pem Spec.Pem Proofs.BytesFacts Proofs.PemFacts.
Local Open Scope Z_scope.

(** DecryptPEMBlock gives back what EncryptPEMBlock encrypted, with the same password, for data of every length. *)
Theorem C119_round_trip : forall P rand blockType data password alg b, ciphers_ok P -> encryptPEMBlock P rand blockType data password alg = Some b ->
  isEncryptedPEMBlock b = true /\ decryptPEMBlock P b password = PemData data.
Proof.
  intros P rand typ data password alg b OK H. apply (encrypt_iff P OK) in H as (name & ks & bs & iv & rest & I & ER & LI & ET & EH & key & enc & dec & PK & NC & EB).
  split. { unfold isEncryptedPEMBlock. rewrite EH. reflexivity. }
  destruct (in_name _ _ _ _ I) as (_ & _ & _ & RB & RK). cbv zeta in EB. set (pad := bs - zlen data mod bs) in *.
  assert (B0 : 0 < bs) by lia. destruct (pad_mod bs data B0) as [HP LP]. fold pad in HP, LP.
  destruct OK as [SZ CO]. destruct (CO _ _ _ _ key I (proj1 PK)) as (enc' & dec' & NC' & D). rewrite NC in NC'. injection NC' as <- <-.
  assert (M : zlen (data ++ repeat (z2b pad) (Z.to_nat pad)) mod bs = 0) by (rewrite LP, Z.mul_comm; apply Z.mod_mul; lia).
  destruct (decrypt_back P (conj SZ CO) b password (data ++ repeat (z2b pad) (Z.to_nat pad)) bs) as (_ & _ & E).
  { exists alg, name, ks, iv, (hex_encode iv), key, enc, dec. split; [exact I|]. split; [rewrite EH; reflexivity|]. split; [apply hex_encode_of|]. split; [exact LI|]. split; [exact PK|]. split; [exact NC|].
    rewrite EB. apply cbc_encrypt; [lia | intros x Lx; destruct (D x Lx) as (D1 & _ & D3); now split | exact LI | exact M | lia]. }
  rewrite E. apply padded_unpad; [lia | exact M | exists pad; now split].
Qed.
Print Assumptions C119_round_trip.

(** EncryptPEMBlock succeeds for the five ciphers when the random source gives enough bytes; the block has the type asked for, the two headers of
    RFC 1423 with the cipher's name and the initialization vector (the first random bytes), and the padded data, which are the fewest whole blocks
    longer than the data. *)
Theorem C119_encrypted : forall P rand blockType data password alg, ciphers_ok P ->
  ((exists b, encryptPEMBlock P rand blockType data password alg = Some b) <-> exists name ks bs, In (alg, name, ks, bs) pem_ciphers /\ bs <= zlen rand) /\
  (forall b, encryptPEMBlock P rand blockType data password alg = Some b -> exists name ks bs plain, In (alg, name, ks, bs) pem_ciphers /\ pb_type b = blockType /\
     pb_headers b = [(s2b "Proc-Type", s2b "4,ENCRYPTED"); (s2b "DEK-Info", name ++ s2b "," ++ hex_encode (takeZ bs rand))] /\
     padded bs data plain /\ decrypts_to P b password plain bs /\ zlen (pb_bytes b) = bs * (zlen data / bs + 1)).
Proof.
  intros P rand typ data password alg OK. split.
  - split.
    + intros (b & H). apply (encrypt_iff P OK) in H as (name & ks & bs & iv & rest & I & -> & LI & _). exists name, ks, bs. split; [exact I|]. rewrite zlen_app. pose proof (zlen_nonneg rest). lia.
    + intros (name & ks & bs & I & L). destruct (in_name _ _ _ _ I) as (_ & BK & _ & RB & RK). unfold encryptPEMBlock. rewrite BK. unfold algoOf. cbn [al_blockSize al_cipher al_name].
      replace (zlen rand <? bs) with false by lia. cbv zeta. destruct OK as [SZ CO].
      destruct (CO _ _ _ _ (deriveKey P (mkAlgo alg name ks bs) password (takeZ 8 (takeZ bs rand))) I) as (enc & dec & NC & _).
      { apply (derive_key P password _ SZ (mkAlgo alg name ks bs)). cbn [al_keySize]. lia. }
      rewrite NC. eexists. reflexivity.
  - intros b H. apply (encrypt_iff P OK) in H as (name & ks & bs & iv & rest & I & ER & LI & ET & EH & key & enc & dec & PK & NC & EB).
    destruct (in_name _ _ _ _ I) as (_ & _ & _ & RB & RK). cbv zeta in EB. set (pad := bs - zlen data mod bs) in *.
    assert (B0 : 0 < bs) by lia. destruct (pad_mod bs data B0) as [HP LP]. fold pad in HP, LP.
    destruct OK as [SZ CO]. destruct (CO _ _ _ _ key I (proj1 PK)) as (enc' & dec' & NC' & D). rewrite NC in NC'. injection NC' as <- <-.
    assert (M : zlen (data ++ repeat (z2b pad) (Z.to_nat pad)) mod bs = 0) by (rewrite LP, Z.mul_comm; apply Z.mod_mul; lia).
    exists name, ks, bs, (data ++ repeat (z2b pad) (Z.to_nat pad)). split; [exact I|]. split; [exact ET|]. split. { rewrite EH, ER, takeZ_app by congruence. reflexivity. }
    split; [exists pad; now split|].
    assert (CB : cbc dec bs iv (pb_bytes b) (data ++ repeat (z2b pad) (Z.to_nat pad))).
    { rewrite EB. apply cbc_encrypt; [lia | intros x Lx; destruct (D x Lx) as (D1 & _ & D3); now split | exact LI | exact M | lia]. }
    split; [|destruct (cbc_len _ _ _ _ _ B0 LI CB) as [_ L]; congruence].
    exists alg, name, ks, iv, (hex_encode iv), key, enc, dec. split; [exact I|]. split; [rewrite EH; reflexivity|]. split; [apply hex_encode_of|]. split; [exact LI|]. split; [exact PK|]. split; [exact NC | exact CB].
Qed.
Print Assumptions C119_encrypted.

(** Exactly which blocks are decrypted, to which data: the header must name a cipher and an initialization vector of its block size, the text must
    be whole blocks, and the plain text must end in padding; when only the padding is wrong, the error says that the password is incorrect. *)
Theorem C119_decrypted : forall P b password, ciphers_ok P ->
  (forall data, decryptPEMBlock P b password = PemData data <-> exists plain bs, decrypts_to P b password plain bs /\ padded bs data plain) /\
  (decryptPEMBlock P b password = PemPassword <-> exists plain bs, decrypts_to P b password plain bs /\ plain <> [] /\ forall data, ~ padded bs data plain).
Proof.
  intros P b password OK. split.
  - intros data. split.
    + intros H. destruct (decrypt_cases P OK b password) as [(plain & bs & DT & B & M & E) | [_ E]]; [|congruence].
      exists plain, bs. split; [exact DT|]. pose proof (unpad_padded bs plain B M) as U. rewrite <- E, H in U. exact U.
    + intros (plain & bs & DT & PD). destruct (decrypt_back P OK _ _ _ _ DT) as (B & M & E). rewrite E. now apply padded_unpad.
  - split.
    + intros H. destruct (decrypt_cases P OK b password) as [(plain & bs & DT & B & M & E) | [_ E]]; [|congruence].
      exists plain, bs. split; [exact DT|]. pose proof (unpad_padded bs plain B M) as U. rewrite <- E, H in U. exact U.
    + intros (plain & bs & DT & N & NP). destruct (decrypt_back P OK _ _ _ _ DT) as (B & M & E). rewrite E.
      pose proof (unpad_padded bs plain B M) as U. destruct (unpad bs plain); [destruct (NP _ U) | reflexivity | congruence].
Qed.
Print Assumptions C119_decrypted.

(** What a block says is one text, and the padding of a text is one padding: no block decrypts to two data. *)
Theorem C119_unique : forall P b password plain bs plain' bs', ciphers_ok P -> decrypts_to P b password plain bs -> decrypts_to P b password plain' bs' -> plain = plain' /\ bs = bs'.
Proof. intros P b password plain bs plain' bs' OK. apply decrypt_same. Qed.
Print Assumptions C119_unique.

(** Not vacuous: a cipher that reverses the block and adds the first byte of the key. *)
Definition toy_pem : pemenv :=
  {| pe_md5 := fun m => takeZ 16 (m ++ repeat x07 16);
     pe_newCipher := fun _ key => let k := match key with [] => 0 | x :: _ => b2z x end in
       Some (fun b => map (fun x => z2b (b2z x + k)) (rev b), fun b => rev (map (fun x => z2b (b2z x - k)) b)) |}.
Lemma toy_pem_ok : ciphers_ok toy_pem.
Proof.
  split.
  - intros m. cbn [toy_pem pe_md5]. rewrite zlen_takeZ, zlen_app. change (zlen (repeat x07 16)) with 16. pose proof (zlen_nonneg m). lia.
  - intros c name ks bs key _ _. cbn [toy_pem pe_newCipher]. do 2 eexists. split; [reflexivity|]. intros b L. cbv beta. rewrite ?zlen_map, ?zlen_rev, ?zlen_map. split; [exact L|]. split; [exact L|].
    rewrite map_map. rewrite <- (rev_involutive b) at 2. f_equal. rewrite <- (map_id (rev b)) at 2. apply map_ext. intros x. apply b2z_inj.
    rewrite !b2z_z2b. rewrite Zminus_mod_idemp_l. pose proof (b2z_range x). rewrite Z.add_simpl_r. apply Z.mod_small. lia.
Qed.
Theorem C119_not_vacuous : ciphers_ok toy_pem /\
  (exists b, encryptPEMBlock toy_pem (map (fun n => z2b (Z.of_nat n)) (List.seq 0 20)) (s2b "KEY") (s2b "some sixteen bytes and more") (s2b "pw") 5 = Some b /\ zlen (pb_bytes b) = 32 /\
     decryptPEMBlock toy_pem b (s2b "pw") = PemData (s2b "some sixteen bytes and more") /\ decryptPEMBlock toy_pem b (s2b "qw") = PemPassword).
Proof.
  split; [exact toy_pem_ok|]. destruct (encryptPEMBlock toy_pem _ _ _ _ _) as [b|] eqn:E; [|vm_compute in E; discriminate E]. vm_compute in E. injection E as <-. eexists.
  split; [reflexivity|]. split; [reflexivity|]. split; vm_compute; reflexivity.
Qed.
Print Assumptions C119_not_vacuous.
