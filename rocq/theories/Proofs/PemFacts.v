(** Proofs about Model/Pem.v: hexadecimal, key derivation, cipher block chaining, padding. *)
From Coq Require Import String Lia ZArith.
From Verif Require Import Model.Bytes Model.Pem Spec.Pem Proofs.BytesFacts.
Local Open Scope Z_scope.

Lemma hex_char c n : fromHexChar c = Some n <-> hex_value c n.
Proof.
  unfold fromHexChar. cbv zeta. destruct ((48 <=? b2z c) && (b2z c <=? 57)) eqn:E1; [|destruct ((97 <=? b2z c) && (b2z c <=? 102)) eqn:E2; [|destruct ((65 <=? b2z c) && (b2z c <=? 70)) eqn:E3]];
  (split; [intros H; try discriminate H; injection H as <- | intros H; inversion H; subst; try (f_equal; lia); exfalso; lia]).
  - apply hv_digit. lia.
  - replace (b2z c - 87) with (b2z c - 97 + 10) by lia. apply hv_lower. lia.
  - replace (b2z c - 55) with (b2z c - 65 + 10) by lia. apply hv_upper. lia.
Qed.
Lemma hex_range c n : hex_value c n -> 0 <= n < 16. Proof. intros H; inversion H; lia. Qed.

Lemma hex_decode_of data s : hex_of data s -> hexDecode s = Some data.
Proof.
  induction 1 as [|b data c d s Hc Hd _ IH]; [reflexivity|]. cbn [hexDecode]. apply hex_char in Hc, Hd. rewrite Hc, Hd, IH.
  rewrite <- (Z.div_mod (b2z b) 16) by lia. now rewrite z2b_b2z.
Qed.
Lemma hex_decode_sound n : forall s data, (List.length s <= n)%nat -> hexDecode s = Some data -> hex_of data s.
Proof.
  induction n as [|n IH]; intros [|a [|b t]] data L H; try discriminate H; try (injection H as <-; constructor); [cbn in L; lia|].
  cbn [hexDecode] in H. destruct (fromHexChar a) as [x|] eqn:Ea; [|discriminate H]. destruct (fromHexChar b) as [y|] eqn:Eb; [|discriminate H].
  destruct (hexDecode t) as [r|] eqn:Et; [|discriminate H]. assert (data = z2b (16 * x + y) :: r) as -> by congruence. apply hex_char in Ea, Eb. pose proof (hex_range _ _ Ea). pose proof (hex_range _ _ Eb).
  assert (V : b2z (z2b (16 * x + y)) = 16 * x + y) by (rewrite b2z_z2b; apply Z.mod_small; lia).
  assert (Q : (16 * x + y) / 16 = x) by (symmetry; apply (Z.div_unique _ 16 x y); lia).
  assert (R : (16 * x + y) mod 16 = y) by (symmetry; apply (Z.mod_unique _ 16 x y); lia).
  constructor; [rewrite V, Q; exact Ea | rewrite V, R; exact Eb |]. apply IH; [cbn in L; lia | exact Et].
Qed.
Lemma hex_iff data s : hexDecode s = Some data <-> hex_of data s.
Proof. split; [apply (hex_decode_sound (List.length s)); lia | apply hex_decode_of]. Qed.
Lemma hex_encode_of data : hex_of data (hex_encode data).
Proof.
  assert (D : forall n, 0 <= n < 16 -> hex_value (hex_digit n) n).
  { intros n H. apply hex_char. unfold fromHexChar, hex_digit. cbv zeta. destruct (Z.ltb_spec n 10); rewrite b2z_z2b, Z.mod_small by lia.
    - replace ((48 <=? 48 + n) && (48 + n <=? 57)) with true by lia. f_equal. lia.
    - replace ((48 <=? 87 + n) && (87 + n <=? 57)) with false by lia. replace ((97 <=? 87 + n) && (87 + n <=? 102)) with true by lia. f_equal. lia. }
  induction data as [|b data IH]; [constructor|]. cbn [hex_encode flat_map app]. pose proof (b2z_range b).
  constructor; [apply D; split; [apply Z.div_pos; lia | apply Z.div_lt_upper_bound; lia] | apply D; apply Z.mod_pos_bound; lia | exact IH].
Qed.

Lemma cut_comma s : forall a b, cutComma s = Some (a, b) -> s = a ++ s2b "," ++ b.
Proof.
  induction s as [|x s IH]; intros a b H; [discriminate H|]. cbn [cutComma] in H. destruct (Z.eqb_spec (b2z x) 44) as [E | N].
  - injection H as <- <-. cbn [app]. replace x with x2c; [reflexivity|]. apply b2z_inj. rewrite E. reflexivity.
  - destruct (cutComma s) as [[a' b']|]; [|discriminate H]. injection H as <- <-. cbn [app]. f_equal. apply IH. reflexivity.
Qed.
Lemma by_name mode ciph : cipherByName mode = Some ciph -> In (al_cipher ciph, mode, al_keySize ciph, al_blockSize ciph) pem_ciphers.
Proof.
  unfold cipherByName. intros H. pose proof (find_some _ _ H) as [I E]. apply bytes_eqb_eq in E. subst mode. unfold rfc1423Algos in I. cbn [In] in I.
  unfold pem_ciphers. cbn [In]. intuition (subst; cbn; tauto).
Qed.
Lemma by_key c ciph : cipherByKey c = Some ciph -> In (c, al_name ciph, al_keySize ciph, al_blockSize ciph) pem_ciphers /\ al_cipher ciph = c.
Proof.
  unfold cipherByKey. intros H. pose proof (find_some _ _ H) as [I E]. apply Z.eqb_eq in E. subst c. split; [|reflexivity]. unfold rfc1423Algos in I. cbn [In] in I.
  unfold pem_ciphers. cbn [In]. intuition (subst; cbn; tauto).
Qed.
Definition algoOf (c : Z) (name : bytes) (ks bs : Z) : rfc1423Algo := mkAlgo c name ks bs.
Lemma in_name c name ks bs : In (c, name, ks, bs) pem_ciphers -> cipherByName name = Some (algoOf c name ks bs) /\ cipherByKey c = Some (algoOf c name ks bs) /\
  (forall text, cutComma (name ++ s2b "," ++ text) = Some (name, text)) /\ 8 <= bs <= 16 /\ 0 <= ks <= 32.
Proof.
  unfold pem_ciphers. cbn [In]. intros H.
  repeat (destruct H as [H | H]; [injection H as <- <- <- <-; split; [reflexivity|]; split; [reflexivity|]; split; [intros text; reflexivity | lia]|]). destruct H.
Qed.

(* keys *)
Section Key.
  Variable P : pemenv.
  Variables password salt : bytes.
  Hypothesis SZ : forall m, zlen (pe_md5 P m) = 16.
  Lemma derive_loop ks fuel : forall digest acc, zlen acc <= ks -> ks - zlen acc <= Z.of_nat fuel ->
    exists k l rest, deriveLoop P fuel ks password salt digest acc = acc ++ k /\ zlen (acc ++ k) = ks /\ digest_chain (pe_md5 P) password salt digest l /\ concat l = k ++ rest.
  Proof.
    assert (DONE : forall digest acc, zlen acc = ks -> exists k l rest, acc = acc ++ k /\ zlen (acc ++ k) = ks /\ digest_chain (pe_md5 P) password salt digest l /\ concat l = k ++ rest).
    { intros digest acc E. exists [], [], []. rewrite app_nil_r. split; [reflexivity|]. split; [exact E|]. split; [constructor | reflexivity]. }
    induction fuel as [|f IH]; intros digest acc L F; cbn [deriveLoop]; destruct (Z.ltb_spec (zlen acc) ks) as [C | C]; try (apply DONE; lia).
    cbv zeta. set (d := pe_md5 P (digest ++ password ++ salt)). assert (Ed : zlen d = 16) by apply SZ.
    pose proof (zlen_nonneg acc). assert (EL : zlen (acc ++ takeZ (ks - zlen acc) d) = zlen acc + Z.min (ks - zlen acc) 16) by (rewrite zlen_app, zlen_takeZ; lia).
    destruct (Z.le_gt_cases (ks - zlen acc) 16) as [S1 | S1].
    - assert (L2 : zlen (acc ++ takeZ (ks - zlen acc) d) <= ks) by lia.
      destruct (IH d _ L2 ltac:(lia)) as (k & l & rest & E & Lk & _ & _). exists (takeZ (ks - zlen acc) d), [d], (dropZ (ks - zlen acc) d).
      assert (k = []) as ->. { rewrite zlen_app in Lk. destruct k as [|x k]; [reflexivity|]. rewrite zlen_cons in Lk. pose proof (zlen_nonneg k). lia. }
      rewrite E, !app_nil_r. split; [reflexivity|]. split; [lia|]. split; [apply dc_cons; constructor|]. cbn [concat]. rewrite app_nil_r. symmetry. apply take_drop.
    - rewrite (takeZ_all d) by lia. assert (L2 : zlen (acc ++ d) <= ks) by (rewrite zlen_app; lia).
      destruct (IH d _ L2 ltac:(rewrite zlen_app; lia)) as (k & l & rest & E & Lk & CH & CC). exists (d ++ k), (d :: l), rest.
      rewrite E, <- !app_assoc. rewrite <- app_assoc in Lk. split; [reflexivity|]. split; [exact Lk|]. split; [apply dc_cons; exact CH|]. cbn [concat]. rewrite CC. reflexivity.
  Qed.
  Lemma derive_key c : 0 <= al_keySize c -> password_key (pe_md5 P) password salt (al_keySize c) (deriveKey P c password salt).
  Proof.
    intros H. unfold deriveKey. destruct (derive_loop (al_keySize c) (Z.to_nat (al_keySize c)) [] [] ltac:(exact H) ltac:(rewrite zlen_nil; lia)) as (k & l & rest & E & L & CH & CC).
    rewrite E. split; [exact L|]. exists l, rest. split; [exact CH | exact CC].
  Qed.
  Lemma chain_prefix d l : digest_chain (pe_md5 P) password salt d l -> forall l', digest_chain (pe_md5 P) password salt d l' -> (exists x, l' = l ++ x) \/ (exists x, l = l' ++ x).
  Proof.
    induction 1 as [d | d l _ IH]; intros l' H'; [left; now exists l'|]. inversion H' as [| d' m Hm]; subst; [right; eexists; reflexivity|].
    destruct (IH m Hm) as [[x ->] | [x ->]]; [left | right]; now exists x.
  Qed.
  Lemma key_unique size k k' : password_key (pe_md5 P) password salt size k -> password_key (pe_md5 P) password salt size k' -> k = k'.
  Proof.
    intros [L (l & r & C & E)] [L' (l' & r' & C' & E')]. destruct (chain_prefix _ _ C _ C') as [[x ->] | [x ->]].
    - rewrite concat_app, E, <- app_assoc in E'. apply app_take_eq in E' as [E' _]; [exact E' | congruence].
    - rewrite concat_app, E', <- app_assoc in E. apply app_take_eq in E as [E _]; [symmetry; exact E | congruence].
  Qed.
End Key.

(* chaining *)
Lemma xored_len a b c : xored a b c -> zlen a = zlen c /\ zlen b = zlen c.
Proof. induction 1; [easy|]. rewrite !zlen_cons. lia. Qed.
Lemma xored_fun a b c : xored a b c -> forall d, xored a b d -> c = d.
Proof.
  induction 1 as [|x y z a b c E _ IH]; intros d H; inversion H as [| ? ? z' ? ? c' E' H']; subst; [reflexivity|]. f_equal; [apply b2z_inj; congruence | now apply IH].
Qed.
Lemma lxor_byte x y : 0 <= Z.lxor (b2z x) (b2z y) < 256.
Proof. pose proof (b2z_range x). pose proof (b2z_range y). destruct x, y; vm_compute; split; congruence. Qed.
Lemma xor_bytes a : forall b, zlen a = zlen b -> xored a b (xorBytes a b).
Proof.
  induction a as [|x a IH]; intros [|y b] L; rewrite ?zlen_cons, ?zlen_nil in L; try (pose proof (zlen_nonneg a)); try (pose proof (zlen_nonneg b)); try lia; [constructor|].
  cbn [xorBytes]. constructor; [rewrite b2z_z2b; apply Z.mod_small; apply lxor_byte | apply IH; lia].
Qed.
Lemma xor_twice a b c : xored a b c -> xored c b a.
Proof. induction 1 as [|x y z a b c E _ IH]; constructor; [|exact IH]. rewrite E, Z.lxor_assoc, Z.lxor_nilpotent, Z.lxor_0_r. reflexivity. Qed.

Lemma cbc_fun dec bs prev c p : 0 < bs -> cbc dec bs prev c p -> forall q, cbc dec bs prev c q -> p = q.
Proof.
  intros B. revert prev c p. assert (INV : forall prev all out, cbc dec bs prev all out -> all = [] /\ out = [] \/ exists c p crest prest, all = c ++ crest /\ out = p ++ prest /\ zlen c = bs /\ xored (dec c) prev p /\ cbc dec bs c crest prest).
  { intros pv all out [pv' | pv' c1 p' crest prest L X H]; [now left | right; now exists c1, p', crest, prest]. }
  intros prev c p. induction 1 as [prev | prev c p crest prest L X _ IH]; intros q H; apply INV in H as [[E1 E2] | (c' & p' & cr' & pr' & E1 & E2 & L' & X' & H')].
  - now subst.
  - symmetry in E1. apply app_eq_nil in E1 as [-> _]. rewrite zlen_nil in L'. lia.
  - apply app_eq_nil in E1 as [-> _]. rewrite zlen_nil in L. lia.
  - apply app_take_eq in E1 as [<- <-]; [|congruence]. rewrite E2. f_equal; [now apply (xored_fun _ _ _ X) | now apply IH].
Qed.
Lemma cbc_len dec bs prev c p : 0 < bs -> zlen prev = bs -> cbc dec bs prev c p -> zlen c mod bs = 0 /\ zlen p = zlen c.
Proof.
  intros B LP H. induction H as [prev | prev c p crest prest L X _ IH]; [split; [apply Z.mod_0_l; lia | reflexivity]|].
  apply xored_len in X as [_ X]. destruct (IH L) as [I1 I2]. rewrite !zlen_app. split; [|lia]. rewrite L.
  replace (bs + zlen crest) with (zlen crest + 1 * bs) by lia. rewrite Z.mod_add by lia. exact I1.
Qed.
Lemma whole_block (bs : Z) (data : bytes) : 0 < bs -> zlen data mod bs = 0 -> data <> [] ->
  zlen (takeZ bs data) = bs /\ zlen (dropZ bs data) mod bs = 0 /\ zlen (dropZ bs data) = zlen data - bs.
Proof.
  intros B M N. assert (P : 0 < zlen data). { destruct data; [easy|]. rewrite zlen_cons. pose proof (zlen_nonneg data). lia. }
  assert (G : bs <= zlen data). { apply Z.mod_divide in M; [|lia]. apply Z.divide_pos_le in M; lia. }
  rewrite zlen_takeZ, zlen_dropZ. split; [lia|]. split; [|lia]. rewrite Z.max_r by lia. rewrite Z.max_r by lia.
  replace (zlen data - bs) with (zlen data + (-1) * bs) by lia. now rewrite Z.mod_add by lia.
Qed.
Lemma cbc_decrypt dec bs fuel : 0 < bs -> (forall b, zlen b = bs -> zlen (dec b) = bs) -> forall prev data, zlen prev = bs -> zlen data mod bs = 0 -> (List.length data <= fuel)%nat ->
  cbc dec bs prev data (cbcDecrypt dec bs fuel prev data).
Proof.
  intros B D. induction fuel as [|f IH]; intros prev data LP M F.
  - destruct data; [constructor | cbn in F; lia].
  - destruct data as [|x t] eqn:Ed; [constructor|]. rewrite <- Ed in *. cbn [cbcDecrypt]. rewrite Ed. cbv zeta. rewrite <- Ed.
    destruct (whole_block bs data B M) as (W1 & W2 & W3); [rewrite Ed; discriminate|].
    pattern data at 1. rewrite <- (take_drop bs data). apply cbc_block; [exact W1 | apply xor_bytes; rewrite D by exact W1; congruence|].
    apply IH; [exact W1 | exact W2 | unfold zlen in W3; lia].
Qed.
Lemma cbc_encrypt enc dec bs fuel : 0 < bs -> (forall b, zlen b = bs -> zlen (enc b) = bs /\ dec (enc b) = b) -> forall prev data, zlen prev = bs -> zlen data mod bs = 0 -> (List.length data <= fuel)%nat ->
  cbc dec bs prev (cbcEncrypt enc bs fuel prev data) data.
Proof.
  intros B D. induction fuel as [|f IH]; intros prev data LP M F.
  - destruct data; [constructor | cbn in F; lia].
  - destruct data as [|x t] eqn:Ed; [constructor|]. rewrite <- Ed in *. cbn [cbcEncrypt]. rewrite Ed. cbv zeta. rewrite <- Ed.
    destruct (whole_block bs data B M) as (W1 & W2 & W3); [rewrite Ed; discriminate|].
    assert (X : xored (takeZ bs data) prev (xorBytes (takeZ bs data) prev)) by (apply xor_bytes; congruence).
    pose proof (xored_len _ _ _ X) as [XL _]. destruct (D (xorBytes (takeZ bs data) prev) ltac:(congruence)) as [EL ED].
    match goal with |- cbc _ _ _ ?Y _ => enough (Q : cbc dec bs prev Y (takeZ bs data ++ dropZ bs data)) by (rewrite take_drop in Q; exact Q) end.
    apply cbc_block; [exact EL | rewrite ED; now apply xor_twice|].
    apply IH; [exact EL | exact W2 | unfold zlen in W3; lia].
Qed.

(* padding *)
Lemma all_eq l n : forallb (fun v => b2z v =? n) l = true -> 0 <= n < 256 -> l = repeat (z2b n) (List.length l).
Proof.
  intros H R. induction l as [|x l IH]; [reflexivity|]. cbn [forallb] in H. apply andb_true_iff in H as [H1 H2]. cbn [List.length repeat]. f_equal; [|now apply IH].
  apply Z.eqb_eq in H1. rewrite <- H1. now rewrite z2b_b2z.
Qed.
Lemma padded_unpad bs d plain : 0 < bs < 256 -> zlen plain mod bs = 0 -> padded bs d plain -> unpad bs plain = PemData d.
Proof.
  intros B M (n & Hn & E). assert (V : b2z (z2b n) = n) by (rewrite b2z_z2b; apply Z.mod_small; lia).
  assert (LR : zlen (repeat (z2b n) (Z.to_nat n)) = n) by (unfold zlen; rewrite repeat_length; lia).
  assert (R : exists t, rev plain = z2b n :: t).
  { rewrite E, rev_app_distr. replace (Z.to_nat n) with (Datatypes.S (Z.to_nat n - 1)) by lia. rewrite <- (Nat.add_1_r (Z.to_nat n - 1)), repeat_app. cbn [repeat].
    rewrite rev_app_distr. cbn [rev app]. eexists. reflexivity. }
  destruct R as [t R]. unfold unpad. rewrite R. rewrite M. cbv zeta. cbn [Z.eqb negb]. rewrite V.
  assert (LP : zlen plain = zlen d + n) by (rewrite E, zlen_app, LR; reflexivity). pose proof (zlen_nonneg d).
  replace (zlen plain <? n) with false by lia. replace ((n =? 0) || (bs <? n)) with false by lia. replace (zlen plain - n) with (zlen d) by lia.
  rewrite E at 1. rewrite dropZ_app by reflexivity.
  replace (forallb (fun v => b2z v =? n) (repeat (z2b n) (Z.to_nat n))) with true. { rewrite E, takeZ_app by reflexivity. reflexivity. }
  symmetry. apply forallb_forall. intros v I. apply repeat_spec in I. subst v. rewrite V. apply Z.eqb_refl.
Qed.
Lemma unpad_padded bs plain : 0 < bs < 256 -> zlen plain mod bs = 0 ->
  match unpad bs plain with PemData d => padded bs d plain | PemPassword => plain <> [] /\ forall d, ~ padded bs d plain | PemError => plain = [] end.
Proof.
  intros B M. assert (NO : (forall d, unpad bs plain <> PemData d) -> forall d, ~ padded bs d plain).
  { intros H d Q. apply (H d). now apply padded_unpad. }
  destruct (unpad bs plain) as [d | |] eqn:U.
  - unfold unpad in U. destruct (rev plain) as [|x t]; [discriminate U|]. rewrite M in U. cbv zeta in U. cbn [Z.eqb negb] in U.
    destruct (Z.ltb_spec (zlen plain) (b2z x)); [discriminate U|]. destruct ((b2z x =? 0) || (bs <? b2z x)) eqn:E; [discriminate U|].
    destruct (forallb _ _) eqn:FA; [|discriminate U]. injection U as <-. pose proof (b2z_range x). exists (b2z x). split; [lia|].
    apply all_eq in FA; [|lia]. rewrite <- (take_drop (zlen plain - b2z x) plain) at 1. f_equal. rewrite FA. f_equal.
    pose proof (zlen_dropZ (zlen plain - b2z x) plain) as Z. unfold zlen in *. lia.
  - split; [intros ->; discriminate U|]. apply NO. intros d C. discriminate C.
  - unfold unpad in U. destruct (rev plain) as [|x t] eqn:R. { rewrite <- (rev_involutive plain), R. reflexivity. }
    rewrite M in U. cbv zeta in U. cbn [Z.eqb negb] in U. destruct (zlen plain <? b2z x); [discriminate U|]. destruct ((b2z x =? 0) || (bs <? b2z x)); [discriminate U|]. destruct (forallb _ _); discriminate U.
Qed.

(* the two functions *)
Section Pem.
  Variable P : pemenv.
  Hypothesis OK : ciphers_ok P.
  Lemma decrypt_back b password plain bs : decrypts_to P b password plain bs -> 0 < bs < 256 /\ zlen plain mod bs = 0 /\ decryptPEMBlock P b password = unpad bs plain.
  Proof.
    destruct OK as [SZ CO].
    intros (c & name & ks & iv & text & key & enc & dec & I & HD & HX & LI & PK & NC & CB). destruct (in_name _ _ _ _ I) as (BN & _ & CC & RB & RK).
      assert (B0 : 0 < bs) by lia. destruct (cbc_len _ _ _ _ _ B0 LI CB) as [M LP]. split; [lia|]. split; [congruence|].
      unfold decryptPEMBlock. rewrite HD, CC, BN. apply hex_iff in HX. rewrite HX. unfold algoOf in *. cbn [al_blockSize al_cipher]. rewrite LI, Z.eqb_refl. cbn [negb].
      assert (key = deriveKey P (mkAlgo c name ks bs) password (takeZ 8 iv)) as <-.
      { apply (key_unique P password (firstn 8 iv) ks); [exact PK|]. rewrite takeZ_firstn. apply (derive_key P password _ SZ (mkAlgo c name ks bs)). cbn [al_keySize]. lia. }
      rewrite NC, M. cbn [Z.eqb negb]. f_equal. apply (cbc_fun dec bs iv (pb_bytes b)); [lia | | exact CB].
      destruct (CO _ _ _ _ key I (proj1 PK)) as (enc' & dec' & NC' & D). assert (dec' = dec) as -> by congruence. apply cbc_decrypt; [lia | intros x Lx; now apply D | exact LI | exact M | lia].
  Qed.
  Lemma decrypt_same b password plain bs plain' bs' : decrypts_to P b password plain bs -> decrypts_to P b password plain' bs' -> plain = plain' /\ bs = bs'.
  Proof.
    intros (c & name & ks & iv & text & key & enc & dec & I & HD & HX & LI & PK & NC & CB) (c' & name' & ks' & iv' & text' & key' & enc' & dec' & I' & HD' & HX' & LI' & PK' & NC' & CB').
    destruct (in_name _ _ _ _ I) as (BN & _ & CC & RB & RK). destruct (in_name _ _ _ _ I') as (BN' & _ & CC' & _ & _).
    assert (EQ : Some (name, text) = Some (name', text')) by (rewrite <- CC, <- CC'; congruence). injection EQ as <- <-.
    assert (EQ : Some (algoOf c name ks bs) = Some (algoOf c' name ks' bs')) by congruence. injection EQ as <- <- <-. apply hex_iff in HX, HX'. assert (iv' = iv) as -> by congruence.
    assert (key' = key) as -> by (apply (key_unique P password (firstn 8 iv) ks); assumption). assert (dec' = dec) as -> by congruence.
    split; [|reflexivity]. apply (cbc_fun dec bs iv (pb_bytes b)); [lia | exact CB | exact CB'].
  Qed.
  Lemma decrypt_cases b password :
    (exists plain bs, decrypts_to P b password plain bs /\ 0 < bs < 256 /\ zlen plain mod bs = 0 /\ decryptPEMBlock P b password = unpad bs plain) \/
    ((forall plain bs, ~ decrypts_to P b password plain bs) /\ decryptPEMBlock P b password = PemError).
  Proof.
    destruct OK as [SZ CO].
    assert (BACK : forall plain bs, decrypts_to P b password plain bs -> 0 < bs < 256 /\ zlen plain mod bs = 0 /\ decryptPEMBlock P b password = unpad bs plain).
    { intros plain bs. apply decrypt_back. }
    assert (FWD : (exists plain bs, decrypts_to P b password plain bs) \/ ((forall plain bs, ~ decrypts_to P b password plain bs) /\ decryptPEMBlock P b password = PemError)).
    { clear BACK. assert (NO : forall E, (forall c name ks bs iv text key enc dec plain, In (c, name, ks, bs) pem_ciphers -> sget (s2b "DEK-Info") (pb_headers b) = Some (name ++ s2b "," ++ text) ->
          hexDecode text = Some iv -> zlen iv = bs -> password_key (pe_md5 P) password (firstn 8 iv) ks key -> pe_newCipher P c key = Some (enc, dec) -> zlen (pb_bytes b) mod bs = 0 ->
          cutComma (name ++ s2b "," ++ text) = Some (name, text) -> cipherByName name = Some (algoOf c name ks bs) -> cbc dec bs iv (pb_bytes b) plain -> False) ->
          E = PemError -> (exists plain bs, decrypts_to P b password plain bs) \/ ((forall plain bs, ~ decrypts_to P b password plain bs) /\ E = PemError)).
      { intros E N EE. right. split; [|exact EE]. intros plain bs (c & name & ks & iv & text & key & enc & dec & I & HD & HX & LI & PK & NC & CB).
        destruct (in_name _ _ _ _ I) as (BN & _ & CC & RB & RK). assert (B0 : 0 < bs) by lia. destruct (cbc_len _ _ _ _ _ B0 LI CB) as [M LP]. apply hex_iff in HX.
        exact (N c name ks bs iv text key enc dec plain I HD HX LI PK NC M (CC text) BN CB). }
      unfold decryptPEMBlock. destruct (sget (s2b "DEK-Info") (pb_headers b)) as [dek|] eqn:HD; [|apply NO; [|reflexivity]; intros; congruence].
      destruct (cutComma dek) as [[mode hexIV]|] eqn:HC; [|apply NO; [|reflexivity]; intros; congruence].
      destruct (cipherByName mode) as [ciph|] eqn:BN; [|apply NO; [|reflexivity]; intros; congruence].
      destruct (hexDecode hexIV) as [iv|] eqn:HX; [|apply NO; [|reflexivity]; intros; congruence].
      destruct (Z.eqb_spec (zlen iv) (al_blockSize ciph)) as [LI | LI]; cbn [negb].
      2: { apply NO; [|reflexivity]. intros. apply LI. assert (Some (name, text) = Some (mode, hexIV)) as EQ by congruence. injection EQ as -> ->. assert (ciph = algoOf c mode ks bs) as -> by congruence. cbn. congruence. }
      pose proof (by_name _ _ BN) as I. destruct (in_name _ _ _ _ I) as (BN' & _ & CC & RB & RK).
      assert (PK : password_key (pe_md5 P) password (firstn 8 iv) (al_keySize ciph) (deriveKey P ciph password (takeZ 8 iv))) by (rewrite takeZ_firstn; apply derive_key; [exact SZ | lia]).
      destruct (CO _ _ _ _ _ I (proj1 PK)) as (enc & dec & NC & D). rewrite NC.
      destruct (Z.eqb_spec (zlen (pb_bytes b) mod al_blockSize ciph) 0) as [M | M]; cbn [negb].
      2: { apply NO; [|reflexivity]. intros. apply M. assert (Some (name, text) = Some (mode, hexIV)) as EQ by congruence. injection EQ as -> ->. assert (ciph = algoOf c mode ks bs) as -> by congruence. cbn. assumption. }
      left. exists (cbcDecrypt dec (al_blockSize ciph) (List.length (pb_bytes b)) iv (pb_bytes b)), (al_blockSize ciph).
      exists (al_cipher ciph), mode, (al_keySize ciph), iv, hexIV, (deriveKey P ciph password (takeZ 8 iv)), enc, dec.
      split; [exact I|]. split; [rewrite (cut_comma _ _ _ HC) in HD; exact HD|]. split; [now apply hex_iff|]. split; [exact LI|]. split; [exact PK|]. split; [exact NC|].
      apply cbc_decrypt; [lia | intros x Lx; now apply D | exact LI | exact M | lia]. }
    destruct FWD as [(plain & bs & DT) | [N E]]; [left | right; split; [exact N | exact E]].
    exists plain, bs. split; [exact DT | now apply BACK].
  Qed.

  Lemma encrypt_iff rand typ data password alg b : encryptPEMBlock P rand typ data password alg = Some b <->
    exists name ks bs iv rest, In (alg, name, ks, bs) pem_ciphers /\ rand = iv ++ rest /\ zlen iv = bs /\ pb_type b = typ /\
      pb_headers b = [(s2b "Proc-Type", s2b "4,ENCRYPTED"); (s2b "DEK-Info", name ++ s2b "," ++ hex_encode iv)] /\
      (exists key enc dec, password_key (pe_md5 P) password (firstn 8 iv) ks key /\ pe_newCipher P alg key = Some (enc, dec) /\
         let pad := bs - zlen data mod bs in pb_bytes b = cbcEncrypt enc bs (List.length (data ++ repeat (z2b pad) (Z.to_nat pad))) iv (data ++ repeat (z2b pad) (Z.to_nat pad))).
  Proof.
    destruct OK as [SZ CO]. split.
    - unfold encryptPEMBlock. destruct (cipherByKey alg) as [ciph|] eqn:BK; [|discriminate]. destruct (by_key _ _ BK) as [I <-].
      destruct (Z.ltb_spec (zlen rand) (al_blockSize ciph)) as [C | C]; [discriminate|]. cbv zeta.
      destruct (in_name _ _ _ _ I) as (_ & _ & _ & RB & RK).
      assert (PK : password_key (pe_md5 P) password (firstn 8 (takeZ (al_blockSize ciph) rand)) (al_keySize ciph) (deriveKey P ciph password (takeZ 8 (takeZ (al_blockSize ciph) rand)))) by (rewrite (takeZ_firstn 8); apply derive_key; [exact SZ | lia]).
      destruct (pe_newCipher P _ _) as [[enc dec]|] eqn:NC; [|discriminate]. intros H.
      exists (al_name ciph), (al_keySize ciph), (al_blockSize ciph), (takeZ (al_blockSize ciph) rand), (dropZ (al_blockSize ciph) rand). injection H as <-. cbn [pb_type pb_headers pb_bytes].
      split; [exact I|]. split; [symmetry; apply take_drop|]. split; [rewrite zlen_takeZ; lia|]. split; [reflexivity|]. split; [reflexivity|].
      exists (deriveKey P ciph password (takeZ 8 (takeZ (al_blockSize ciph) rand))), enc, dec. split; [exact PK|]. split; [exact NC | reflexivity].
    - intros (name & ks & bs & iv & rest & I & -> & LI & ET & EH & key & enc & dec & PK & NC & EB). destruct (in_name _ _ _ _ I) as (_ & BK & _ & RB & RK).
      unfold encryptPEMBlock. rewrite BK. unfold algoOf. cbn [al_blockSize al_cipher al_name al_keySize]. rewrite zlen_app, LI. pose proof (zlen_nonneg rest).
      replace (bs + zlen rest <? bs) with false by lia. rewrite takeZ_app by congruence. cbv zeta.
      replace (deriveKey P (mkAlgo alg name ks bs) password (takeZ 8 iv)) with key.
      2: { apply (key_unique P password (firstn 8 iv) ks); [exact PK|]. rewrite (takeZ_firstn 8). apply (derive_key P password _ SZ (mkAlgo alg name ks bs)). cbn [al_keySize]. lia. }
      rewrite NC. destruct b as [t h d]. cbn [pb_type pb_headers pb_bytes] in *. cbv zeta in EB. subst. reflexivity.
  Qed.
  Lemma pad_mod (bs : Z) (data : bytes) : 0 < bs -> let pad := bs - zlen data mod bs in 1 <= pad <= bs /\ zlen (data ++ repeat (z2b pad) (Z.to_nat pad)) = bs * (zlen data / bs + 1).
  Proof.
    intros B pad. pose proof (Z.mod_pos_bound (zlen data) bs B). split; [unfold pad; lia|].
    rewrite zlen_app. unfold zlen at 2. rewrite repeat_length, Z2Nat.id by (unfold pad; lia). unfold pad. pose proof (Z.div_mod (zlen data) bs). lia.
  Qed.
End Pem.
