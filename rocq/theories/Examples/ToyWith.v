(** The toy files are APKs in the sense of the specification. *)
From Coq Require Import Lia.
From Verif.Model Require Import Bytes Env.
From Verif.Spec Require Import Encoding ApkLayout Digests Entries Verified.
From Verif.Proofs Require Import BytesFacts.
From Verif.Examples Require Import Toy ToyApk.

Lemma toy_eocd_len s o : zlen (toy_eocd s o []) = 22.
Proof. reflexivity. Qed.
Lemma toy_with es : Forall entry_fits es -> (forall before id, es = before ++ [(id, [])] -> id = id_padding) ->
  zlen (enc_entries es) + 24 <= 1000000 ->
  apk_with (toy_file es) es toy_sections.
Proof.
  intros F Pd Le. set (pairs := enc_entries es) in *.
  assert (Lb : zlen (signing_block pairs) = zlen pairs + 32).
  { unfold signing_block, le64. rewrite !zlen_app, !le_enc_zlen. change (zlen apk_sig_block_magic) with 16. lia. }
  set (rec := toy_eocd (zlen toy_cd) (zlen toy_before + zlen (signing_block pairs)) []).
  assert (Lr : zlen rec = 22) by reflexivity.
  assert (Lc : zlen toy_cd = 7) by reflexivity. assert (Lf : zlen toy_before = 11) by reflexivity. pose proof (zlen_nonneg pairs) as Np.
  exists toy_before, pairs, toy_cd, rec. split; [|split].
  - split; [reflexivity|]. split; [lia|]. split; [discriminate|]. split; [|split].
    + exists (toy_before ++ signing_block pairs ++ toy_cd), (zeros 8), []. split; [unfold toy_file, toy_apk; rewrite <- !app_assoc; reflexivity|]. split; [reflexivity|].
      split; [unfold rec, toy_eocd; rewrite !zlen_app; reflexivity|]. split; [reflexivity|]. split; [unfold zlen; cbn; lia|]. unfold is_uint32. rewrite zlen_app. lia.
    + intros off' s c r (pre & mid & comment & Q & <- & Qr & Lm & Lco & _).
      assert (X : zlen (toy_file es) = zlen (toy_before ++ signing_block pairs ++ toy_cd) + 22).
      { unfold toy_file, toy_apk. fold pairs. fold rec. rewrite !zlen_app. lia. }
      rewrite Q, zlen_app in X. assert (22 <= zlen r); [|lia].
      rewrite Qr. unfold le32. rewrite !zlen_app, !le_enc_zlen. pose proof (zlen_nonneg comment). lia.
    + intros (pre & post & Q & Lp).
      set (x := toy_before ++ le64 (zlen pairs + 24) ++ pairs ++ le64 (zlen pairs + 24) ++ takeZ 3 apk_sig_block_magic).
      assert (Ex : toy_before ++ signing_block pairs ++ toy_cd = x ++ (dropZ 3 apk_sig_block_magic ++ toy_cd)).
      { unfold x, signing_block. rewrite <- (take_drop 3 apk_sig_block_magic) at 1. rewrite <- !app_assoc. reflexivity. }
      assert (Q2 : x ++ ((dropZ 3 apk_sig_block_magic ++ toy_cd) ++ rec) = pre ++ le32 117853008 ++ post).
      { rewrite <- Q. unfold toy_file, toy_apk. fold pairs. fold rec. rewrite app_assoc, <- Ex. rewrite <- !app_assoc. reflexivity. }
      rewrite Ex in Lp. rewrite zlen_app in Lp. change (zlen (dropZ 3 apk_sig_block_magic ++ toy_cd)) with 20 in Lp.
      apply app_take_eq in Q2 as [_ Q2]; [|lia]. apply (f_equal (takeZ 4)) in Q2. rewrite (takeZ_app (le32 117853008)) in Q2 by reflexivity.
      rewrite <- app_assoc in Q2. vm_compute in Q2. discriminate.
  - split; [reflexivity|]. split; assumption.
  - exists (toy_eocd (zlen toy_cd) (zlen toy_before) []). split; [|reflexivity].
    exists (le32 0x06054b50 ++ zeros 8 ++ le32 (zlen toy_cd)), (le32 (zlen toy_before + zlen (signing_block pairs))), (le_enc 2 0).
    split; [unfold rec, toy_eocd; rewrite <- !app_assoc; reflexivity|]. split; [reflexivity|]. split; [unfold le32; now rewrite le_enc_zlen|].
    unfold toy_eocd. rewrite <- !app_assoc. reflexivity.
Qed.
