(** Lemmas about Model/Signer.v: the shared parts of v2 and v3 signer verification. *)
From Coq Require Import String.
From Coq Require Import Lia.
From Verif.Model Require Import Bytes ApiLevel Env Utils Result Signer.
From Verif.Spec Require Import Encoding Algorithms Signer.
From Verif.Proofs Require Import BytesFacts UtilsFacts.

(** How results evolve: everything is only appended to. *)
Definition ext (r r' : core) : Prop :=
  (exists c, certs r' = certs r ++ c) /\ signingLineage r' = signingLineage r /\
  (exists w, warnings r' = warnings r ++ w) /\ (exists e, errors r' = errors r ++ e).
Definition worse (r r' : core) : Prop := ext r r' /\ errors r' <> errors r.
Definition quiet (r r' : core) : Prop :=
  exists w, r' = mkCore (certs r) (signingLineage r) (warnings r ++ w) (errors r).

Lemma app_self {A} (l e : list A) : l ++ e = l -> e = [].
Proof. intro H. rewrite <- (app_nil_r l) in H at 2. now apply app_inv_head in H. Qed.

Lemma ext_refl r : ext r r.
Proof. repeat split; exists []; now rewrite app_nil_r. Qed.
Lemma ext_trans a b c : ext a b -> ext b c -> ext a c.
Proof.
  intros ((x1 & A1) & A2 & (x3 & A3) & (x4 & A4)) ((y1 & B1) & B2 & (y3 & B3) & (y4 & B4)).
  repeat split; [exists (x1 ++ y1) | congruence | exists (x3 ++ y3) | exists (x4 ++ y4)];
  rewrite app_assoc; congruence.
Qed.
Lemma ext_errors_mid a b c : ext a b -> ext b c -> errors c = errors a -> errors b = errors a /\ errors c = errors b.
Proof.
  intros (_ & _ & _ & (x & A)) (_ & _ & _ & (y & B)) H. rewrite B, A, <- app_assoc in H.
  apply app_self, app_eq_nil in H as [-> ->]. rewrite app_nil_r in *. split; congruence.
Qed.
Lemma quiet_ext r r' : quiet r r' -> ext r r'.
Proof. intros (w & ->). repeat split; cbn; [exists [] | exists w | exists []]; now rewrite ?app_nil_r. Qed.
Lemma quiet_errors r r' : quiet r r' -> errors r' = errors r.
Proof. now intros (w & ->). Qed.
Lemma quiet_refl r : quiet r r.
Proof. exists []. rewrite app_nil_r. now destruct r. Qed.
Lemma quiet_trans a b c : quiet a b -> quiet b c -> quiet a c.
Proof. intros (w & ->) (w' & ->). exists (w ++ w'). cbn. now rewrite app_assoc. Qed.
Lemma worse_trans_l a b c : ext a b -> worse b c -> worse a c.
Proof.
  intros E [E' N]. split; [eapply ext_trans; eassumption|]. intro H. apply N.
  now apply (ext_errors_mid a b c) in H.
Qed.
Lemma worse_trans_r a b c : worse a b -> ext b c -> worse a c.
Proof.
  intros [E N] E'. split; [eapply ext_trans; eassumption|]. intro H. apply N.
  now apply (ext_errors_mid a b c) in H.
Qed.
Lemma worse_ext r r' : worse r r' -> ext r r'.
Proof. now intros [? _]. Qed.
Lemma addError_worse r e : worse r (addError r e).
Proof.
  unfold addError. split.
  - repeat split; cbn; [exists []; now rewrite app_nil_r | exists []; now rewrite app_nil_r | eexists; reflexivity].
  - cbn. intro H. apply app_self in H. discriminate.
Qed.
Lemma addError_ext r e : ext r (addError r e).
Proof. apply addError_worse. Qed.
Lemma addWarning_quiet r w : quiet r (addWarning r w).
Proof. now exists [Warn w]. Qed.
#[export] Hint Resolve ext_refl quiet_refl addError_worse addError_ext addWarning_quiet : core.

Lemma improves_app before x a : improves (before ++ [x]) a -> improves before a.
Proof. intros (k & K & H). exists k. split; [assumption|]. intros. eapply H; [|eassumption]. apply in_or_app. eauto. Qed.

(** invariant of the signature loop *)
Definition sig_inv (done : list (Z * bytes)) (c : sctx) : Prop :=
  signaturesAlgos c = map fst done /\
  ((bestAlgo c = -1 /\ forall a f k, In (a, f) done -> ~ has_kind a k) \/
   (exists field, strongest done (bestAlgo c) field /\ holds_value field (bestAlgoSignature c))).

Lemma minus1_unsupported k : ~ has_kind (-1) k.
Proof. intros [m H]. cbv in H. intuition discriminate. Qed.

Lemma sig_inv_kind done c : sig_inv done c -> bestAlgo c <> -1 -> exists k, has_kind (bestAlgo c) k.
Proof.
  intros [_ [[H _]|(field & (b & a & k & _ & K & _) & _)]] N; [contradiction | eauto].
Qed.

Lemma strongest_skip_unsupported rs a f x : strongest rs a f -> ~ supported (fst x) -> strongest (rs ++ [x]) a f.
Proof.
  intros (b & af & k & -> & K & Hb & Ha) N. exists b, (af ++ [x]), k. repeat split; try assumption.
  - now rewrite <- app_assoc.
  - intros a' f' k' H K'. apply in_app_or in H as [H|[->|[]]]; [eauto|]. exfalso. apply N.
    eapply kind_supported; eassumption.
Qed.

Lemma strongest_skip_weaker rs a f k x k' : strongest rs a f -> has_kind a k -> has_kind (fst x) k' ->
  strength k' <= strength k -> strongest (rs ++ [x]) a f.
Proof.
  intros (b & af & k0 & -> & K & Hb & Ha) K0 Kx L. exists b, (af ++ [x]), k0.
  assert (k0 = k) by (eapply has_kind_fun; eassumption). subst.
  repeat split; try assumption.
  - now rewrite <- app_assoc.
  - intros a' f' k'' H K'. apply in_app_or in H as [H|[->|[]]]; [eauto|].
    cbn in Kx. assert (k'' = k') by (eapply has_kind_fun; eassumption). now subst.
Qed.

Lemma strongest_improve rs a f : improves rs a -> strongest (rs ++ [(a, f)]) a f.
Proof.
  intros (k & K & H). exists rs, [], k. repeat split; try assumption. intros ? ? ? [].
Qed.

Lemma strongest_bounds rs a f k : strongest rs a f -> has_kind a k ->
  (forall a' f' k', In (a', f') rs -> has_kind a' k' -> strength k' <= strength k) .
Proof.
  intros (b & af & k0 & -> & K & Hb & Ha) K0 a' f' k' H K'.
  assert (k0 = k) by (eapply has_kind_fun; eassumption). subst.
  apply in_app_or in H as [H|[H|H]].
  - apply Z.lt_le_incl. eauto.
  - inversion H; subst. assert (k' = k) by (eapply has_kind_fun; eassumption). subst. lia.
  - eauto.
Qed.

Lemma strongest_in rs a f : strongest rs a f -> In (a, f) rs.
Proof. intros (b & af & k & -> & _). apply in_or_app. right. now left. Qed.

(** one record decoded *)
Lemma rec_decode s algo s' : 8 <= zlen s -> read_i32 s = Some (algo, s') ->
  s = enc_rec (algo, s') /\ is_int32 algo /\ 4 <= zlen s'.
Proof.
  intros L H. apply read_i32_inv in H as [-> R]. rewrite zlen_app, le_enc_zlen in L.
  unfold enc_rec, le32, is_int32, min_int32, max_int32 in *. repeat split; cbn; try lia.
Qed.

Lemma rec_encode a f : is_int32 a -> read_i32 (enc_rec (a, f)) = Some (a, f).
Proof. intro. unfold enc_rec, le32. cbn. apply read_i32_enc_id. assumption. Qed.

Lemma enc_rec_len a f : zlen (enc_rec (a, f)) = 4 + zlen f.
Proof. unfold enc_rec, le32. rewrite zlen_app, le_enc_zlen. reflexivity. Qed.

Lemma enc_recs_inj rs : forall rs', Forall (fun r => is_int32 (fst r)) rs -> Forall (fun r => is_int32 (fst r)) rs' ->
  map enc_rec rs = map enc_rec rs' -> rs = rs'.
Proof.
  induction rs as [|[a f] rs IH]; intros [|[a' f'] rs'] F F' H; try discriminate; [reflexivity|].
  inversion F; inversion F'; subst. cbn [fst] in *. cbn [map] in H.
  apply (f_equal (fun l => match l with [] => [] | x :: _ => x end)) in H as H1. cbv beta iota in H1.
  apply (f_equal (@tl _)) in H. cbn [tl] in H. f_equal; [|now apply IH].
  pose proof (rec_encode a f ltac:(assumption)) as A. rewrite H1 in A.
  rewrite rec_encode in A by assumption. congruence.
Qed.

Definition rec_shape (r : Z * bytes) : Prop := is_int32 (fst r) /\ 4 <= zlen (snd r).

(** What one well-formed record does to the context. *)
Definition sig_step (c : sctx) (a : Z) (f : bytes) : sctx :=
  let algos := signaturesAlgos c ++ [a] in
  if negb (isSupported a) then mkCtx (bestAlgo c) (bestAlgoSignature c) algos
  else if match (if bestAlgo c =? -1 then Ret true else d <- compareAlgos a (bestAlgo c) ;; Ret (0 <? d)) with
          | Ret b => b | Panic _ => false end
       then mkCtx a (match getLengthPrefixedSlice f with Some (s, _) => s | None => bestAlgoSignature c end) algos
       else mkCtx (bestAlgo c) (bestAlgoSignature c) algos.

Lemma better_cases done c a k : sig_inv done c -> has_kind a k ->
  exists b, (if bestAlgo c =? -1 then Ret true else d <- compareAlgos a (bestAlgo c) ;; Ret (0 <? d)) = Ret b /\
  (b = true <-> improves done a).
Proof.
  intros [Ha [[H N]|(field & S & V)]] K.
  - rewrite H. cbn. exists true. split; [reflexivity|]. split; [|reflexivity]. intros _.
    exists k. split; [assumption|]. intros a' f' k' I K'. exfalso. eapply N; eassumption.
  - pose proof S as (b & af & k0 & _ & K0 & _).
    assert (NB : bestAlgo c <> -1) by (intro H; rewrite H in K0; eapply minus1_unsupported; eassumption).
    destruct (Z.eqb_spec (bestAlgo c) (-1)); [contradiction|].
    destruct (compareAlgos_strength a (bestAlgo c) k k0 K K0) as (d & -> & D1 & _).
    cbn [obind]. exists (0 <? d). split; [reflexivity|].
    destruct (Z.ltb_spec 0 d); (split; [intro X; try discriminate X|intro X; try reflexivity]).
    + exists k. split; [assumption|]. intros a' f' k' I K'.
      pose proof (strongest_bounds _ _ _ _ S K0 a' f' k' I K'). lia.
    + destruct X as (k2 & K2 & X). assert (k2 = k) by (eapply has_kind_fun; eassumption). subst k2.
      pose proof (X _ _ _ (strongest_in _ _ _ S) K0). lia.
Qed.

Lemma improves_weaker done a k c field : has_kind a k -> strongest done c field -> ~ improves done a ->
  forall kc, has_kind c kc -> strength k <= strength kc.
Proof.
  intros K S N kc Kc. destruct (Z.le_gt_cases (strength k) (strength kc)); [assumption|].
  exfalso. apply N. exists k. split; [assumption|]. intros a' f' k' I K'.
  pose proof (strongest_bounds _ _ _ _ S Kc a' f' k' I K'). lia.
Qed.

Lemma sig_step_inv done c a f : sig_inv done c -> (improves done a -> exists s, holds_value f s) ->
  sig_inv (done ++ [(a, f)]) (sig_step c a f).
Proof.
  intros I V. unfold sig_step. destruct (isSupported a) eqn:Sup; cbn [negb].
  - apply isSupported_iff, supported_kind in Sup as [k K].
    destruct (better_cases done c a k I K) as (b & -> & B).
    destruct b.
    + destruct (V (proj1 B eq_refl)) as (s & j & -> & F). rewrite getLP_enc by assumption.
      split; [cbn; destruct I as [-> _]; now rewrite map_app|]. right. exists (lp s ++ j).
      split; [apply strongest_improve, B; reflexivity|]. exists j. now split.
    + assert (N : ~ improves done a) by (intro X; apply B in X; discriminate).
      destruct I as [Ha I]. split; [cbn; rewrite Ha; now rewrite map_app|]. cbn [bestAlgo bestAlgoSignature].
      destruct I as [[H NN]|(field & S & HV)].
      * exfalso. apply N. exists k. split; [assumption|]. intros. exfalso. eapply NN; eassumption.
      * right. exists field. split; [|assumption]. pose proof S as (x & y & k0 & _ & K0 & _).
        eapply strongest_skip_weaker; [eassumption | exact K0 | exact K |].
        eapply improves_weaker; eassumption.
  - apply isSupported_false in Sup. destruct I as [Ha I]. split; [cbn; rewrite Ha; now rewrite map_app|].
    cbn [bestAlgo bestAlgoSignature]. destruct I as [[H NN]|(field & S & HV)].
    + left. split; [assumption|]. intros a' f' k I K. apply in_app_or in I as [I|[E|[]]]; [eapply NN; eassumption|].
      inversion E; subst. apply Sup. eapply kind_supported; eassumption.
    + right. exists field. split; [|assumption]. now apply strongest_skip_unsupported.
Qed.

(** Success of the loop. *)
Lemma sigLoop_true rs : forall done c r,
  sig_inv done c -> Forall rec_shape rs ->
  (forall before a f after, rs = before ++ (a, f) :: after -> improves (done ++ before) a -> exists s, holds_value f s) ->
  exists c' r', parseSignaturesLoop (map enc_rec rs) true c r = Ret (c', r', true) /\
                sig_inv (done ++ rs) c' /\ quiet r r'.
Proof.
  induction rs as [|[a f] rs IH]; intros done c r I F V.
  - cbn. exists c, r. rewrite app_nil_r. auto.
  - inversion F as [|? ? [F1 F2] F']; subst. cbn in F1, F2.
    cbn [map parseSignaturesLoop]. rewrite enc_rec_len.
    destruct (Z.ltb_spec (4 + zlen f) 8); [lia|]. rewrite rec_encode by assumption.
    pose proof (V [] a f rs eq_refl) as V0. rewrite app_nil_r in V0.
    pose proof (sig_step_inv done c a f I V0) as I'.
    assert (V' : forall before a0 f0 after, rs = before ++ (a0, f0) :: after ->
                   improves ((done ++ [(a, f)]) ++ before) a0 -> exists s, holds_value f0 s).
    { intros b a0 f0 af E Im. apply (V ((a, f) :: b) a0 f0 af); [now rewrite E|]. now rewrite <- app_assoc in Im. }
    replace (done ++ (a, f) :: rs) with ((done ++ [(a, f)]) ++ rs) by (now rewrite <- app_assoc).
    unfold sig_step in I'. cbn [signaturesAlgos bestAlgo bestAlgoSignature].
    destruct (isSupported a) eqn:Sup; cbn [negb] in *.
    + apply isSupported_iff, supported_kind in Sup as [k K].
      destruct (better_cases done c a k I K) as (b & Eb & B). rewrite Eb in *. cbn [obind].
      destruct b.
      * destruct (V0 (proj1 B eq_refl)) as (s & j & -> & Fs).
        rewrite getLP_enc in * by assumption. apply IH; assumption.
      * apply IH; assumption.
    + destruct (IH _ _ (addWarning r "signature is using unsupported algorithm") I' F' V')
        as (c' & r' & -> & Hi & Q).
      exists c', r'. split; [reflexivity|]. split; [assumption|]. eapply quiet_trans; eauto.
Qed.

(** In general the loop never panics; failure adds an error; success means well-formed records. *)
Lemma sigLoop_gen items ok : forall done c r,
  sig_inv done c ->
  exists c' r' b, parseSignaturesLoop items ok c r = Ret (c', r', b) /\ ext r r' /\
  (b = false -> worse r r') /\
  (b = true -> ok = true /\ exists rs, items = map enc_rec rs /\ Forall rec_shape rs /\
     (forall before a f after, rs = before ++ (a, f) :: after -> improves (done ++ before) a -> exists s, holds_value f s)).
Proof.
  induction items as [|s items IH]; intros done c r I; cbn [parseSignaturesLoop].
  - destruct ok.
    + exists c, r, true. split; [reflexivity|]. split; [auto|]. split; [discriminate|].
      intros _. split; [reflexivity|]. exists []. split; [reflexivity|]. split; [constructor|].
      intros b a f af E. destruct b; discriminate.
    + exists c, (addError r "failed to parse signature record"), false. split; [reflexivity|].
      split; [auto|]. split; [auto | discriminate].
  - destruct (Z.ltb_spec (zlen s) 8).
    { eexists _, _, false. split; [reflexivity|]. split; [auto|]. split; [auto|discriminate]. }
    destruct (read_i32 s) as [[a f]|] eqn:R.
    2:{ apply read_i32_none in R. lia. }
    apply rec_decode in R as (-> & Ra & Rf); [|assumption].
    assert (Build : forall c1 r1 w, sig_inv (done ++ [(a, f)]) c1 -> quiet r r1 ->
       (improves done a -> exists s, holds_value f s) ->
       w = parseSignaturesLoop items ok c1 r1 ->
       exists c' r' b, w = Ret (c', r', b) /\ ext r r' /\ (b = false -> worse r r') /\
         (b = true -> ok = true /\ exists rs, enc_rec (a, f) :: items = map enc_rec rs /\ Forall rec_shape rs /\
           (forall before a0 f0 after, rs = before ++ (a0, f0) :: after -> improves (done ++ before) a0 -> exists s, holds_value f0 s))).
    { intros c1 r1 w I1 Q V ->. destruct (IH _ _ r1 I1) as (c' & r' & b & -> & X & W & T).
      exists c', r', b. split; [reflexivity|].
      split; [eapply ext_trans; [apply quiet_ext; exact Q | exact X]|].
      split; [intro Hb; eapply worse_trans_l; [apply quiet_ext; exact Q | auto]|].
      intro Hb. destruct (T Hb) as (O & rs & -> & Sh & Im). split; [assumption|].
      exists ((a, f) :: rs). split; [reflexivity|]. split; [constructor; [split; assumption | assumption]|].
      intros before a0 f0 after E Imp. destruct before as [|x before].
      - inversion E; subst. rewrite app_nil_r in Imp. auto.
      - inversion E; subst. apply (Im before a0 f0 after eq_refl). now rewrite <- app_assoc. }
    cbn [signaturesAlgos bestAlgo bestAlgoSignature].
    destruct (isSupported a) eqn:Sup; cbn [negb].
    + pose proof Sup as Sup'. apply isSupported_iff, supported_kind in Sup as [k K].
      destruct (better_cases done c a k I K) as (b & Eb & B). rewrite Eb in *. cbn [obind].
      destruct b.
      * destruct (getLengthPrefixedSlice f) as [[sb j]|] eqn:G.
        -- assert (V : improves done a -> exists s, holds_value f s).
           { intros _. apply getLP_inv in G as [-> Fs]. exists sb, j. now split. }
           eapply Build; [|apply quiet_refl | exact V | reflexivity].
           pose proof (sig_step_inv done c a f I V) as X. unfold sig_step in X.
           rewrite Sup', Eb, G in X. exact X.
        -- eexists _, _, false. split; [reflexivity|]. split; [auto|]. split; [auto|discriminate].
      * eapply Build; [|apply quiet_refl | | reflexivity].
        -- assert (V : improves done a -> exists s, holds_value f s) by (intro X; apply B in X; discriminate).
           pose proof (sig_step_inv done c a f I V) as X. unfold sig_step in X. rewrite Sup', Eb in X. exact X.
        -- intro X. apply B in X. discriminate.
    + eapply Build; [| apply addWarning_quiet | | reflexivity].
      * assert (V : improves done a -> exists s, holds_value f s).
        { intros (k & K & _). exfalso. apply isSupported_false in Sup. apply Sup. eapply kind_supported; eassumption. }
        pose proof (sig_step_inv done c a f I V) as X. unfold sig_step in X. rewrite Sup in X. exact X.
      * intros (k & K & _). exfalso. apply isSupported_false in Sup. apply Sup. eapply kind_supported; eassumption.
Qed.

Lemma sig_inv0 : sig_inv [] ctx0.
Proof. split; [reflexivity|]. left. split; [reflexivity | intros ? ? ? []]. Qed.

Lemma records_shape rs : Forall rec_ok rs <-> Forall rec_shape rs /\ Forall fits (map enc_rec rs).
Proof.
  rewrite Forall_map. split.
  - intro H. split; (eapply Forall_impl; [|exact H]); intros x (A & B & C); [now split | assumption].
  - intros [A B]. apply Forall_forall. intros x Hx. rewrite Forall_forall in A, B.
    destruct (A x Hx). split; [assumption|]. split; [assumption | now apply B].
Qed.

Lemma strongest_det rs a f a' f' : strongest rs a f -> strongest rs a' f' -> a = a' /\ f = f'.
Proof.
  intros (b & af & k & E & K & Hb & Ha) (b' & af' & k' & E' & K' & Hb' & Ha').
  rewrite E in E'. clear E. revert b' E' Hb'. induction b as [|x b IH]; intros b' E' Hb'.
  - destruct b' as [|y b']; inversion E'; subst.
    + auto.
    + exfalso. pose proof (Hb' _ _ _ (or_introl eq_refl) K).
      assert (I : In (a', f') (b' ++ (a', f') :: af')) by (apply in_or_app; right; now left).
      pose proof (Ha _ _ _ I K'). lia.
  - destruct b' as [|y b']; inversion E'; subst.
    + exfalso. pose proof (Hb _ _ _ (or_introl eq_refl) K').
      assert (I : In (a, f) (b ++ (a, f) :: af)) by (apply in_or_app; right; now left).
      pose proof (Ha' _ _ _ I K). lia.
    + apply (IH (fun a0 f0 k0 H => Hb a0 f0 k0 (or_intror H)) b' H1 (fun a0 f0 k0 H => Hb' a0 f0 k0 (or_intror H))).
Qed.

(** parseSignatures decides [signature_list]. *)
Theorem parseSignatures_spec slice r :
  exists c r' b, parseSignatures slice r = Ret (c, r', b) /\ ext r r' /\
    (b = false -> worse r r' /\ forall algos algo sig, ~ signature_list slice algos algo sig) /\
    (b = true -> quiet r r' /\ signature_list slice (signaturesAlgos c) (bestAlgo c) (bestAlgoSignature c)).
Proof.
  unfold parseSignatures. destruct (lpItems slice) as [items ok] eqn:L.
  destruct (sigLoop_gen items ok [] ctx0 r sig_inv0) as (c & r1 & b & E & X & W & T).
  rewrite E. cbn [obind]. destruct b.
  - destruct (T eq_refl) as (-> & rs & -> & Sh & Im). cbn [app] in Im.
    apply lpItems_inv in L as [-> Fi].
    destruct (sigLoop_true rs [] ctx0 r sig_inv0 Sh Im) as (c2 & r2 & E2 & Inv & Q).
    rewrite E in E2. inversion E2; subst c2 r2; clear E2. cbn [negb].
    cbn [app] in Inv. destruct (Z.eqb_spec (bestAlgo c) (-1)) as [H|H].
    + eexists _, _, false. split; [reflexivity|].
      split; [eapply ext_trans; [exact X | auto]|]. split; [|discriminate]. intros _.
      split; [eapply worse_trans_l; [exact X | auto]|].
      intros algos algo sig (rs' & field & [Es Fs] & _ & St & _).
      apply records_shape in Fs as [Sh' Fs].
      apply lps_inj in Es; [|assumption|assumption].
      assert (rs' = rs).
      { symmetry. apply enc_recs_inj; [| |exact Es]; (eapply Forall_impl; [|eassumption]); now intros ? []. }
      subst rs'. destruct Inv as [_ [[_ N]|(f2 & S2 & _)]].
      * pose proof St as (x & y & k & -> & K & _). eapply N; [|exact K]. apply in_or_app; right; now left.
      * rewrite H in S2. destruct S2 as (x & y & k & _ & K & _). eapply minus1_unsupported; eassumption.
    + eexists _, _, true. split; [reflexivity|]. split; [assumption|]. split; [discriminate|]. intros _.
      split; [assumption|]. destruct Inv as [Ha [[H' _]|(field & St & V)]]; [contradiction|].
      exists rs, field. split; [split; [reflexivity | now apply records_shape]|].
      split; [assumption|]. split; [assumption|]. split; assumption.
  - cbn [negb]. exists c, r1, false. split; [reflexivity|]. split; [assumption|]. split; [|discriminate].
    intros _. split; [auto|]. intros algos algo sig (rs & field & [Es Fs] & _ & St & V & Im).
    apply records_shape in Fs as [Sh Fi]. subst slice. rewrite lpItems_enc in L by assumption.
    inversion L; subst items ok.
    destruct (sigLoop_true rs [] ctx0 r sig_inv0 Sh Im) as (c2 & r2 & E2 & _). rewrite E in E2. discriminate.
Qed.

(** parsePublicKey *)
Lemma parsePublicKey_spec E c pk data r r' b :
  parsePublicKey E c pk data r = Ret (r', b) ->
  (b = false /\ worse r r' /\ forall key, e_pkix_andr E pk = Some key ->
                 ~ sig_valid E key (bestAlgo c) data (bestAlgoSignature c)) \/
  (b = true /\ r' = r /\ exists key, e_pkix_andr E pk = Some key /\ sig_valid E key (bestAlgo c) data (bestAlgoSignature c)).
Proof.
  unfold parsePublicKey. destruct (e_pkix_andr E pk) as [key|].
  - intro H. apply obind_ret in H as (v & V & H). destruct v; inversion H; subst; clear H.
    + right. split; [reflexivity|]. split; [reflexivity|]. exists key. split; [reflexivity|].
      now apply verifySignature_true.
    + left. split; [reflexivity|]. split; [auto|]. intros key' K. inversion K; subst.
      intro S. apply verifySignature_true in S. congruence.
  - intro H. inversion H; subst. left. split; [reflexivity|]. split; [auto|]. discriminate.
Qed.

Lemma parsePublicKey_ok E c pk data r key :
  e_pkix_andr E pk = Some key -> sig_valid E key (bestAlgo c) data (bestAlgoSignature c) ->
  parsePublicKey E c pk data r = Ret (r, true).
Proof.
  intros K V. unfold parsePublicKey. rewrite K. apply verifySignature_true in V. now rewrite V.
Qed.

(** parseCertificates *)
Definition open_chain (base : list (list cert)) (chain : list cert) : list (list cert) :=
  match chain with [] => base | _ => base ++ [chain] end.

Lemma certAppend_open r chain x base : certs r = open_chain base chain ->
  certAppend r chain x =
  (mkCore (open_chain base (chain ++ [x])) (signingLineage r) (warnings r) (errors r), chain ++ [x]).
Proof.
  intro H. unfold certAppend. destruct chain as [|y chain]; cbn in *.
  - now rewrite H.
  - rewrite H. now rewrite removelast_last.
Qed.

Lemma certLoop_spec E items ok : forall base chain r, certs r = open_chain base chain ->
  exists chain' r' b, parseCertificatesLoop E items ok chain r = (chain ++ chain', r', b) /\
    certs r' = open_chain base (chain ++ chain') /\
    signingLineage r' = signingLineage r /\ warnings r' = warnings r /\
    (b = true -> ok = true /\ Forall2 (fun e c => e_cert_andr E e = Some c) items chain' /\ errors r' = errors r) /\
    (b = false -> (exists e, errors r' = errors r ++ [e]) /\
                  ~ (ok = true /\ exists cs, Forall2 (fun e c => e_cert_andr E e = Some c) items cs)).
Proof.
  induction items as [|e items IH]; intros base chain r H; cbn [parseCertificatesLoop].
  - destruct ok.
    + exists [], r, true. rewrite app_nil_r. repeat split; try assumption; try discriminate. constructor.
    + eexists [], _, false. rewrite app_nil_r. split; [reflexivity|]. cbn.
      split; [assumption|]. split; [reflexivity|]. split; [reflexivity|]. split; [discriminate|].
      intros _. split; [eexists; reflexivity|]. intros [X _]. discriminate.
  - destruct (e_cert_andr E e) as [x|] eqn:Ec.
    + rewrite (certAppend_open _ _ _ base) by assumption.
      set (r1 := mkCore _ _ _ _).
      destruct (IH base (chain ++ [x]) r1 eq_refl) as (chain' & r' & b & -> & C & L & W & T & F).
      exists (x :: chain'), r', b. rewrite <- app_assoc in *. cbn in *.
      repeat split; try assumption; try (apply T; assumption).
      * constructor; [assumption | now apply T].
      * apply F; assumption.
      * intros [Ho (cs & H2)]. apply F; [assumption|]. split; [assumption|].
        inversion H2; subst. eauto.
    + eexists [], _, false. rewrite app_nil_r. split; [reflexivity|]. cbn.
      split; [assumption|]. split; [reflexivity|]. split; [reflexivity|]. split; [discriminate|].
      intros _. split; [eexists; reflexivity|]. intros [_ (cs & X)]. inversion X; congruence.
Qed.

Lemma cert_list_det E slice c1 c2 : cert_list E slice c1 -> cert_list E slice c2 -> c1 = c2.
Proof.
  intros (e1 & -> & F1 & A1) (e2 & Es & F2 & A2). apply lps_inj in Es; [|assumption|assumption]. subst e2.
  clear F1 F2. revert c2 A2. induction A1; intros c2 A2; inversion A2; subst; [reflexivity|].
  f_equal; [congruence | auto].
Qed.

Lemma parseCertificates_spec E slice pk r :
  exists r' m, parseCertificates E slice pk r = (r', m) /\
  ((m = None /\ worse r r' /\ ~ exists main others, cert_list E slice (main :: others) /\ c_spki main = pk) \/
   (exists main others, m = Some main /\ cert_list E slice (main :: others) /\ c_spki main = pk /\
      r' = mkCore (certs r ++ [main :: others]) (signingLineage r) (warnings r) (errors r))).
Proof.
  unfold parseCertificates. destruct (lpItems slice) as [items ok] eqn:L.
  destruct (certLoop_spec E items ok (certs r) [] r eq_refl) as (chain & r1 & b & -> & C & Li & W & T & F).
  cbn [app] in *.
  assert (X1 : ext r r1).
  { split; [exists (match chain with [] => [] | _ => [chain] end); rewrite C; destruct chain; cbn; [now rewrite app_nil_r | reflexivity]|].
    split; [assumption|]. split; [exists []; now rewrite app_nil_r|].
    destruct b.
    - destruct (T eq_refl) as (_ & _ & ->). exists []. now rewrite app_nil_r.
    - destruct (F eq_refl) as ((e & ->) & _). eexists; reflexivity. }
  destruct b; cbn [negb].
  - destruct (T eq_refl) as (-> & A & Er). apply lpItems_inv in L as [-> Fi].
    assert (CL : cert_list E (lps items) chain) by (exists items; now split).
    destruct chain as [|main others].
    + eexists _, None. split; [reflexivity|]. left. split; [reflexivity|].
      split; [eapply worse_trans_l; eauto|]. intros (main & others & X & _).
      pose proof (cert_list_det _ _ _ _ CL X). discriminate.
    + destruct (bytes_eqb (c_spki main) pk) eqn:Eq.
      * apply bytes_eqb_eq in Eq. eexists _, (Some main). split; [reflexivity|]. right. exists main, others.
        split; [reflexivity|]. split; [assumption|]. split; [assumption|].
        destruct r1; cbn in *. congruence.
      * apply bytes_eqb_neq in Eq. eexists _, None. split; [reflexivity|]. left. split; [reflexivity|].
        split; [eapply worse_trans_l; eauto|]. intros (m' & o' & X & Hk).
        pose proof (cert_list_det _ _ _ _ CL X) as D. inversion D; subst. contradiction.
  - destruct (F eq_refl) as ((e & Er) & N). eexists _, None. split; [reflexivity|]. left.
    split; [reflexivity|]. split.
    + split; [assumption|]. rewrite Er. intro H. apply app_self in H. discriminate.
    + intros (m' & o' & (encs & -> & Fe & X) & _). apply N.
      rewrite lpItems_enc in L by assumption. inversion L; subst. split; [reflexivity|]. eauto.
Qed.

(** parseDigests *)
Lemma zlist_eqb_eq a : forall b, zlist_eqb a b = true <-> a = b.
Proof.
  induction a as [|x a IH]; destruct b as [|y b]; cbn; split; intro H; try easy.
  - apply andb_prop in H as [H1 H2]. apply Z.eqb_eq in H1. apply IH in H2. congruence.
  - inversion H; subst. rewrite Z.eqb_refl. cbn. now apply IH.
Qed.

(** The value of the last record for [best], if any. *)
Definition last_value (best : Z) (cd0 : option bytes) (rs : list (Z * bytes)) (cd : option bytes) : Prop :=
  (cd = cd0 /\ forall f, ~ In (best, f) rs) \/
  (exists before field after d, rs = before ++ (best, field) :: after /\ holds_value field d /\ cd = Some d /\
     (forall f, ~ In (best, f) after)).

Lemma digLoop_spec items ok best : forall cd0 algos0 r,
  exists cd algos r' b, parseDigestsLoop items ok best cd0 algos0 r = (cd, algos, r', b) /\
  (b = true -> r' = r /\ ok = true /\ exists rs, items = map enc_rec rs /\ Forall rec_shape rs /\
      algos = algos0 ++ map fst rs /\ last_value best cd0 rs cd /\
      (forall f, In (best, f) rs -> exists s, holds_value f s)) /\
  (b = false -> (exists e, r' = addError r e) /\
      ~ (ok = true /\ exists rs, items = map enc_rec rs /\ Forall rec_shape rs /\
           (forall f, In (best, f) rs -> exists s, holds_value f s))).
Proof.
  induction items as [|s items IH]; intros cd0 algos0 r; cbn [parseDigestsLoop].
  - destruct ok.
    + exists cd0, algos0, r, true. split; [reflexivity|]. split; [|discriminate]. intros _.
      split; [reflexivity|]. split; [reflexivity|]. exists []. cbn. rewrite app_nil_r.
      split; [reflexivity|]. split; [constructor|]. split; [reflexivity|]. split; [left; split; [reflexivity | auto]|]. intros ? [].
    + eexists _, _, _, false. split; [reflexivity|]. split; [discriminate|]. intros _. split; [eauto|].
      intros [X _]. discriminate.
  - destruct (Z.ltb_spec (zlen s) 8).
    { eexists _, _, _, false. split; [reflexivity|]. split; [discriminate|]. intros _. split; [eauto|].
      intros (_ & rs & E & Sh & _). destruct rs as [|[a f] rs]; inversion E; subst.
      inversion Sh as [|? ? [_ S2]]; subst. cbn in S2. rewrite enc_rec_len in *. lia. }
    destruct (read_i32 s) as [[a f]|] eqn:R.
    2:{ apply read_i32_none in R. lia. }
    apply rec_decode in R as (-> & Ra & Rf); [|assumption].
    assert (HeadEq : forall rs, enc_rec (a, f) :: items = map enc_rec rs -> Forall rec_shape rs ->
                exists rs', rs = (a, f) :: rs' /\ items = map enc_rec rs' /\ Forall rec_shape rs').
    { intros [|[a' f'] rs] E Sh; [discriminate|]. inversion Sh as [|? ? [Sa Sf] Sh']; subst.
      pose proof (f_equal (hd []) E) as D2. pose proof (f_equal (@tl _) E) as E2. cbn [map hd tl] in D2, E2.
      exists rs. split; [|split; assumption]. cbn [fst] in Sa.
      pose proof (rec_encode a f Ra) as D. rewrite D2, rec_encode in D by assumption. congruence. }
    destruct (Z.eqb_spec a best) as [->|Na].
    + destruct (getLengthPrefixedSlice f) as [[d j]|] eqn:G.
      * apply getLP_inv in G as [-> Fd].
        destruct (IH (Some d) (algos0 ++ [best]) r) as (cd & algos & r' & b & -> & T & F).
        exists cd, algos, r', b. split; [reflexivity|]. split.
        -- intro Hb. destruct (T Hb) as (-> & -> & rs & -> & Sh & -> & LV & HV). split; [reflexivity|]. split; [reflexivity|].
           exists ((best, lp d ++ j) :: rs). split; [reflexivity|]. split; [constructor; [now split | assumption]|].
           split; [now rewrite <- app_assoc|]. split.
           ++ right. destruct LV as [[-> N]|(bf & fi & af & d' & -> & V & -> & N)].
              ** exists [], (lp d ++ j), rs, d. split; [reflexivity|]. split; [exists j; now split|]. auto.
              ** exists ((best, lp d ++ j) :: bf), fi, af, d'. auto.
           ++ intros f [X|X]; [inversion X; subst; exists d, j; now split | auto].
        -- intro Hb. destruct (F Hb) as (X & N). split; [assumption|]. intros (Ho & rs & E & Sh & HV).
           apply HeadEq in E as (rs' & -> & E & Sh'); [|assumption]. apply N. split; [assumption|].
           exists rs'. split; [assumption|]. split; [assumption|]. intros. apply HV. now right.
      * eexists _, _, _, false. split; [reflexivity|]. split; [discriminate|]. intros _. split; [eauto|].
        intros (Ho & rs & E & Sh & HV). apply HeadEq in E as (rs' & -> & E & Sh'); [|assumption].
        destruct (HV f (or_introl eq_refl)) as (v & j & -> & Fv). rewrite getLP_enc in G by assumption. discriminate.
    + destruct (IH cd0 (algos0 ++ [a]) r) as (cd & algos & r' & b & -> & T & F).
      exists cd, algos, r', b. split; [reflexivity|]. split.
      * intro Hb. destruct (T Hb) as (-> & -> & rs & -> & Sh & -> & LV & HV). split; [reflexivity|]. split; [reflexivity|].
        exists ((a, f) :: rs). split; [reflexivity|]. split; [constructor; [now split | assumption]|].
        split; [now rewrite <- app_assoc|]. split.
        -- destruct LV as [[-> N]|(bf & fi & af & d' & -> & V & -> & N)].
           ++ left. split; [reflexivity|]. intros f' [X|X]; [inversion X; contradiction | eapply N; eassumption].
           ++ right. exists ((a, f) :: bf), fi, af, d'. auto.
        -- intros f' [X|X]; [inversion X; contradiction | auto].
      * intro Hb. destruct (F Hb) as (X & N). split; [assumption|]. intros (Ho & rs & E & Sh & HV).
        apply HeadEq in E as (rs' & -> & E & Sh'); [|assumption]. apply N. split; [assumption|].
        exists rs'. split; [assumption|]. split; [assumption|]. intros. apply HV. now right.
Qed.

Lemma holds_value_det f a b : holds_value f a -> holds_value f b -> a = b.
Proof.
  intros (j & -> & F) (j' & E & F'). pose proof (getLP_enc a j F) as A. rewrite E in A.
  rewrite getLP_enc in A by assumption. congruence.
Qed.

(** digests agree with those of earlier signers *)
Definition digest_agrees (cds : digests) (k : Z) (d : bytes) : Prop :=
  forall p, zget k cds = Some p -> p = d.

Lemma parseDigests_spec slice c cds r k :
  has_kind (bestAlgo c) k -> In (bestAlgo c) (signaturesAlgos c) ->
  exists cds' r' b, parseDigests slice c cds r = Ret (cds', r', b) /\
  ((b = false /\ worse r r' /\
     ~ exists d, digest_list slice (signaturesAlgos c) (bestAlgo c) d /\ digest_agrees cds (kind_id k) d) \/
   (b = true /\ r' = r /\ exists d, digest_list slice (signaturesAlgos c) (bestAlgo c) d /\
      digest_agrees cds (kind_id k) d /\ cds' = zset (kind_id k) d cds)).
Proof.
  intros K In0. unfold parseDigests. destruct (lpItems slice) as [items ok] eqn:L.
  destruct (digLoop_spec items ok (bestAlgo c) None [] r) as (cd & algos & r1 & b & -> & T & F).
  destruct b; cbn [negb].
  - destruct (T eq_refl) as (-> & -> & rs & -> & Sh & -> & LV & HV). cbn [app].
    apply lpItems_inv in L as [-> Fi].
    assert (Rec : records_of (lps (map enc_rec rs)) rs) by (split; [reflexivity | now apply records_shape]).
    destruct (zlist_eqb (map fst rs) (signaturesAlgos c)) eqn:Eq; cbn [negb].
    + apply zlist_eqb_eq in Eq. rewrite (has_kind_type _ _ K). cbn [obind].
      destruct LV as [[-> N]|(bf & fi & af & d & Ers & V & -> & N)].
      { exfalso. rewrite <- Eq in In0. apply in_map_iff in In0 as ([a f] & E & I). cbn in E. subst a.
        eapply N; eassumption. }
      assert (DL : digest_list (lps (map enc_rec rs)) (signaturesAlgos c) (bestAlgo c) d).
      { exists rs, bf, fi, af. split; [assumption|]. split; [congruence|]. split; [assumption|]. split; [assumption|].
        split; [assumption|]. intros f I. apply HV. rewrite Ers. apply in_or_app. now left. }
      assert (Det : forall d', digest_list (lps (map enc_rec rs)) (signaturesAlgos c) (bestAlgo c) d' -> d' = d).
      { intros d' (rs' & bf' & fi' & af' & [Er Fr] & Ea & Ers' & V' & N' & _).
        assert (Hrs : rs' = rs).
        { apply records_shape in Fr as [Sh' Fr]. apply lps_inj in Er; [|assumption|assumption].
          symmetry. apply enc_recs_inj; [| |exact Er]; (eapply Forall_impl; [|eassumption]); now intros ? []. }
        rewrite Hrs in Ers'. assert (X : fi = fi').
        { clear - Ers Ers' N N'. rewrite Ers in Ers'. clear Ers.
          revert bf' Ers'. induction bf as [|x bf IH]; intros [|y bf'] E; inversion E; subst.
          - reflexivity.
          - exfalso. eapply N. apply in_or_app. right. now left.
          - exfalso. eapply N'. apply in_or_app. right. now left.
          - eauto. }
        subst fi'. eapply holds_value_det; eassumption. }
      destruct (zget (kind_id k) cds) as [p|] eqn:G.
      * destruct (bytes_eqb p d) eqn:Ep.
        -- apply bytes_eqb_eq in Ep. subst p. eexists _, _, true. split; [reflexivity|]. right.
           split; [reflexivity|]. split; [reflexivity|]. exists d. split; [assumption|].
           split; [intros p Hp; congruence | reflexivity].
        -- apply bytes_eqb_neq in Ep. eexists _, _, false. split; [reflexivity|]. left.
           split; [reflexivity|]. split; [auto|]. intros (d' & D & A). apply Det in D. subst d'. apply Ep. now apply A.
      * eexists _, _, true. split; [reflexivity|]. right. split; [reflexivity|]. split; [reflexivity|].
        exists d. split; [assumption|]. split; [intros p Hp; congruence | reflexivity].
    + eexists _, _, false. split; [reflexivity|]. left. split; [reflexivity|]. split; [auto|].
      intros (d & (rs' & bf & fi & af & [Er Fr] & Ea & _) & _).
      apply records_shape in Fr as [Sh' Fr]. apply lps_inj in Er; [|assumption|assumption].
      assert (rs = rs') by (apply enc_recs_inj; [| |exact Er]; (eapply Forall_impl; [|eassumption]); now intros ? []).
      subst rs'. rewrite Ea in Eq. rewrite (proj2 (zlist_eqb_eq _ _) eq_refl) in Eq. discriminate.
  - destruct (F eq_refl) as ((e & ->) & N). eexists _, _, false. split; [reflexivity|]. left.
    split; [reflexivity|]. split; [auto|]. intros (d & (rs & bf & fi & af & [-> Fr] & Ea & Ers & V & Na & Hb) & _).
    apply records_shape in Fr as [Sh Fi]. rewrite lpItems_enc in L by assumption. inversion L; subst items ok.
    apply N. split; [reflexivity|]. exists rs. split; [reflexivity|]. split; [assumption|].
    intros f I. rewrite Ers in I. apply in_app_or in I as [I|[I|I]]; [auto | inversion I; subst; eauto | exfalso; eapply Na; eassumption].
Qed.

(** Facts about [signature_list] used to combine the parts. *)
Lemma signature_list_kind slice algos algo sig : signature_list slice algos algo sig ->
  (exists k, has_kind algo k) /\ In algo algos.
Proof.
  intros (rs & field & _ & -> & St & _). split.
  - destruct St as (x & y & k & _ & K & _). eauto.
  - apply strongest_in in St. apply in_map_iff. now exists (algo, field).
Qed.

Lemma signature_list_det slice al1 a1 s1 al2 a2 s2 :
  signature_list slice al1 a1 s1 -> signature_list slice al2 a2 s2 -> al1 = al2 /\ a1 = a2 /\ s1 = s2.
Proof.
  intros (rs & f & [-> F] & -> & St & V & _) (rs' & f' & [E F'] & -> & St' & V' & _).
  apply records_shape in F as [Sh F], F' as [Sh' F']. apply lps_inj in E; [|assumption|assumption].
  assert (rs = rs') by (apply enc_recs_inj; [| |exact E]; (eapply Forall_impl; [|eassumption]); now intros ? []).
  subst rs'. destruct (strongest_det _ _ _ _ _ St St') as [-> ->].
  repeat split. eapply holds_value_det; eassumption.
Qed.
