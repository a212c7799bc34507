(** apkverifier.go *)
From Coq Require Import String.
From Coq Require Import Lia.
From Verif.Model Require Import Bytes Env ApiLevel GoStrings Manifest Result Verify SchemeV1 ApkVerifier.
From Verif.Spec Require Import AndroidManifest.
From Verif.Proofs Require Import BytesFacts ManifestFacts.

(** ** Numerals *)
Lemma digitsValue_snoc s c : digitsValue (s ++ [c]) = 10 * digitsValue s + (b2z c - 48).
Proof. unfold digitsValue. rewrite fold_left_app. reflexivity. Qed.
Lemma digit_byte d : 0 <= d <= 9 -> b2z (z2b (48 + d)) = 48 + d.
Proof. intros H. rewrite b2z_z2b. apply Z.mod_small. lia. Qed.
Lemma isDigit_iff c : isDigit c = true <-> exists d, 0 <= d <= 9 /\ c = z2b (48 + d).
Proof.
  unfold isDigit. rewrite andb_true_iff, !Z.leb_le. split.
  - intros H. exists (b2z c - 48). split; [lia|]. replace (48 + (b2z c - 48)) with (b2z c) by lia. symmetry. apply z2b_b2z.
  - intros (d & Hd & ->). rewrite digit_byte by exact Hd. lia.
Qed.
Lemma digits_spec s v : digits s v <-> s <> [] /\ forallb isDigit s = true /\ digitsValue s = v.
Proof.
  split.
  - induction 1 as [d Hd|s v d H IH Hd].
    + split; [discriminate|]. split; [cbn [forallb]; rewrite andb_true_r; apply isDigit_iff; eauto|].
      unfold digitsValue. cbn [fold_left]. rewrite digit_byte by exact Hd. lia.
    + destruct IH as (Hn & Ha & Hv). split; [destruct s; discriminate|]. split.
      * rewrite forallb_app, Ha. cbn [forallb andb]. rewrite andb_true_r. apply isDigit_iff. eauto.
      * rewrite digitsValue_snoc, digit_byte by exact Hd. lia.
  - intros (Hn & Ha & <-). induction s as [|c s IH] using rev_ind; [congruence|].
    rewrite forallb_app in Ha. apply andb_true_iff in Ha as [Ha Hc]. cbn [forallb] in Hc. rewrite andb_true_r in Hc.
    apply isDigit_iff in Hc as (d & Hd & ->). rewrite digitsValue_snoc, digit_byte by exact Hd. replace (48 + d - 48) with d by lia.
    destruct s as [|c' s].
    + change (digitsValue []) with 0. replace (10 * 0 + d) with d by lia. apply digits_one. exact Hd.
    + apply digits_more; [|exact Hd]. apply IH; [discriminate|exact Ha].
Qed.
Lemma digits_nonneg s v : digits s v -> 0 <= v.
Proof. induction 1; lia. Qed.
Lemma digits_head c s v : digits (c :: s) v -> isDigit c = true.
Proof. intros H. apply digits_spec in H as (_ & H & _). cbn [forallb] in H. apply andb_true_iff in H. tauto. Qed.
Lemma parseUint_iff s v : parseUint s = Some v <-> digits s v.
Proof.
  rewrite digits_spec. unfold parseUint. destruct s as [|c s].
  - split; [discriminate|]. intros (H & _). congruence.
  - destruct (forallb isDigit (c :: s)) eqn:Ef.
    + split; [intros H; split; [discriminate|]; split; congruence|intros (_ & _ & <-); reflexivity].
    + split; [discriminate|]. intros (_ & H & _). congruence.
Qed.
Lemma parseInt32_iff s v : parseInt32 s = Some v <-> int32_numeral s v.
Proof.
  unfold int32_numeral, parseInt32. destruct s as [|c t].
  { split; [discriminate|]. intros (_ & sign & ds & n & Hd & Hs & _). symmetry in Hs. apply app_eq_nil in Hs as [_ ->].
    apply digits_spec in Hd as (Hd & _). congruence. }
  destruct (byte_eqb c "-"%byte) eqn:E1.
  { apply byte_eqb_eq in E1. subst c. split.
    - destruct (parseUint t) as [n|] eqn:Ep; [|discriminate]. apply parseUint_iff in Ep. pose proof (digits_nonneg _ _ Ep).
      destruct (Z.ltb_spec 2147483648 n); [discriminate|]. intros Hv. assert (v = - n) as -> by congruence. split; [lia|].
      exists ["-"%byte], t, n. split; [exact Ep|]. split; [reflexivity|]. right. right. auto.
    - intros (Hr & sign & ds & n & Hd & Hs & [(-> & _)|[(-> & _)|(-> & ->)]]).
      + cbn [app] in Hs. subst ds. apply digits_head in Hd. discriminate.
      + discriminate.
      + assert (t = ds) as -> by (cbn [app] in Hs; congruence). apply parseUint_iff in Hd. rewrite Hd. destruct (Z.ltb_spec 2147483648 n); [lia|reflexivity]. }
  destruct (byte_eqb c "+"%byte) eqn:E2.
  { apply byte_eqb_eq in E2. subst c. split.
    - destruct (parseUint t) as [n|] eqn:Ep; [|discriminate]. apply parseUint_iff in Ep. pose proof (digits_nonneg _ _ Ep).
      destruct (Z.ltb_spec 2147483647 n); [discriminate|]. intros Hv. assert (v = n) as -> by congruence. split; [lia|].
      exists ["+"%byte], t, n. split; [exact Ep|]. split; [reflexivity|]. right. left. auto.
    - intros (Hr & sign & ds & n & Hd & Hs & [(-> & _)|[(-> & ->)|(-> & _)]]).
      + cbn [app] in Hs. subst ds. apply digits_head in Hd. discriminate.
      + assert (t = ds) as -> by (cbn [app] in Hs; congruence). apply parseUint_iff in Hd. rewrite Hd. destruct (Z.ltb_spec 2147483647 n); [lia|reflexivity].
      + discriminate. }
  split.
  - destruct (parseUint (c :: t)) as [n|] eqn:Ep; [|discriminate]. apply parseUint_iff in Ep. pose proof (digits_nonneg _ _ Ep).
    destruct (Z.ltb_spec 2147483647 n); [discriminate|]. intros Hv. assert (v = n) as -> by congruence. split; [lia|].
    exists [], (c :: t), n. split; [exact Ep|]. split; [reflexivity|]. left. auto.
  - intros (Hr & sign & ds & n & Hd & Hs & [(-> & ->)|[(-> & _)|(-> & _)]]).
    + cbn [app] in Hs. subst ds. apply parseUint_iff in Hd. rewrite Hd. destruct (Z.ltb_spec 2147483647 n); [lia|reflexivity].
    + assert (c = "+"%byte) as -> by (cbn [app] in Hs; congruence). discriminate.
    + assert (c = "-"%byte) as -> by (cbn [app] in Hs; congruence). discriminate.
Qed.

(** ** Attributes *)
Lemma getAttr_eof attrs name : getAttrIntValue attrs name = AttrEOF <-> ~ In name (map fst attrs).
Proof.
  induction attrs as [|(n, v) t IH]; cbn [getAttrIntValue map fst]; [split; [intros _ []|reflexivity]|].
  destruct (bytes_eqb n name) eqn:En.
  - apply bytes_eqb_eq in En. subst n. split; [destruct (parseInt32 v); discriminate|]. intros H. exfalso. apply H. left. reflexivity.
  - rewrite IH. split; intros H C; apply H; [|right; exact C]. destruct C as [C|C]; [|exact C]. subst n. rewrite (proj2 (bytes_eqb_eq name name) eq_refl) in En. discriminate.
Qed.
Lemma getAttr_val st name v : getAttrIntValue (xs_attrs st) name = AttrVal v <-> exists s, attribute st name s /\ int32_numeral s v.
Proof.
  unfold attribute. generalize (xs_attrs st). intros attrs. split.
  - induction attrs as [|(n, s) t IH]; cbn [getAttrIntValue]; [discriminate|]. destruct (bytes_eqb n name) eqn:En.
    + apply bytes_eqb_eq in En. subst n. destruct (parseInt32 s) as [z|] eqn:Ep; [|discriminate]. intros H. assert (z = v) as -> by congruence.
      exists s. split; [|apply parseInt32_iff; exact Ep]. exists [], t. split; [reflexivity|intros []].
    + intros H. destruct (IH H) as (s' & (b & a & -> & Hb) & Hn). exists s'. split; [|exact Hn]. exists ((n, s) :: b), a. split; [reflexivity|].
      cbn [map fst]. intros [C|C]; [|exact (Hb C)]. subst n. rewrite (proj2 (bytes_eqb_eq name name) eq_refl) in En. discriminate.
  - intros (s & (b & a & -> & Hb) & Hn). induction b as [|(n, s') b IH]; cbn [app getAttrIntValue].
    + rewrite (proj2 (bytes_eqb_eq name name) eq_refl). apply parseInt32_iff in Hn. rewrite Hn. reflexivity.
    + destruct (bytes_eqb n name) eqn:En; [apply bytes_eqb_eq in En; exfalso; apply Hb; left; exact En|]. apply IH. intros C. apply Hb. right. exact C.
Qed.
Definition orDefault (r : attr_value) (d : Z) : option Z := match r with AttrEOF => Some d | AttrVal v => Some v | AttrBad => None end.
Lemma declares_iff st name d v : declares st name d v <-> orDefault (getAttrIntValue (xs_attrs st) (s2b name)) d = Some v.
Proof.
  unfold declares. destruct (getAttrIntValue (xs_attrs st) (s2b name)) as [| |w] eqn:Eg; cbn [orDefault].
  - pose proof (proj1 (getAttr_eof _ _) Eg) as Hn. split.
    + intros [(_ & ->)|(s & (b & a & Ha & _) & _)]; [reflexivity|]. exfalso. apply Hn. rewrite Ha, map_app. apply in_or_app. right. left. reflexivity.
    + intros H. left. split; [exact Hn|congruence].
  - split; [|discriminate]. intros [(Hn & _)|(s & Ha)].
    + apply getAttr_eof in Hn. congruence.
    + assert (Hv : getAttrIntValue (xs_attrs st) (s2b name) = AttrVal v) by (apply getAttr_val; eauto). congruence.
  - split.
    + intros [(Hn & _)|Ha]; [apply getAttr_eof in Hn; congruence|]. apply getAttr_val in Ha. congruence.
    + intros H. right. apply getAttr_val. congruence.
Qed.

(** ** The manifest *)
Lemma named_iff name st : named name st <-> bytes_eqb (xs_name st) (s2b name) = true.
Proof. unfold named. rewrite bytes_eqb_eq. reflexivity. Qed.
Lemma not_named name st : ~ named name st -> bytes_eqb (xs_name st) (s2b name) = false.
Proof. intros H. destruct (bytes_eqb (xs_name st) (s2b name)) eqn:E; [|reflexivity]. exfalso. apply H. apply named_iff. exact E. Qed.
Lemma uses_not_manifest st : named "uses-sdk" st -> bytes_eqb (xs_name st) (s2b "manifest") = false.
Proof. unfold named. intros ->. reflexivity. Qed.

Lemma parseXml_skip before toks ok e : (forall st, In st before -> ~ named "uses-sdk" st) -> (forall st, In st before -> ~ named "manifest" st) ->
  parseXml (before ++ toks) ok e = parseXml toks ok e.
Proof.
  induction before as [|st b IH]; intros Hu Hm; [reflexivity|]. cbn [app parseXml]. unfold encodeToken.
  rewrite (not_named "manifest" st), (not_named "uses-sdk" st) by (first [apply Hm|apply Hu]; left; reflexivity).
  apply IH; intros x Hx; [apply Hu|apply Hm]; right; exact Hx.
Qed.
Lemma encode_uses e u min target : named "uses-sdk" u -> en_min e = 1 -> en_target e = 0 ->
  declares u "minSdkVersion" 1 min -> declares u "targetSdkVersion" 0 target -> encodeToken e u = TokEnd (mkEnc min target (en_sandbox e)).
Proof.
  intros Hu He1 He2 Hm Ht. apply declares_iff in Hm, Ht. unfold encodeToken. rewrite (uses_not_manifest u Hu). apply named_iff in Hu. rewrite Hu.
  destruct e as [m t s]. cbn [en_min en_target en_sandbox] in *. subst m t.
  destruct (getAttrIntValue (xs_attrs u) (s2b "minSdkVersion")) as [| |m]; cbn [orDefault] in Hm; try discriminate;
  destruct (getAttrIntValue (xs_attrs u) (s2b "targetSdkVersion")) as [| |t]; cbn [orDefault] in Ht; try discriminate; cbn [en_min en_target en_sandbox]; congruence.
Qed.
Lemma encode_uses_inv e u r : named "uses-sdk" u -> en_min e = 1 -> en_target e = 0 -> encodeToken e u = r ->
  match r with
  | TokEnd e' => exists min target, declares u "minSdkVersion" 1 min /\ declares u "targetSdkVersion" 0 target /\ e' = mkEnc min target (en_sandbox e)
  | TokOk _ => False
  | TokErr => True
  end.
Proof.
  intros Hu He1 He2 <-. unfold encodeToken. rewrite (uses_not_manifest u Hu). pose proof Hu as Hu'. apply named_iff in Hu. rewrite Hu.
  destruct e as [m t s]. cbn [en_min en_target en_sandbox] in *. subst m t.
  destruct (getAttrIntValue (xs_attrs u) (s2b "minSdkVersion")) as [| |m] eqn:Em; try exact I;
  destruct (getAttrIntValue (xs_attrs u) (s2b "targetSdkVersion")) as [| |t] eqn:Et; try exact I; cbn [en_min en_target en_sandbox];
  do 2 eexists; (split; [apply declares_iff; rewrite Em; reflexivity|]); (split; [apply declares_iff; rewrite Et; reflexivity|reflexivity]).
Qed.

Lemma split_uses (l : list xml_start) : (forall st, In st l -> ~ named "uses-sdk" st) \/
  exists b u a, l = b ++ u :: a /\ (forall st, In st b -> ~ named "uses-sdk" st) /\ named "uses-sdk" u.
Proof.
  induction l as [|x l IH]; [left; intros ? []|]. destruct (bytes_eqb (xs_name x) (s2b "uses-sdk")) eqn:Ex.
  - right. exists [], x, l. split; [reflexivity|]. split; [intros ? []|apply named_iff; exact Ex].
  - assert (Hx : ~ named "uses-sdk" x) by (intros C; apply named_iff in C; congruence).
    destruct IH as [IH|(b & u & a & -> & Hb & Hu)].
    + left. intros st [<-|H]; auto.
    + right. exists (x :: b), u, a. split; [reflexivity|]. split; [|exact Hu]. intros st [<-|H]; auto.
Qed.

(** With a <manifest> root and no other <manifest>, the code reads exactly the declared values, if the parser gets far enough. *)
Lemma parseXml_info toks ok e : (exists root rest, toks = root :: rest /\ named "manifest" root /\ (forall st, In st rest -> ~ named "manifest" st)) ->
  parseXml toks ok (mkEnc 1 0 1) = Some e <->
  manifest_info toks (en_min e) (en_target e) (en_sandbox e) /\ (ok = true \/ exists u, In u toks /\ named "uses-sdk" u).
Proof.
  intros (root & rest & -> & Hr & Hm). unfold manifest_info.
  assert (Hroot : forall sb, declares root "targetSandboxVersion" 1 sb -> parseXml (root :: rest) ok (mkEnc 1 0 1) = parseXml rest ok (mkEnc 1 0 sb)).
  { intros sb Hd. apply declares_iff in Hd. cbn [parseXml]. unfold encodeToken. apply named_iff in Hr. rewrite Hr.
    destruct (getAttrIntValue (xs_attrs root) (s2b "targetSandboxVersion")) as [| |v]; cbn [orDefault] in Hd; try discriminate; cbn [en_min en_target]; congruence. }
  assert (Hnu : ~ named "uses-sdk" root) by (unfold named in *; rewrite Hr; discriminate).
  split.
  - intros H.
    assert (Hsb : exists sb, declares root "targetSandboxVersion" 1 sb).
    { cbn [parseXml] in H. unfold encodeToken in H. pose proof Hr as Hr'. apply named_iff in Hr'. rewrite Hr' in H.
      destruct (getAttrIntValue (xs_attrs root) (s2b "targetSandboxVersion")) as [| |v] eqn:Eg; try discriminate; eexists; apply declares_iff; rewrite Eg; reflexivity. }
    destruct Hsb as (sb & Hsb). rewrite (Hroot sb Hsb) in H.
    destruct (split_uses rest) as [Hno|(b & u & a & -> & Hb & Hu)].
    + rewrite <- (app_nil_r rest), parseXml_skip in H by assumption. cbn [parseXml] in H. destruct ok; [|discriminate].
      assert (e = mkEnc 1 0 sb) as -> by congruence. cbn [en_min en_target en_sandbox]. split; [|left; reflexivity].
      exists root, rest. repeat (split; [first [reflexivity|assumption]|]). constructor. exact Hno.
    + rewrite parseXml_skip in H; [|exact Hb|intros st Hst; apply Hm; apply in_or_app; left; exact Hst]. cbn [parseXml] in H.
      pose proof (encode_uses_inv (mkEnc 1 0 sb) u _ Hu eq_refl eq_refl eq_refl) as Hi. destruct (encodeToken (mkEnc 1 0 sb) u) as [e'|e'|]; [destruct Hi| |discriminate].
      destruct Hi as (min & target & Hmin & Htarget & ->). assert (e = mkEnc min target sb) as -> by (cbn [en_sandbox] in H; congruence).
      cbn [en_min en_target en_sandbox]. split; [|right; exists u; split; [right; apply in_or_app; right; left; reflexivity|exact Hu]].
      exists root, (b ++ u :: a). repeat (split; [first [reflexivity|assumption]|]). constructor; assumption.
  - intros ((root' & rest' & Heq & _ & _ & Hsb & Hi) & Hok). assert (root' = root /\ rest' = rest) as [-> ->] by (split; congruence).
    rewrite (Hroot _ Hsb). destruct e as [mn tg sb]. cbn [en_min en_target en_sandbox] in *. inversion Hi as [r Hno Er E1 E2|b u a mn' tg' Hb Hu Hmin Htarget Er E1 E2]; subst.
    + rewrite <- (app_nil_r rest), parseXml_skip by assumption. cbn [parseXml]. destruct ok; [reflexivity|]. destruct Hok as [Hok|(u & [<-|Hin] & Hu)]; [discriminate|contradiction|]. exfalso. exact (Hno u Hin Hu).
    + rewrite parseXml_skip; [|exact Hb|intros st Hst; apply Hm; apply in_or_app; left; exact Hst]. cbn [parseXml].
      rewrite (encode_uses (mkEnc 1 0 sb) u mn tg Hu eq_refl eq_refl Hmin Htarget). reflexivity.
Qed.

(** ** getManifestInfo *)
Lemma getManifestInfo_iff E z toks ok e : manifest_of E z toks ok ->
  (exists root rest, toks = root :: rest /\ named "manifest" root /\ (forall st, In st rest -> ~ named "manifest" st)) ->
  getManifestInfo E z = Some e <->
  manifest_info toks (en_min e) (en_target e) (en_sandbox e) /\ (ok = true \/ exists u, In u toks /\ named "uses-sdk" u).
Proof.
  intros (f & stream & more & Hf & Ho & Hs & Hx) Hroot. unfold getManifestInfo. rewrite Hf, Ho, Hs, Hx. cbn [negb]. apply parseXml_info. exact Hroot.
Qed.
Lemma manifest_info_root toks a b c : manifest_info toks a b c ->
  exists root rest, toks = root :: rest /\ named "manifest" root /\ (forall st, In st rest -> ~ named "manifest" st).
Proof. intros (root & rest & H1 & H2 & H3 & _). exists root, rest. auto. Qed.
Lemma getManifestInfo_known E z toks ok min target sandbox : manifest_of E z toks ok -> (ok = true \/ exists u, In u toks /\ named "uses-sdk" u) ->
  manifest_info toks min target sandbox -> getManifestInfo E z = Some (mkEnc min target sandbox).
Proof. intros Hm Hok Hi. apply (getManifestInfo_iff E z toks ok); [exact Hm|eapply manifest_info_root; exact Hi|]. split; [exact Hi|exact Hok]. Qed.

(** ** VerifyWithSdkVersionReader *)
From Verif.Spec Require Import Nondet Verified Calls JarSigned TopLevel Digests.
From Verif.Proofs Require Import ApkFacts PropFacts.
From Verif.Props Require Import SchemeV1.

(** What is used from the manifest. *)
Definition used_info (E : env) (z : zip) (minArg maxSdk : Z) : option encoder :=
  if (minArg =? V_AnyMin) || RequiresSandboxV2 maxSdk then getManifestInfo E z else Some (mkEnc 0 0 0).
Definition used_enc (E : env) (z : zip) (minArg maxSdk : Z) : encoder :=
  match used_info E z minArg maxSdk with None => mkEnc 0 0 0 | Some e => e end.
Definition min_of (E : env) (z : zip) (minArg maxSdk : Z) : Z :=
  match used_info E z minArg maxSdk with
  | None => minArg
  | Some e => if minArg =? V_AnyMin then en_min e else minArg
  end.
Lemma min_of_effective E z minArg maxSdk : effective_min E z minArg (min_of E z minArg maxSdk).
Proof.
  unfold effective_min, min_of, used_info. split.
  - intros H. destruct (Z.eqb_spec minArg V_AnyMin) as [->|_]; [exfalso; apply H; reflexivity|]. cbn [orb].
    destruct (if RequiresSandboxV2 maxSdk then _ else _); reflexivity.
  - intros ->. change (-1 =? V_AnyMin) with true. cbn [orb]. split.
    + intros Hf. unfold getManifestInfo. rewrite Hf. reflexivity.
    + intros toks ok mn tg sb Hm Hok Hi. rewrite (getManifestInfo_known E z toks ok mn tg sb Hm Hok Hi). reflexivity.
Qed.

(** The checks on the v1 path, other than the DEX magic. *)
Definition sandbox_ok (e : encoder) (maxSdk schemeId : Z) (noBlock : bool) : bool :=
  negb (RequiresSandboxV2 maxSdk && (1 <? en_sandbox e) && (noBlock || (schemeId <? 2)))
  && negb ((V11_0_Eleven <=? en_target e) && (en_target e <=? maxSdk) && (schemeId <? 2)).

Inductive vcase (E : env) (S : sched) (file : bytes) (z : zip) (minArg maxSdk : Z) (res : aresult) : option aerr -> Prop :=
| vc_block vr b : verifySigningBlock E S file (min_of E z minArg maxSdk) maxSdk z = Ret vr -> vr_res vr = Some b -> vr_err vr = None ->
    24 <= min_of E z minArg maxSdk <= maxSdk ->
    res = mkARes (v_schemeId b) (certs (v_core b)) (Some b) -> vcase E S file z minArg maxSdk res None
| vc_v1 vr noBlock id cs cs1 err : verifySigningBlock E S file (min_of E z minArg maxSdk) maxSdk z = Ret vr ->
    min_of E z minArg maxSdk <= maxSdk ->
    (noBlock = true /\ isNotFound (vr_err vr) = true /\ id = 1 /\ cs = [] \/
     noBlock = false /\ vr_err vr = None /\ min_of E z minArg maxSdk < 24 /\
       exists b, vr_res vr = Some b /\ id = v_schemeId b /\ cs = certs (v_core b)) ->
    verifySchemeV1 E S z (negb noBlock) (min_of E z minArg maxSdk) maxSdk = Ret (cs1, None) ->
    sandbox_ok (used_enc E z minArg maxSdk) maxSdk id noBlock = true ->
    (id = 1 \/ used_info E z minArg maxSdk <> None) ->
    res = mkARes id (match cs with [] => cs1 | _ => cs end) (vr_res vr) ->
    err = (if vr_magic vr =? dexHeaderMagic then Some AErrMixedDex else None) ->
    vcase E S file z minArg maxSdk res err.

Lemma block_result E S file minSdk maxSdk z vr : verifySigningBlock E S file minSdk maxSdk z = Ret vr -> vr_err vr = None -> exists b, vr_res vr = Some b.
Proof.
  unfold verifySigningBlock. destruct (newSigningBlock file) as [magic|]; [|intros H; assert (vr = {| vr_res := None; vr_magic := 0; vr_err := Some (Err "APK file is too short") |}) as -> by congruence; discriminate].
  intros H He. apply obind_ret in H as (fr & _ & H). destruct fr as [st s|st s].
  - apply obind_ret in H as (r & _ & H). eexists. assert (Hv : vr = {| vr_res := Some r; vr_magic := magic; vr_err := Some (ErrNotFound "findSignatureBlocks") |}) by congruence. rewrite Hv. reflexivity.
  - apply obind_ret in H as (r & _ & H). apply obind_ret in H as ([cds r1] & _ & H). apply obind_ret in H as ([cds2 r2] & _ & H). apply obind_ret in H as (stamp & _ & H).
    cbn zeta in H. match type of H with Ret ?x = _ => assert (Hv : vr = x) by congruence end. rewrite Hv. eexists. reflexivity.
Qed.

(** apkverifier.go:116-145 *)
Definition v1Tail (E : env) (S : sched) (z : zip) (e : encoder) (mErr : bool) (minSdk maxSdk magic : Z) (noBlock : bool) (id : Z) (cs : list (list cert))
    (b : option vresult) : outcome (aresult * option aerr) :=
  '(certsv1, v1error) <- verifySchemeV1 E S z (negb noBlock) minSdk maxSdk ;;
  Ret (mkARes id (match cs with [] => certsv1 | _ => cs end) b,
       match (if RequiresSandboxV2 maxSdk && (1 <? en_sandbox e) && (noBlock || (id <? 2)) then Some AErrSandbox
              else if (V11_0_Eleven <=? en_target e) && (en_target e <=? maxSdk) && (id <? 2) then Some AErrTargetSdk
              else None), v1error with
       | Some err, _ => Some err
       | None, Some err => Some (AErrV1 err)
       | None, None => if negb (id =? 1) && mErr then Some AErrManifest
                       else if magic =? dexHeaderMagic then Some AErrMixedDex else None
       end).
Lemma v1Tail_iff E S z e mErr minSdk maxSdk magic noBlock id cs b res err : (err = None \/ err = Some AErrMixedDex) ->
  v1Tail E S z e mErr minSdk maxSdk magic noBlock id cs b = Ret (res, err) <->
  exists cs1, verifySchemeV1 E S z (negb noBlock) minSdk maxSdk = Ret (cs1, None) /\ sandbox_ok e maxSdk id noBlock = true /\
    negb (id =? 1) && mErr = false /\ res = mkARes id (match cs with [] => cs1 | _ => cs end) b /\
    err = (if magic =? dexHeaderMagic then Some AErrMixedDex else None).
Proof.
  intros Herr. unfold v1Tail, sandbox_ok. split.
  - intros H. apply obind_ret in H as ([cs1 v1e] & Hv1 & H). cbn beta iota in H.
    match type of H with Ret (?x, ?y) = _ => assert (H1 : res = x) by congruence; assert (H2 : err = y) by congruence end. clear H. exists cs1.
    destruct (RequiresSandboxV2 maxSdk && (1 <? en_sandbox e) && (noBlock || (id <? 2))); [destruct Herr; congruence|].
    destruct ((V11_0_Eleven <=? en_target e) && (en_target e <=? maxSdk) && (id <? 2)); [destruct Herr; congruence|].
    destruct v1e; [destruct Herr; congruence|]. destruct (negb (id =? 1) && mErr); [destruct Herr; congruence|]. auto.
  - intros (cs1 & Hv1 & Hs & Hm & -> & ->). rewrite Hv1. cbn [obind]. apply andb_true_iff in Hs as [Hs1 Hs2]. apply negb_true_iff in Hs1, Hs2. rewrite Hs1, Hs2, Hm. reflexivity.
Qed.
Lemma verify_unfold E S file z minArg maxSdk :
  let minSdk := min_of E z minArg maxSdk in
  let e := used_enc E z minArg maxSdk in
  let mErr := match used_info E z minArg maxSdk with None => true | Some _ => false end in
  verifyWithSdk E S file (Some z) minArg maxSdk =
  if maxSdk <? minSdk then Ret (mkARes 0 [] None, Some AErrRange) else
  vr <- verifySigningBlock E S file minSdk maxSdk z ;;
  match vr_err vr with
  | Some (ErrNotFound _) => v1Tail E S z e mErr minSdk maxSdk (vr_magic vr) true 1 [] (vr_res vr)
  | Some err => Ret (match vr_res vr with Some b => mkARes (v_schemeId b) (certs (v_core b)) (Some b) | None => mkARes 1 [] None end, Some (AErrBlock err))
  | None =>
      let id := match vr_res vr with Some b => v_schemeId b | None => 1 end in
      let cs := match vr_res vr with Some b => certs (v_core b) | None => [] end in
      if 24 <=? minSdk then Ret (mkARes id cs (vr_res vr), None)
      else v1Tail E S z e mErr minSdk maxSdk (vr_magic vr) false id cs (vr_res vr)
  end.
Proof.
  cbn zeta. unfold verifyWithSdk. fold (used_info E z minArg maxSdk). fold (used_enc E z minArg maxSdk). cbn zeta.
  assert (Hmin : (if negb (match used_info E z minArg maxSdk with None => true | Some _ => false end) && (minArg =? V_AnyMin)
                  then en_min (used_enc E z minArg maxSdk) else minArg) = min_of E z minArg maxSdk).
  { unfold min_of, used_enc. destruct (used_info E z minArg maxSdk); [|reflexivity]. reflexivity. }
  rewrite Hmin. destruct (maxSdk <? min_of E z minArg maxSdk); [reflexivity|].
  destruct (verifySigningBlock E S file (min_of E z minArg maxSdk) maxSdk z) as [vr|]; [|reflexivity]. cbn [obind].
  unfold v1Tail, SupportsSigV2, V7_0_Nougat. destruct (vr_err vr) as [[m|m]|]; cbn [isNotFound].
  - destruct (vr_res vr); reflexivity.
  - destruct (vr_res vr), (24 <=? min_of E z minArg maxSdk); reflexivity.
  - destruct (vr_res vr) as [b|]; destruct (24 <=? min_of E z minArg maxSdk); try reflexivity. cbn [ar_certs ar_schemeId ar_block negb].
    destruct (verifySchemeV1 E S z true (min_of E z minArg maxSdk) maxSdk) as [[cs1 ve]|]; [|reflexivity]. cbn [obind]. destruct (certs (v_core b)); reflexivity.
Qed.

Lemma verify_cases E S file z minArg maxSdk res err : (err = None \/ err = Some AErrMixedDex) ->
  verifyWithSdk E S file (Some z) minArg maxSdk = Ret (res, err) <-> vcase E S file z minArg maxSdk res err.
Proof.
  intros Herr. rewrite verify_unfold. cbn zeta.
  set (minSdk := min_of E z minArg maxSdk). set (e := used_enc E z minArg maxSdk).
  set (mErr := match used_info E z minArg maxSdk with None => true | Some _ => false end).
  assert (HmErr : forall id, (negb (id =? 1) && mErr = false) <-> (id = 1 \/ used_info E z minArg maxSdk <> None)).
  { intros id. unfold mErr. destruct (used_info E z minArg maxSdk); rewrite ?andb_false_r, ?andb_true_r.
    - split; [intros _; right; discriminate|reflexivity].
    - rewrite negb_false_iff, Z.eqb_eq. split; [auto|]. intros [H|H]; [exact H|congruence]. }
  split.
  - destruct (Z.ltb_spec maxSdk minSdk) as [Hr|Hr]; [intros H; exfalso; assert (err = Some AErrRange) by congruence; destruct Herr; congruence|].
    intros H. apply obind_ret in H as (vr & Hvr & H). destruct (vr_err vr) as [[m|m]|] eqn:Ebe.
    + exfalso. assert (err = Some (AErrBlock (Err m))) by congruence. destruct Herr; congruence.
    + apply (v1Tail_iff _ _ _ _ _ _ _ _ _ _ _ _ _ _ Herr) in H as (cs1 & Hv1 & Hs & Hm & -> & ->).
      apply (vc_v1 _ _ _ _ _ _ _ vr true 1 [] cs1); try assumption; try reflexivity.
      * left. rewrite Ebe. auto.
      * left. reflexivity.
    + destruct (block_result _ _ _ _ _ _ _ Hvr Ebe) as (b & Hb). rewrite Hb in H. destruct (Z.leb_spec 24 minSdk).
      * assert (err = None) as -> by congruence. apply (vc_block _ _ _ _ _ _ _ vr b); try assumption; [split; assumption|congruence].
      * apply (v1Tail_iff _ _ _ _ _ _ _ _ _ _ _ _ _ _ Herr) in H as (cs1 & Hv1 & Hs & Hm & -> & ->).
        apply (vc_v1 _ _ _ _ _ _ _ vr false (v_schemeId b) (certs (v_core b)) cs1); try assumption; try reflexivity.
        -- right. split; [reflexivity|]. split; [exact Ebe|]. split; [assumption|]. exists b. auto.
        -- apply HmErr. exact Hm.
        -- rewrite Hb. reflexivity.
  - intros H. destruct H as [vr b Hvr Hb He [Hm1 Hm2] Hres|vr noBlock id cs cs1 err Hvr Hr Hc Hv1 Hs Hm Hres He0]; rewrite Hres; clear Hres; [|subst err].
    + fold minSdk in Hvr, Hm1, Hm2. destruct (Z.ltb_spec maxSdk minSdk); [lia|]. rewrite Hvr. cbn [obind]. rewrite He, Hb. destruct (Z.leb_spec 24 minSdk); [reflexivity|lia].
    + fold minSdk in Hvr, Hr, Hc, Hv1. destruct (Z.ltb_spec maxSdk minSdk); [lia|]. rewrite Hvr. cbn [obind].
      apply HmErr in Hm.
      destruct Hc as [(-> & Hn & -> & ->)|(-> & He & Hlt & b & Hb & -> & ->)].
      * destruct (vr_err vr) as [[m|m]|]; try discriminate. apply (v1Tail_iff _ _ _ _ _ _ _ _ _ _ _ _ _ _ Herr). exists cs1. auto.
      * rewrite He. destruct (Z.leb_spec 24 minSdk); [lia|]. rewrite Hb. apply (v1Tail_iff _ _ _ _ _ _ _ _ _ _ _ _ _ _ Herr). exists cs1. auto.
Qed.

(** ** The first word *)
Lemma magic_of E S file minSdk maxSdk z vr : verifySigningBlock E S file minSdk maxSdk z = Ret vr -> vr_err vr = None \/ isNotFound (vr_err vr) = true ->
  newSigningBlock file = Some (vr_magic vr).
Proof.
  unfold verifySigningBlock. destruct (newSigningBlock file) as [magic|].
  - intros H _. f_equal. apply obind_ret in H as (fr & _ & H). destruct fr as [st s|st s].
    + apply obind_ret in H as (r & _ & H). match type of H with Ret ?x = _ => assert (Hv : vr = x) by congruence end. rewrite Hv. reflexivity.
    + apply obind_ret in H as (r & _ & H). apply obind_ret in H as ([cds r1] & _ & H). apply obind_ret in H as ([cds2 r2] & _ & H). apply obind_ret in H as (stamp & _ & H).
      cbn zeta in H. match type of H with Ret ?x = _ => assert (Hv : vr = x) by congruence end. rewrite Hv. reflexivity.
  - intros H Hc. match type of H with Ret ?x = _ => assert (Hv : vr = x) by congruence end. subst vr. cbn [vr_err isNotFound] in Hc. destruct Hc; discriminate.
Qed.
Lemma dex_iff file magic : newSigningBlock file = Some magic -> (magic = dexHeaderMagic <-> starts_with_dex file).
Proof.
  unfold newSigningBlock, read_at. change (0 <? 0) with false. change (4 <? 0) with false. cbn [orb]. destruct (Z.ltb_spec (zlen file) (0 + 4)); [discriminate|]. intros Hm.
  assert (Hmag : magic = le_dec (takeZ 4 (dropZ 0 file))) by congruence. clear Hm.
  destruct file as [|a [|b [|c [|d t]]]]; try (unfold zlen in *; cbn in *; lia).
  assert (Ht : takeZ 4 (dropZ 0 (a :: b :: c :: d :: t)) = [a; b; c; d]) by (destruct t; reflexivity). rewrite Ht in Hmag. subst magic.
  unfold starts_with_dex. split.
  - intros Heq. assert (Hd : le_dec [a; b; c; d] = le_dec (s2b "dex" ++ [x0a])) by (rewrite Heq; reflexivity).
    assert (He : [a; b; c; d] = s2b "dex" ++ [x0a]) by (apply le_dec_inj; [reflexivity|exact Hd]).
    exists t. change (a :: b :: c :: d :: t) with ([a; b; c; d] ++ t). rewrite He. reflexivity.
  - intros (r & Hr). change (s2b "dex" ++ [x0a] ++ r) with ("d"%byte :: "e"%byte :: "x"%byte :: x0a :: r) in Hr. assert (a = "d"%byte /\ b = "e"%byte /\ c = "x"%byte /\ d = x0a) as (-> & -> & -> & ->) by (repeat split; congruence). reflexivity.
Qed.
