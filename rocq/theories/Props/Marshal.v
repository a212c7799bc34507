(** C99: what the ASN.1 encoder writes is the DER encoding of the value. *)
From Coq Require Import Lia ZifyBool Sorted.
From Verif.Model Require Import Bytes Env Asn1 GoTime GoUtf8 MarshalTime.
From Verif.Spec Require Import Ber Asn1 Asn1Value Pkcs7 Pkcs7Verify Text Time Asn1Der.
From Verif.Proofs Require Import BytesFacts Asn1Value DerFacts Asn1DerFacts MarshalTimeFacts TimeFacts.

(** C99.  A value is encoded exactly as its DER encoding ([der_of]: universal tags, implicit and explicit tags, optional
    fields and defaults, character sets), and Marshal fails exactly if it has none.  Missing from the full property: the
    elements of a SET OF are in the order of the slice (refuted below), encodings of 2 GiB and more, interface{}. *)
Theorem C99_marshal_partial : forall ty p v b, go_value ty p v -> zlen b < 2 ^ 31 -> (makeField goText ty p v = Some b <-> der_of ty p v b).
Proof. exact (proj1 makeField_der). Qed.
Print Assumptions C99_marshal_partial.
(** At most one encoding ... *)
Theorem C99_unique : forall ty p v b b', go_value ty p v -> zlen b < 2 ^ 31 -> zlen b' < 2 ^ 31 -> der_of ty p v b -> der_of ty p v b' -> b = b'.
Proof. intros ty p v b b' HG HL HL' H H'. apply C99_marshal_partial in H; [|exact HG|exact HL]. apply C99_marshal_partial in H'; [|exact HG|exact HL']. congruence. Qed.
Print Assumptions C99_unique.

(** ... but DER wants the elements of a SET OF in ascending order, and the encoder keeps the order of the slice. *)
Theorem C99_set_order_refuted : exists v b parts, go_value (TySlice true TyInt) noParams v /\ makeField goText (TySlice true TyInt) noParams v = Some b /\
  set_der parts b /\ Forall is_element parts /\ ~ StronglySorted bytes_le parts.
Proof.
  exists (VSlice [VInt 2; VInt 1]), (map z2b [49; 6; 2; 1; 2; 2; 1; 1]), [map z2b [2; 1; 2]; map z2b [2; 1; 1]].
  split; [cbn; unfold tags_fit; cbn; unfold max_int32; repeat split; try lia; discriminate|]. split; [vm_compute; reflexivity|].
  split; [exact (append_der_element 0 17 true (map z2b [2; 1; 2; 2; 1; 1]) ltac:(lia) ltac:(unfold max_int32; lia) ltac:(vm_compute; reflexivity))|].
  split.
  - constructor; [|constructor; [|constructor]]; exists 0, 2, false.
    + exists [z2b 2]. exact (header_element 0 2 false [z2b 2] ltac:(lia) ltac:(unfold max_int32; lia) ltac:(vm_compute; reflexivity)).
    + exists [z2b 1]. exact (header_element 0 2 false [z2b 1] ltac:(lia) ltac:(unfold max_int32; lia) ltac:(vm_compute; reflexivity)).
  - intros H. inversion H as [|? ? _ HF]; subst. inversion HF as [|? ? HL _]; subst. cbn in HL.
    inversion HL as [| ? ? ? ? H1|? ? ? HL1]; subst; [vm_compute in H1; discriminate|]. inversion HL1 as [| ? ? ? ? H1|? ? ? HL2]; subst; [vm_compute in H1; discriminate|].
    inversion HL2 as [| ? ? ? ? H1|]; subst; vm_compute in H1; discriminate.
Qed.
Print Assumptions C99_set_order_refuted.

(** Times.  A time with a date and time of day that exist, at most 25 hours from Greenwich: the UTCTime or GeneralizedTime
    of that instant, without the seconds of the zone ... *)
Theorem C99_time_partial : forall p tt f t b, tags_fit p ->
  instant (tf_year f) (tf_month f) (tf_day f) (tf_hour f) (tf_min f) (tf_sec f) (tf_offset f) t -> - 90000 < tf_offset f < 90000 ->
  zlen b < 2 ^ 31 -> makeTime p tt f = Some b -> time_written p (tt = 24) (tf_year f) (t + Z.rem (tf_offset f) 60) b.
Proof. exact makeTime_written. Qed.
Print Assumptions C99_time_partial.
(** ... which is read back as that instant; and it is an error exactly if the year has no four digits. *)
Theorem C99_time_read_partial : forall f tt t b rest,
  instant (tf_year f) (tf_month f) (tf_day f) (tf_hour f) (tf_min f) (tf_sec f) (tf_offset f) t -> - 90000 < tf_offset f < 90000 -> tf_offset f mod 60 = 0 ->
  zlen b < 2 ^ 31 -> makeTime noParams tt f = Some b -> unmarshal goText TyTime (b ++ rest) = (VTime t, Some rest).
Proof.
  intros f tt t b rest HI HO HM HL HE. rewrite (makeTime_reads f tt t b rest HI HO HL HE).
  assert (Z.rem (tf_offset f) 60 = 0) as -> by (apply Z.rem_divide; [lia|]; apply Z.mod_divide; [lia|exact HM]). rewrite Z.add_0_r. reflexivity.
Qed.
Print Assumptions C99_time_read_partial.
Theorem C99_time_error : forall p tt f, plain p -> (makeTime p tt f = None <-> ~ 0 <= tf_year f <= 9999).
Proof. exact makeTime_fails. Qed.
Print Assumptions C99_time_error.
(** With seconds in the zone (local mean times, as in 19th century data) the instant changes. *)
Theorem C99_zone_refuted : exists f t b, instant (tf_year f) (tf_month f) (tf_day f) (tf_hour f) (tf_min f) (tf_sec f) (tf_offset f) t /\
  makeTime noParams 0 f = Some b /\ unmarshal goText TyTime b = (VTime (t + 30), Some []).
Proof.
  set (f := {| tf_year := 2000; tf_month := 2; tf_day := 29; tf_hour := 12; tf_min := 0; tf_sec := 0; tf_offset := 30 |}).
  assert (HI : instant (tf_year f) (tf_month f) (tf_day f) (tf_hour f) (tf_min f) (tf_sec f) (tf_offset f) (951825600 - 30)).
  { assert (valid_date 2000 2 29) by (apply valid_date_iff; cbn; lia). split; [assumption|]. cbn. do 3 (split; [lia|]). exists 11016. split; [|lia]. apply calendar; [assumption|reflexivity]. }
  exists f, (951825600 - 30). eexists. split; [exact HI|]. split; [vm_compute; reflexivity|vm_compute; reflexivity].
Qed.
Print Assumptions C99_zone_refuted.

(** Examples: a structure with an ENUMERATED, an INTEGER with its default, an explicitly tagged string, a BIT STRING, an
    application tag and a nested SET ... *)
Definition exp3 : fparams := {| fp_optional := false; fp_explicit := true; fp_application := false; fp_private := false; fp_default := None; fp_tag := Some 3; fp_stringType := 0; fp_set := false; fp_omitEmpty := false |}.
Definition app40 : fparams := {| fp_optional := false; fp_explicit := false; fp_application := true; fp_private := false; fp_default := None; fp_tag := Some 40; fp_stringType := 0; fp_set := false; fp_omitEmpty := false |}.
Definition def7 : fparams := {| fp_optional := true; fp_explicit := false; fp_application := false; fp_private := false; fp_default := Some 7; fp_tag := None; fp_stringType := 0; fp_set := false; fp_omitEmpty := false |}.
Definition ex_ty : gotype :=
  TyStruct false (FCons noParams TyEnum (FCons def7 TyInt (FCons def7 TyInt (FCons exp3 TyString (FCons noParams TyBits (FCons app40 TyBytes (FCons noParams (TySlice true TyBool) FNil))))))).
Definition ex_val : goval :=
  VStruct [] [VInt 5; VInt 7; VInt (-129); VString (map z2b [195; 169]); VBits (map z2b [160]) 3; VBytes (map z2b [1; 2]); VSlice [VBool true; VBool false]].
Definition ex_der : bytes := map z2b ([48; 30] ++ [10; 1; 5] ++ [2; 2; 255; 127] ++ [163; 4; 12; 2; 195; 169] ++ [3; 2; 5; 160] ++ [95; 40; 2; 1; 2] ++ [49; 6; 1; 1; 255; 1; 1; 0]).
Example ex_ok : go_value ex_ty noParams ex_val /\ makeField goText ex_ty noParams ex_val = Some ex_der.
Proof.
  split; [|vm_compute; reflexivity]. cbn. unfold tags_fit. cbn. unfold max_int32. repeat split; try lia; try discriminate; match goal with H : Some _ = Some _ |- _ => injection H as <-; lia | _ => intros ? HE; injection HE as <-; lia end.
Qed.
Example ex_der_of : der_of ex_ty noParams ex_val ex_der.
Proof. apply C99_marshal_partial; [apply ex_ok|vm_compute; reflexivity|apply ex_ok]. Qed.
(** ... a string that has no encoding, and a time east of Greenwich. *)
Example ex_bad_string : go_value TyString noParams (VString [z2b 255]) /\ makeField goText TyString noParams (VString [z2b 255]) = None.
Proof. split; [|vm_compute; reflexivity]. cbn. unfold tags_fit. cbn. unfold max_int32. repeat split; try lia; discriminate. Qed.
Example ex_time : instant 2049 12 31 23 59 59 (330 * 60) 2524588199 /\
  makeTime noParams 0 {| tf_year := 2049; tf_month := 12; tf_day := 31; tf_hour := 23; tf_min := 59; tf_sec := 59; tf_offset := 330 * 60 |} =
  Some (map z2b [23; 17; 52; 57; 49; 50; 51; 49; 50; 51; 53; 57; 53; 57; 43; 48; 53; 51; 48]).
Proof.
  split; [|vm_compute; reflexivity]. assert (valid_date 2049 12 31) by (apply valid_date_iff; cbn; lia). split; [assumption|]. do 3 (split; [lia|]).
  exists 29219. split; [|lia]. apply calendar; [assumption|reflexivity].
Qed.
