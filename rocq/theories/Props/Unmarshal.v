(** C109-C110: what asn1andr.Unmarshal accepts and returns, for every Go type. *)
From Coq Require Import Lia.
From Verif.Model Require Import Bytes Env Asn1 GoTime GoUtf8.
From Verif.Spec Require Import Ber Asn1 Asn1Value Time Text Asn1Read.
From Verif.Proofs Require Import BytesFacts Asn1Header Asn1Value Asn1Decode Asn1ReadFacts.

(** C109: Unmarshal succeeds with a value and remaining bytes exactly when the specification reads that value. *)
Theorem C109_unmarshal : forall ty b v rest, well_described ty noParams -> (unmarshal goText ty b = (v, Some rest) <-> reads ty noParams b v rest).
Proof. intros ty b v rest H. apply (proj1 read_iff). exact H. Qed.
Print Assumptions C109_unmarshal.
(** The same for a value with field parameters (UnmarshalWithParams, and the fields of structs). *)
Theorem C109_field : forall ty p b v rest, well_described ty p -> (parseField goText ty p (zeroVal ty) b = (v, Some rest) <-> reads ty p b v rest).
Proof. intros ty p b v rest H. apply (proj1 read_iff). exact H. Qed.
Print Assumptions C109_field.
(** It fails exactly when no value can be read. *)
Theorem C109_error : forall ty p b, well_described ty p -> (snd (parseField goText ty p (zeroVal ty) b) = None <-> ~ exists v rest, reads ty p b v rest).
Proof.
  intros ty p b H. destruct (parseField goText ty p (zeroVal ty) b) as [v [rest|]] eqn:E; cbn [snd]; split; try discriminate; try reflexivity.
  - intros C. exfalso. apply C. exists v, rest. apply (proj1 read_iff); assumption.
  - intros _ (v' & rest' & C). apply (proj1 read_iff) in C; [congruence|exact H].
Qed.
Print Assumptions C109_error.
(** At most one value can be read. *)
Theorem C109_one_value : forall ty p b v rest v' rest', well_described ty p -> reads ty p b v rest -> reads ty p b v' rest' -> v' = v /\ rest' = rest.
Proof. intros ty p b v rest v' rest' H H1 H2. apply (proj1 read_iff) in H1, H2; try exact H. split; congruence. Qed.
Print Assumptions C109_one_value.

(** A structure with an optional explicitly tagged number (default 7), a list of identifiers, a flag, a time, an
    implicitly tagged UTF-8 text, a set of numbers and a raw value *)
Definition params (optional explicit : bool) (dflt tag : option Z) (stringType : Z) (set : bool) : fparams :=
  {| fp_optional := optional; fp_explicit := explicit; fp_application := false; fp_private := false; fp_default := dflt; fp_tag := tag; fp_stringType := stringType; fp_set := set; fp_omitEmpty := false |}.
Definition toy_type : gotype :=
  TyStruct true
    (FCons (params true true (Some 7) (Some 0) 0 false) TyInt
    (FCons noParams (TySlice false TyOid)
    (FCons (params true false None (Some 5) 0 false) TyFlag
    (FCons noParams TyTime
    (FCons (params true false None (Some 1) 12 false) TyString
    (FCons (params false false None None 0 true) (TySlice false TyInt)
    (FCons noParams TyRaw FNil))))))).
Definition toy_bytes : bytes :=
  map z2b [48; 39;  160; 3; 2; 1; 65;  48; 4; 6; 2; 42; 3;  23; 13; 55; 48; 48; 49; 48; 49; 48; 48; 48; 48; 48; 48; 90;  129; 1; 120;  49; 6; 2; 1; 9; 2; 1; 8;  5; 0;  99].
Theorem C109_nonvacuous :
  well_described toy_type noParams /\
  exists raw, reads toy_type noParams toy_bytes
    (VStruct raw [VInt 65; VSlice [VOid [1; 2; 3]]; VBool false; VTime 0; VString [z2b 120]; VSlice [VInt 9; VInt 8]; VRaw 0 5 false [] (map z2b [5; 0])]) [z2b 99].
Proof.
  split; [cbn; intuition discriminate|]. exists (takeZ 41 toy_bytes). apply C109_unmarshal; [cbn; intuition discriminate|]. vm_compute. reflexivity.
Qed.

(** C110: an optional field that is not there is left out.  With an explicit tag this holds only when something follows
    the identifier and length octets of the element that is there instead. *)
Theorem C110_skipped_partial : forall ty p b class tag compound n body, well_described ty p -> ty <> TyAny -> fp_optional p = true ->
  begins b class tag compound n body ->
  (if fp_explicit p then body <> [] /\ ~ wrapper p class tag compound n else ~ exists kind, fits ty p class tag compound kind) ->
  parseField goText ty p (zeroVal ty) b = (default_value ty p, Some b).
Proof.
  intros ty p b class tag compound n body Hw Ha Ho Hb HX. apply C109_field; [exact Hw|].
  assert (HA : absent ty p b).
  { right. split; [exact Ha|]. exists class, tag, compound, n, body. split; [exact Hb|]. destruct (fp_explicit p); [|exact HX]. destruct HX as (H1 & H2). split; [exact H1|left; exact H2]. }
  destruct ty; left; (split; [exact HA|split; [exact Ho|split; reflexivity]]).
Qed.
Print Assumptions C110_skipped_partial.
(** A structure of an optional explicitly tagged number and any value: a final NULL is not accepted, though a final OCTET
    STRING of one octet is. *)
Definition opt_type : gotype := TyStruct false (FCons (params true true None (Some 0) 0 false) TyInt (FCons noParams TyRaw FNil)).
Theorem C110_last_refuted :
  well_described opt_type noParams /\
  (forall v rest, ~ reads opt_type noParams (map z2b [48; 2; 5; 0]) v rest) /\ snd (unmarshal goText opt_type (map z2b [48; 2; 5; 0])) = None /\
  unmarshal goText opt_type (map z2b [48; 3; 4; 1; 0]) = (VStruct [] [VInt 0; VRaw 0 4 false [z2b 0] (map z2b [4; 1; 0])], Some []).
Proof.
  assert (HW : well_described opt_type noParams) by (cbn; intuition discriminate).
  assert (HN : snd (unmarshal goText opt_type (map z2b [48; 2; 5; 0])) = None) by (vm_compute; reflexivity).
  split; [exact HW|]. split; [|split; [exact HN|vm_compute; reflexivity]].
  intros v rest C. apply (proj1 (C109_error opt_type noParams _ HW) HN). exists v, rest. exact C.
Qed.
Print Assumptions C110_last_refuted.
(** The length in an explicit tag is not compared with the element inside: here it says 9 and 3 octets follow. *)
Theorem C110_wrapper_length_refuted :
  unmarshal goText opt_type (map z2b [48; 7; 160; 9; 2; 1; 5; 5; 0]) = (VStruct [] [VInt 5; VRaw 0 5 false [] (map z2b [5; 0])], Some []).
Proof. vm_compute. reflexivity. Qed.
Print Assumptions C110_wrapper_length_refuted.
(** Whatever it says, as long as it is not zero, the element that follows is the value, and what follows that remains. *)
Theorem C110_inside : forall ty p b v rest, well_described ty p -> ty <> TyRaw -> fp_explicit p = true -> ty <> TyAny ->
  parseField goText ty p (zeroVal ty) b = (v, Some rest) ->
  (fp_optional p = true /\ v = default_value ty p /\ rest = b) \/ (ty = TyFlag /\ v = VBool true) \/
  exists class tag compound n class' tag' compound' content full, begins b class tag compound n (full ++ rest) /\ wrapper p class tag compound n /\ 0 < n /\
    element class' tag' compound' content full /\ exists kind, fits ty p class' tag' compound' kind.
Proof.
  intros ty p b v rest Hw Hr He Ha H. apply C109_field in H; [|exact Hw].
  assert (HX : (absent ty p b /\ fp_optional p = true /\ v = default_value ty p /\ rest = b) \/ (flagged ty p b rest /\ v = VBool true) \/ exists c tg k kind content, present ty p b c tg k kind content rest).
  { destruct ty; try congruence; cbn [reads] in H; (destruct H as [H|[H|[(C & _)|(c & tg & k & kind & content & HP & _)]]]; [left; exact H|right; left; exact H|discriminate C|right; right; exists c, tg, k, kind, content; exact HP]). }
  destruct HX as [(_ & H1 & H2 & H3)|[((H1 & _) & H2)|(c & tg & k & kind & content & HP)]].
  - left. split; [exact H1|split; [exact H2|exact H3]].
  - right. left. split; assumption.
  - right. right. unfold present in HP. rewrite He in HP. destruct HP as [(C & _)|(_ & oc & ot & ok & n & full & Hb & Hwr & Hn & HE & HF)]; [contradiction|].
    exists oc, ot, ok, n, c, tg, k, content, full. split; [exact Hb|]. split; [exact Hwr|]. split; [exact Hn|]. split; [exact HE|]. exists kind. exact HF.
Qed.
Print Assumptions C110_inside.
