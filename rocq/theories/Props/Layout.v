(** C01, C02, C09: layout of the file and length-prefixed fields. *)
From Verif.Model Require Import Bytes SigBlock Utils.
From Verif.Spec Require Import Encoding ApkLayout.
From Verif.Proofs Require Import UtilsFacts SigBlockFacts.
From Verif.Examples Require Import Toy.

(** C01: the record used is exactly the last end-of-central-directory record of the file, provided the
    central directory ends where it starts; in every other case there is none. *)
Theorem C01_eocd_iff : forall file off cdSize cdOff rec,
  findEocd file = EocdFound {| ei_eocdOffset := off; ei_centralDirOffset := cdOff; ei_centralDirSize := cdSize; ei_eocd := rec |}
  <-> good_eocd file off cdSize cdOff rec /\ last_eocd file off.
Proof. exact findEocd_iff. Qed.
Print Assumptions C01_eocd_iff.

Example C01_nonvacuous :
  exists off cdSize cdOff rec, 0 < cdSize /\
    let file := toy_apk toy_before (enc_entries [(1, toy_cd)]) toy_cd (map z2b [33; 34]) in
    good_eocd file off cdSize cdOff rec /\ last_eocd file off.
Proof.
  do 4 eexists. split; [|cbv zeta; apply C01_eocd_iff; vm_compute; reflexivity]. vm_compute. reflexivity.
Qed.

(** C02: the signing block used is exactly the framed range that ends at the central directory. *)
Theorem C02_signing_block_iff : forall file cdOff block off,
  findApkSigningBlock file cdOff = SigBlockFound block off <->
  exists pairs, block = signing_block pairs /\ block_before file cdOff off pairs.
Proof. exact findApkSigningBlock_iff. Qed.
Print Assumptions C02_signing_block_iff.

Example C02_nonvacuous :
  exists cdOff off, block_before (toy_apk toy_before (enc_entries [(1, toy_cd)]) toy_cd []) cdOff off (enc_entries [(1, toy_cd)]).
Proof.
  exists (zlen (toy_before ++ signing_block (enc_entries [(1, toy_cd)]))), (zlen toy_before).
  exists toy_before, (toy_cd ++ toy_eocd (zlen toy_cd) (zlen toy_before + zlen (signing_block (enc_entries [(1, toy_cd)]))) []).
  repeat split; vm_compute; congruence.
Qed.

(** C09: reading a length-prefixed field. *)
Theorem C09_field_iff : forall b x rest,
  getLengthPrefixedSlice b = Some (x, rest) <-> b = lp x ++ rest /\ fits x.
Proof. exact getLP_iff. Qed.
Print Assumptions C09_field_iff.

Theorem C09_field_error_iff : forall b,
  getLengthPrefixedSlice b = None <-> (forall x rest, b = lp x ++ rest -> ~ fits x).
Proof. exact getLP_none. Qed.
Print Assumptions C09_field_error_iff.

(** A list of fields is read back exactly, and a sequence is accepted only if it is such a list. *)
Theorem C09_sequence_iff : forall b xs, lpItems b = (xs, true) <-> b = lps xs /\ Forall fits xs.
Proof. exact lpItems_iff. Qed.
Print Assumptions C09_sequence_iff.

Example C09_nonvacuous : lpItems (lps [toy_cd; []; toy_before]) = ([toy_cd; []; toy_before], true).
Proof. vm_compute. reflexivity. Qed.
