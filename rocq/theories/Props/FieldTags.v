(** C114: struct tags, and the tags of the structures that are read and written. *)
From Coq Require Import String.
From Verif.Model Require Import Bytes GoStrings Asn1 Pkcs7 Pkcs7Envelope X509 FieldTags.
From Verif.Spec Require Import FieldTags.
From Verif.Proofs Require Import FieldTagsFacts.

(** Every tag: its options, whatever their order, say what is read from it. *)
Theorem C114_field_tag : forall l, options l -> says l (fst (parseFieldParameters (tag_text l))) (snd (parseFieldParameters (tag_text l))).
Proof. intros l H. unfold parseFieldParameters. rewrite (tag_split l H). exact (fold_says l [] noParams 0 says_nil). Qed.
Print Assumptions C114_field_tag.
(** Every string is such a tag. *)
Theorem C114_every_string : forall s, exists l, options l /\ tag_text l = s.
Proof. intros s. exists (splitByte s ","%byte). destruct (split_tag s) as (H1 & H2). split; [exact H2|exact H1]. Qed.
Print Assumptions C114_every_string.

(** The structures of the model have the tags of the source: the fields in order, "" for a field without a tag. *)
Definition tagged (t : gotype) (tags : list string) : Prop := structParams t = map (fun s => fst (parseFieldParameters (s2b s))) tags.
Local Open Scope string_scope.
Theorem C114_structures :
  (* fullsailor/pkcs7/pkcs7.go:39-42, 63-70, 76-107, 125-134, 809-812, 299-301 *)
  tagged tyContentInfo [""; "explicit,optional,tag:0"] /\
  tagged tySignedData ["default:1"; "set"; ""; "optional,tag:0"; "optional,tag:1"; "set"] /\
  tagged tyEnvelopedData [""; "set"; ""] /\
  tagged tyRecipient [""; ""; ""; ""] /\
  tagged tyEncryptedContent [""; ""; "tag:0,optional"] /\
  tagged tyAttribute [""; "set"] /\
  tagged tyIssuerAndSerial [""; ""] /\
  tagged tySignerInfo ["default:1"; ""; ""; "optional,tag:0"; ""; ""; "optional,tag:1"] /\
  tagged tyAttributeSet ["set"] /\
  tagged tyGcmParams ["tag:4"; ""] /\
  (* crypto/x509/pkix (standard library) *)
  tagged tyAlgorithm [""; "optional"] /\
  tagged tyExtension [""; "optional"; ""] /\
  tagged tyTbsList ["optional,default:0"; ""; ""; ""; "optional"; "optional"; "tag:0,optional,explicit"] /\
  tagged tyRevoked [""; ""; "optional"] /\
  tagged tyCrl [""; ""; ""] /\
  (* internal/x509andr/x509.go:134-178, 350-355, 920-957 *)
  tagged tyCertificate [""; ""; ""] /\
  tagged tyTbs ["optional,explicit,default:0,tag:0"; ""; ""; ""; ""; ""; ""; "optional,tag:1"; "optional,tag:2"; "optional,explicit,tag:3"] /\
  tagged tyValidity [""; ""] /\
  tagged tySpki [""; ""] /\
  tagged tyAuthKeyId ["optional,tag:0"] /\
  tagged tyPss ["explicit,tag:0"; "explicit,tag:1"; "explicit,tag:2"; "optional,explicit,tag:3,default:1"] /\
  tagged tyBasicConstraints ["optional"; "optional,default:-1"] /\
  tagged tyNameConstraints ["optional,tag:0"; "optional,tag:1"] /\
  tagged (match tySubtrees with TySlice _ t => t | t => t end) ["tag:2,optional,ia5"] /\
  tagged (match tyDistributionPoints with TySlice _ t => t | t => t end) ["optional,tag:0"; "optional,tag:1"; "optional,tag:2"] /\
  tagged (match tyDistributionPoints with TySlice _ (TyStruct _ (FCons _ t _)) => t | t => t end) ["optional,tag:0"; "optional,tag:1"].
Proof. repeat split; vm_compute; reflexivity. Qed.
Local Close Scope string_scope.
Print Assumptions C114_structures.

Theorem C114_nonvacuous : options [s2b "optional"; s2b "tag:x"; s2b "tag:+7"; s2b "explicit"; s2b "rubbish"; s2b "default:-42"; s2b "utf8"; s2b "ia5"] /\
  exists p time, parseFieldParameters (s2b "optional,tag:x,tag:+7,explicit,rubbish,default:-42,utf8,ia5") = (p, time) /\
    fp_optional p = true /\ fp_explicit p = true /\ fp_tag p = Some 7 /\ fp_default p = Some (-42) /\ fp_stringType p = 22 /\ time = 0.
Proof.
  split; [|do 2 eexists; split; [vm_compute; reflexivity|repeat split]]. split; [discriminate|].
  repeat (constructor; [intros C; cbv in C; repeat (destruct C as [C|C]; [discriminate C|]); exact C|]). constructor.
Qed.
Print Assumptions C114_nonvacuous.
