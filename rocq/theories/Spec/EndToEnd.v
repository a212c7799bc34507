(** Files without an APK Signing Block, and what the Android manifest declares (C112). *)
From Coq Require Import String.
From Verif.Model Require Import Bytes Env.
From Verif.Spec Require Import Encoding ApkLayout AndroidManifest TopLevel.

(** No signing block stands before the central directory that the last end-of-central-directory record gives. *)
Definition without_block (file : bytes) : Prop :=
  4 <= zlen file /\
  forall off cdSize cdOff rec, good_eocd file off cdSize cdOff rec -> last_eocd file off -> ~ exists at_ pairs, block_before file cdOff at_ pairs.

(** AndroidManifest.xml of the APK, up to its first <uses-sdk>, declares these levels and this sandbox version. *)
Definition manifest_says (E : env) (z : zip) (min target sandbox : Z) : Prop :=
  exists toks ok, manifest_of E z toks ok /\ (ok = true \/ exists u, In u toks /\ named "uses-sdk" u) /\ manifest_info toks min target sandbox.

