(** /repo/apilevel/levels.go *)
From Verif.Model Require Import Bytes.

(* levels.go:13-47 *)
Definition V_AnyMin : Z := -1.
Definition V_AnyMax : Z := max_int32.
Definition V1_0_InitialRelease : Z := 1.
Definition V3_0_Honeycomb : Z := 11.
Definition V6_0_Marshmallow : Z := 23.
Definition V7_0_Nougat : Z := 24.
Definition V8_0_Oreo : Z := 26.
Definition V9_0_Pie : Z := 28.
Definition V11_0_Eleven : Z := 30.
Definition V13_0_TIRAMISU : Z := 33.

(* levels.go:50-68 *)
Definition SupportsSigV2 (level : Z) : bool := V7_0_Nougat <=? level.
Definition SupportsSigV3 (level : Z) : bool := V9_0_Pie <=? level.
Definition SupportsSigV31 (level : Z) : bool := V13_0_TIRAMISU <=? level.
Definition RequiresSandboxV2 (level : Z) : bool := V8_0_Oreo <=? level.
Definition SupportsStampVerification (level : Z) : bool := V11_0_Eleven <=? level.
