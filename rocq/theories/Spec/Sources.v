(** The data sources the code builds, with the bytes they stand for. *)
From Verif.Model Require Import Bytes DataSource.

Inductive source_of : dataSource -> bytes -> Prop :=
| src_file pre content post :                      (* a section of the APK file *)
    source_of (dataSourceApk (pre ++ content ++ post) (zlen pre) (zlen pre + zlen content)) content
| src_bytes content :                              (* bytes in memory *)
    source_of (dataSourceBytes content) content
| src_chain dss contents :                         (* concatenation *)
    sources_of dss contents -> source_of (dataSourceChained dss) (concat contents)
with sources_of : list dataSource -> list bytes -> Prop :=
| srcs_nil : sources_of [] []
| srcs_cons d c ds cs : source_of d c -> sources_of ds cs -> sources_of (d :: ds) (c :: cs).
