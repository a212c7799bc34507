(** Byte-level encodings used by the APK signature formats, as encoders.
    (Independent of the parsers in Model/.) *)
From Verif.Model Require Import Bytes.

(** uint32 / uint64 little endian *)
Definition le32 (z : Z) : bytes := le_enc 4 z.
Definition le64 (z : Z) : bytes := le_enc 8 z.

(** A length-prefixed field and a sequence of them. *)
Definition lp (x : bytes) : bytes := le32 (zlen x) ++ x.
Definition lps (xs : list bytes) : bytes := flat_map lp xs.

(** Lengths are int32 in the format. *)
Definition fits (x : bytes) : Prop := zlen x <= 2147483647.

Definition is_int32 (z : Z) : Prop := -2147483648 <= z <= 2147483647.
Definition is_uint32 (z : Z) : Prop := 0 <= z < 4294967296.
