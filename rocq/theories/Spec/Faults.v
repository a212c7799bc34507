(** I/O errors while the APK is being read. *)
From Verif.Model Require Import Bytes Env Reader.
From Verif.Spec Require Import ApkLayout Entries Signer SignerV3 Verified Calls.

(** A reader of [file] any operation of which may fail; the ones that succeed answer truthfully. *)
Definition unreliable (file : bytes) (R : reader) : Prop :=
  (forall n, rd_size R = Some n -> n = zlen file) /\
  (forall s o n b, rd_read R s o n = Some b -> read_at file o n = Some b).

(** The reads that look for the APK Signing Block (before any content is hashed). *)
Definition locating (s : site) : Prop :=
  match s with SEocd _ | SZip64 | SFooter | SBlock => True | _ => False end.
(** None of them fails. *)
Definition locates (file : bytes) (R : reader) : Prop := forall s o n, locating s -> rd_read R s o n = read_at file o n.

(** The file has a ZIP64 End Of Central Directory locator in front of its End Of Central Directory record. *)
Definition zip64_file (file : bytes) : Prop :=
  exists off cdSize cdOff rec, good_eocd file off cdSize cdOff rec /\ last_eocd file off /\ zip64_locator file off.

(** The contents of an APK verify under the given scheme for devices minSdk..maxSdk, by the signers of these chains.  (Other
    chains may be reported in front of them: see C23.  A v3.1 block that is verified a second time has its chains
    reported twice.) *)
Definition signed_through (E : env) (es : list (Z * bytes)) (sections : list bytes) (minSdk maxSdk schemeId : Z) (chs : list (list cert)) : Prop :=
  (schemeId = 2 /\ exists is before, v2_verified E maxSdk es sections is /\ chs = before ++ chains2 is /\
     (28 <= minSdk \/ ~ v3_in maxSdk es -> before = []))
  \/ (schemeId = 3 /\ exists is lin, v3_verified E minSdk maxSdk es sections is lin /\ ~ v31_in maxSdk es /\ chs = chains3 is)
  \/ (schemeId = 31 /\ exists is31 lin is3, v31_verified E minSdk maxSdk es sections is31 lin is3 /\
        (chs = chains3 is31 \/ chs = chains3 is31 ++ chains3 is31)).
