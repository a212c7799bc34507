(** When is an APK as a whole authenticated?  Combines the schemes. *)
From Coq Require Import String.
From Verif.Model Require Import Bytes Env ApkVerifier.
From Verif.Spec Require Import Encoding ApkLayout Entries Signer SignerV3 Verified Calls JarSigned AndroidManifest.

(** The APK Signing Block verifies for devices minSdk..maxSdk under the given scheme, by these signers' chains. *)
Definition block_signed (E : env) (file : bytes) (minSdk maxSdk schemeId : Z) (chs : list (list cert)) : Prop :=
  exists es sections, apk_with file es sections /\
    ((schemeId = 2 /\ exists is before, v2_verified E maxSdk es sections is /\ chs = before ++ chains2 is /\
        (28 <= minSdk \/ ~ v3_in maxSdk es -> before = []))
     \/ (schemeId = 3 /\ exists is lin, v3_verified E minSdk maxSdk es sections is lin /\ ~ v31_in maxSdk es /\ chs = chains3 is)
     \/ (schemeId = 31 /\ exists is31 lin is3, v31_verified E minSdk maxSdk es sections is31 lin is3 /\ chs = chains3 is31)).

(** The JAR signatures verify for devices minSdk..maxSdk (see C28). *)
Definition jar_signed (E : env) (S : sched) (z : zip) (minSdk maxSdk : Z) (chs : list (list cert)) : Prop :=
  exists man signatures,
    main_manifest z man /\
    (forall name entry, sget name (Manifest.m_entries man) = Some entry -> exists f, sget name (z_map z) = Some f) /\
    signatures <> [] /\ Forall (jar_signature E S z man minSdk maxSdk) signatures /\
    forall path f, covered_file z path f ->
      (exists entry, sget path (Manifest.m_entries man) = Some entry /\ digests_ok E entry (s2b "-digest") minSdk maxSdk (of_file E f)) /\
      filter (lists_file path) signatures <> [] /\
      same_chains chs (map snd (filter (lists_file path) signatures)).

(** The file starts with the DEX magic. *)
Definition starts_with_dex (file : bytes) : Prop := exists rest, file = s2b "dex" ++ [x0a] ++ rest.

(** The SDK level from which the APK must verify: the caller's, or the manifest's if the caller passes -1. *)
Definition effective_min (E : env) (z : zip) (minArg minSdk : Z) : Prop :=
  (minArg <> -1 -> minSdk = minArg) /\
  (minArg = -1 ->
     (sget (s2b "AndroidManifest.xml") (z_map z) = None -> minSdk = 1) /\
     forall toks ok min target sandbox, manifest_of E z toks ok -> (ok = true \/ exists u, In u toks /\ named "uses-sdk" u) ->
       manifest_info toks min target sandbox -> minSdk = min).

(** The signing block has a signature block of a scheme that the newest device knows. *)
Definition usable (maxSdk : Z) (es : list (Z * bytes)) : Prop := v2_in maxSdk es \/ v3_in maxSdk es \/ v31_in maxSdk es.

(** ** ExtractCerts: chains of signers whose signatures verify; file digests, SDK ranges and lineages are not compared. *)

(** The signers of the newest usable block, each having signed its signed data (see C10, C14). *)
Inductive block_chains (E : env) (maxSdk : Z) (es : list (Z * bytes)) (chs : list (list cert)) : Prop :=
| bc_31 b is : v31_in maxSdk es -> last_entry es id_v31 b -> v3_block E maxSdk 0 b is -> chs = chains3 is -> block_chains E maxSdk es chs
| bc_3 b is : ~ v31_in maxSdk es -> v3_in maxSdk es -> last_entry es id_v3 b -> v3_block E maxSdk 0 b is -> chs = chains3 is -> block_chains E maxSdk es chs
| bc_2 b is : ~ v31_in maxSdk es -> ~ v3_in maxSdk es -> v2_in maxSdk es -> last_entry es id_v2 b -> v2_block E maxSdk (present_in es) b is ->
    chs = chains2 is -> block_chains E maxSdk es chs.
(** The JAR signers: one chain per signature found, each signature file being signed by the head of its chain, which is
    its PKCS#7 object's first signer. *)
Definition jar_chains (E : env) (S : sched) (z : zip) (minSdk maxSdk : Z) (chs : list (list cert)) : Prop :=
  exists signatures : list (p7 * Manifest.manifest * list cert), signatures <> [] /\ chs = map snd signatures /\
    Forall (fun s => signature_pair E z (fst (fst s)) (snd (fst s)) /\
                     block_verified E S (fst (fst s)) (Manifest.m_rawData (snd (fst s))) minSdk maxSdk (snd s)) signatures.
