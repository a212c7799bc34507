(** What a signer published, and what an APK shows to be signed with a key (C113). *)
From Verif.Model Require Import Bytes Env Result.
From Verif.Spec Require Import Encoding Algorithms ApkLayout Digests Entries Signer SignerV3 Verified.

(** [sd] is signed data for the contents [original]: each digest in it is the digest of these contents. *)
Definition describes (E : env) (sd : bytes) (original : list bytes) : Prop :=
  exists digs rest, sd = lp digs ++ rest /\ fits digs /\
    forall algos algo digest k, digest_list digs algos algo digest -> has_kind algo k -> content_digest E k original digest.

(** A record of the v2, v3 or v3.1 block of the APK holds the signed data [sd] and a signature of it that the key [pk] confirms. *)
Definition shown_signed (E : env) (es : list (Z * bytes)) (pk sd : bytes) : Prop :=
  exists id block signers junk signer sigs rest algos algo sig key,
    last_entry es id block /\ block = lp (lps signers) ++ junk /\ fits (lps signers) /\ Forall fits signers /\ In signer signers /\
    fits sd /\ fits sigs /\
    ((id = id_v2 /\ signer = lp sd ++ lp sigs ++ rest) \/
     ((id = id_v3 \/ id = id_v31) /\ exists range, zlen range = 8 /\ signer = lp sd ++ range ++ lp sigs ++ rest)) /\
    signature_list sigs algos algo sig /\ e_pkix_andr E pk = Some key /\ sig_valid E key algo sd sig.

(** No forgery: what the APK shows to be signed with the key [pk] is among the signed data that the owner of the key made, for
    the contents (versions of the app) listed with it. *)
Definition owner_made (E : env) (es : list (Z * bytes)) (pk : bytes) (versions : list (bytes * list bytes)) : Prop :=
  (forall sd, shown_signed E es pk sd -> exists original, In (sd, original) versions) /\
  (forall sd original, In (sd, original) versions -> describes E sd original /\ zlen (concat original) < 9223372036854775808).

(** Two different messages with the same hash, one hashed for these contents, the other for those. *)
Definition digest_collision (E : env) (sections original : list bytes) : Prop :=
  exists k h m m', digest_message E k sections h m /\ digest_message E k original h m' /\ m <> m' /\ e_hash E h m = e_hash E h m'.
