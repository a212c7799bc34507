(** C32, C33: JAR manifests. *)
From Coq Require Import String Lia.
From Verif.Model Require Import Bytes Env Manifest.
From Verif.Spec Require Import JarManifest.
From Verif.Proofs Require Import BytesFacts ManifestFacts ManifestSections ManifestPanic.

(** C32.  In a parsed MANIFEST.MF the sections have distinct names; the file is exactly the main section, then the raw
    chunks of the sections one after the other, then a tail in which no complete attribute starts; and a section's
    attributes are a function of its own chunk: the main section followed by this chunk alone parses to this section only. *)
Theorem C32_sections_partition : forall data m, parseBytes true data = Ret (inl m) ->
  m_rawData m = data /\ 0 <= m_mainEnd m <= zlen data /\
  NoDup (map fst (m_entries m)) /\ map fst (m_entries m) = map fst (m_chunks m) /\
  (exists tail, data = takeZ (m_mainEnd m) data ++ concat (map snd (m_chunks m)) ++ tail /\
     forall st a t, attr_ok a -> (t = [] \/ exists c t', t = c :: t' /\ text_byte c /\ c <> x20) ->
                    tail <> enc_attr st a ++ t) /\
  (forall nm ch at_, sget nm (m_chunks m) = Some ch -> sget nm (m_entries m) = Some at_ ->
     parseBytes true (takeZ (m_mainEnd m) data ++ ch) =
     Ret (inl (mkManifest (takeZ (m_mainEnd m) data ++ ch) (m_main m) [(nm, at_)] [(nm, ch)] (m_mainEnd m)))).
Proof.
  intros data m H. destruct (parse_sections data m H) as (A & B & C & D & (tail & T1 & T2) & F).
  repeat (split; [assumption|]). split; [|exact F]. exists tail. split; [exact T1|].
  intros st a t Ha [-> | (c & t' & -> & (H0 & H1 & H2) & H3)]; apply T2; try exact Ha; [exact I|].
  repeat (split; [assumption|]). assumption.
Qed.
Print Assumptions C32_sections_partition.

Definition mf_example : bytes :=
  s2b "Manifest-Version: 1.0" ++ [x0d; x0a; x0d; x0a] ++
  s2b "Name: res/a" ++ [x0d; x0a; x20] ++ s2b "bc.png" ++ [x0d; x0a] ++ s2b "SHA1-Digest: AAAA" ++ [x0d; x0a; x0d; x0a] ++
  s2b "Name: classes.dex" ++ [x0d; x0a] ++ s2b "SHA1-Digest: BBBB" ++ [x0d; x0a].
Example C32_nonvacuous : exists m, parseBytes true mf_example = Ret (inl m) /\ m_mainEnd m = 25 /\
  map fst (m_chunks m) = [s2b "res/abc.png"; s2b "classes.dex"] /\
  sget (s2b "res/abc.png") (m_entries m) = Some [(s2b "sha1-digest", s2b "AAAA")].
Proof. eexists. split; [vm_compute; reflexivity|]. repeat split. Qed.

(** C33.  Every manifest with valid names and values, in any of the three line-end styles, with values split over
    any number of continuation lines (none of the inner ones empty), parses; the result has exactly the given sections,
    with exactly the given attributes (names in lower case, last value wins), and the chunks are the bytes written. *)
Theorem C33_round_trip_partial : forall st withChunks main (secs : list (bytes * jsection)),
  js_attrs main <> [] -> Forall attr_ok (js_attrs main) ->
  Forall (fun p => section_named (snd p) (fst p) /\ Forall attr_ok (js_attrs (snd p))) secs ->
  blanks_ok (main :: map snd secs) -> NoDup (map fst secs) ->
  let data := enc_section st main ++ concat (map (fun p => enc_section st (snd p)) secs) in
  exists m, parseBytes withChunks data = Ret (inl m) /\
    m_rawData m = data /\ m_mainEnd m = zlen (enc_section st main) /\
    (forall k, sget k (m_main m) = attr_value (js_attrs main) k) /\
    map fst (m_entries m) = map fst secs /\
    (forall n x, In (n, x) secs -> exists at_, sget n (m_entries m) = Some at_ /\
                 forall k, sget k at_ = attr_value (section_attrs x) k) /\
    m_chunks m = (if withChunks then map (fun p => (fst p, enc_section st (snd p))) secs else []).
Proof.
  intros st wc main secs H1 H2 H3 H4 H5 data.
  eexists. split; [exact (parse_encoded st wc main secs H1 H2 H3 H4 H5)|].
  cbn [m_rawData m_main m_entries m_chunks m_mainEnd].
  split; [reflexivity|]. split; [reflexivity|].
  split; [intro k; rewrite attrs_map_get; destruct (attr_value _ k); reflexivity|].
  split; [rewrite map_map; reflexivity|]. split; [|reflexivity].
  intros n x Hin. exists (attrs_map (section_attrs x) []). split.
  - apply (in_mget bytes_eqb bytes_eqb_eq); [rewrite map_map; exact H5|].
    apply in_map_iff. exists (n, x). split; [reflexivity|exact Hin].
  - intro k. rewrite attrs_map_get. destruct (attr_value _ k); reflexivity.
Qed.
Print Assumptions C33_round_trip_partial.

Definition mf_main : jsection :=
  {| js_attrs := [ {| ja_name := s2b "Manifest-Version"; ja_first := s2b "1.0"; ja_more := [] |} ]; js_blank := 1 |}.
Definition mf_sec : jsection :=
  {| js_attrs := [ {| ja_name := s2b "Name"; ja_first := s2b "res/a"; ja_more := [s2b "bc"; s2b ".png"] |};
                   {| ja_name := s2b "SHA1-Digest"; ja_first := s2b "AAAA"; ja_more := [] |} ]; js_blank := 2 |}.
Ltac bytes_all := repeat first [apply Forall_nil | apply Forall_cons; [repeat split; discriminate|]].
Ltac names_all := unfold name_byte; repeat first [apply Forall_nil | apply Forall_cons; [vm_compute; (left; lia) || (right; left; split; discriminate) || tauto || intuition congruence|]].
Example C33_nonvacuous :
  js_attrs mf_main <> [] /\ Forall attr_ok (js_attrs mf_main) /\ Forall attr_ok (js_attrs mf_sec) /\
  section_named mf_sec (s2b "res/abc.png") /\ blanks_ok [mf_main; mf_sec].
Proof.
  assert (NB : forall n, forallb isValidNameByte n = true -> Forall name_byte n).
  { intros n H. rewrite forallb_forall in H. apply Forall_forall. intros x Hx. apply isValidNameByte_iff, H, Hx. }
  split; [discriminate|]. split; [|split; [|split; [|cbn; split; [lia|exact I]]]].
  - constructor; [|constructor]. split; [split; [vm_compute; split; discriminate|apply NB; reflexivity]|].
    split; [bytes_all|]. split; [constructor|constructor].
  - constructor; [|constructor; [|constructor]]; (split; [split; [vm_compute; split; discriminate|apply NB; reflexivity]|]);
    (split; [bytes_all|]).
    + split; [repeat (constructor; [bytes_all|]); constructor|]. cbn. constructor; [discriminate|constructor].
    + split; constructor.
  - eexists _, _. split; [reflexivity|]. split; reflexivity.
Qed.

(** C33 for arbitrary continuation splits is false: a continuation line holding no text makes the parser panic. *)
Theorem C33_refuted : exists data,
  data = s2b "Manifest-Version: 1" ++ [x0a; x20; x0a; x20] ++ s2b ".0" ++ [x0a; x0a] /\
  parseBytes true data = Panic PSlice.
Proof. eexists. split; [reflexivity|]. vm_compute. reflexivity. Qed.
Print Assumptions C33_refuted.
