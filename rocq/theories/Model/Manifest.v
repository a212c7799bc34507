(** /repo/manifest.go: the JAR manifest / signature-file parser *)
From Coq Require Import String.
From Verif.Model Require Import Bytes Env.

(* manifest.go:12-23 *)
Definition attrSignatureVersion : bytes := s2b "signature-version".
Definition attrName : bytes := s2b "name".
Definition attrCreatedBy : bytes := s2b "created-by".
Definition attrDigestMainAttrSuffix : bytes := s2b "-digest-manifest-main-attributes".
Definition attrDigestSuffix : bytes := s2b "-digest".
Definition attrDigestSigntoolSuffix : bytes := s2b "-digest-manifest".
Definition attrAndroidApkSigned : bytes := s2b "x-android-apk-signed".

(** map[string]string *)
Notation attrs := (list (bytes * bytes)).

(** manifest.go:25-31 *)
Record manifest : Set := mkManifest {
  m_rawData : bytes;
  m_main : attrs;
  m_entries : list (bytes * attrs);
  m_chunks : list (bytes * bytes);
  m_mainEnd : Z                       (* mainAttributtesEnd *)
}.

Inductive merr : Set := MErr (msg : string).

(** manifest.go:209-224 isValidName *)
Definition isValidNameByte (b : byte) : bool :=
  let c := b2z b in
  ((97 <=? c) && (c <=? 122)) || ((65 <=? c) && (c <=? 90)) || (c =? 95) || (c =? 45) || ((48 <=? c) && (c <=? 57)).
Definition isValidName (name : bytes) : bool :=
  negb (zlen name =? 0) && negb (70 <? zlen name) && forallb isValidNameByte name.

(** strings.ToLower on a name that passed isValidName (so ASCII only) *)
Definition asciiLowerByte (b : byte) : byte :=
  if (65 <=? b2z b) && (b2z b <=? 90) then z2b (b2z b + 32) else b.
Definition asciiLower (s : bytes) : bytes := map asciiLowerByte s.

(** manifest.go:136-138 scan for ':'; (bytes before it, bytes after it); None = not found *)
Fixpoint findColon (r : bytes) : option (bytes * bytes) :=
  match r with
  | [] => None
  | c :: t => if byte_eqb c ":"%byte then Some ([], t)
              else match findColon t with Some (p, q) => Some (c :: p, q) | None => None end
  end.

(** State of the value loop, manifest.go:163-199.  The code keeps positions mark and last; here
    [vl_value] = value, [vl_cur] = data[mark:last] when last >= mark, [vl_junk] = the bytes read
    since last (or since mark when last < mark), [vl_ok] = (last >= mark), [vl_cr] = lastCr,
    [vl_clb] = consecutiveLineBreaks. *)
Record vstate : Set := mkV {
  vl_value : bytes; vl_cur : bytes; vl_junk : bytes; vl_ok : bool; vl_cr : bool; vl_clb : nat
}.
Definition v0 : vstate := mkV [] [] [] true false 0.

(** manifest.go:168-199 the loop: final state and remaining data.  Ret None: NUL error. *)
Fixpoint valueLoop (r : bytes) (s : vstate) : outcome (option (vstate * bytes)) :=
  match r with
  | [] => Ret (Some (s, []))
  | c :: t =>
      if byte_eqb c x00 then Ret None
      else if byte_eqb c x0a then
        if vl_cr s then valueLoop t (mkV (vl_value s) (vl_cur s) (vl_junk s ++ [c]) (vl_ok s) false (vl_clb s))
        else valueLoop t (mkV (vl_value s) (vl_cur s) (vl_junk s ++ [c]) (vl_ok s) false (S (vl_clb s)))
      else if byte_eqb c x0d then
        valueLoop t (mkV (vl_value s) (vl_cur s) (vl_junk s ++ [c]) (vl_ok s) true (S (vl_clb s)))
      else if byte_eqb c x20 && Nat.eqb (vl_clb s) 1 then
        (* value += data[mark:last]: slice bounds out of range when last < mark *)
        if vl_ok s then valueLoop t (mkV (vl_value s ++ vl_cur s) [] [] false (vl_cr s) 0)
        else Panic PSlice
      else if Nat.leb 1 (vl_clb s) then Ret (Some (s, r))
      else valueLoop t (mkV (vl_value s) (vl_cur s ++ vl_junk s ++ [c]) [] true (vl_cr s) (vl_clb s))
  end.

(** What readHeader returns: name, value, singleBlock, the remaining data and consecutiveLineBreaks. *)
Record header : Set := mkHdr {
  h_name : bytes; h_value : bytes; h_single : bool; h_rest : bytes; h_clb : nat
}.

(** manifest.go:128-207 readHeader, on the remaining data [r] and consecutiveLineBreaks [clb].
    Line 141: [pos+1 > len(data)] is off by one, so data[pos+1] panics on a ':' at the very end. *)
Definition readHeader (r : bytes) (clb : nat) : outcome (header + merr) :=
  if Nat.ltb 1 clb then Ret (inl (mkHdr [] [] false r 0)) else
  let value (name rest : bytes) : outcome (header + merr) :=
      v <- valueLoop rest v0 ;;
      match v with
      | None => Ret (inr (MErr "NUL character in manifest"))
      | Some (s, rest') =>
          Ret (inl (mkHdr name (vl_value s ++ vl_cur s) (Nat.ltb 0 (vl_clb s)) rest' (vl_clb s)))
      end in
  match findColon r with
  | None => value [] []                                   (* pos = len(data) *)
  | Some (name, after) =>
      match after with
      | [] => Panic PIndex
      | c :: rest =>
          if negb (byte_eqb c x20) then Ret (inr (MErr "Invalid header structure"))
          else if negb (isValidName name) then Ret (inr (MErr "Invalid attribute name in manifest"))
          else value (asciiLower name) rest
      end
  end.

(** manifest.go:76-84 and 108-116: read headers into a map until singleBlock is false.
    Result: the map, the remaining data and consecutiveLineBreaks.
    Fuel: every header with singleBlock = true consumes a byte. *)
Fixpoint attrsLoop (fuel : nat) (r : bytes) (clb : nat) (m : attrs) : outcome ((attrs * bytes * nat) + merr) :=
  match fuel with
  | O => Ret (inr (MErr "out of fuel"))
  | S fuel' =>
      h <- readHeader r clb ;;
      match h with
      | inr e => Ret (inr e)
      | inl h => if h_single h then attrsLoop fuel' (h_rest h) (h_clb h) (sset (h_name h) (h_value h) m)
                 else Ret (inl (m, h_rest h, h_clb h))
      end
  end.

(** data[mark:pos], for the data remaining at mark and at pos *)
Definition consumed (r r' : bytes) : bytes := takeZ (zlen r - zlen r') r.

(** manifest.go:89-124 the loop over sections.  [mk] is the data remaining at mark. *)
Fixpoint sectionsLoop (fuel : nat) (withChunks : bool) (mk r : bytes) (clb : nat)
         (entries : list (bytes * attrs)) (chunks : list (bytes * bytes))
  : outcome ((list (bytes * attrs) * list (bytes * bytes)) + merr) :=
  match fuel with
  | O => Ret (inr (MErr "out of fuel"))
  | S fuel' =>
      h <- readHeader r clb ;;
      match h with
      | inr e => Ret (inr e)
      | inl h =>
          if negb (h_single h) then Ret (inl (entries, chunks)) else
          if negb (bytes_eqb (h_name h) attrName) then Ret (inr (MErr "Entry is not named")) else
          let nm := h_value h in
          let entry := match sget nm entries with Some e => e | None => [] end in
          a <- attrsLoop (S (length (h_rest h))) (h_rest h) (h_clb h) entry ;;
          match a with
          | inr e => Ret (inr e)
          | inl (entry', r', clb') =>
              let entries' := sset nm entry' entries in
              if withChunks then
                match sget nm chunks with
                | Some _ => Ret (inr (MErr "More than one entry with the same name!"))
                | None => sectionsLoop fuel' withChunks r' r' clb' entries' (sset nm (consumed mk r') chunks)
                end
              else sectionsLoop fuel' withChunks mk r' clb' entries' chunks
          end
      end
  end.

(** manifest.go:74-126 parse *)
Definition parseBytes (withChunks : bool) (data : bytes) : outcome (manifest + merr) :=
  a <- attrsLoop (S (length data)) data 0 [] ;;
  match a with
  | inr e => Ret (inr e)
  | inl (main, r, clb) =>
      s <- sectionsLoop (S (length r)) withChunks r r clb [] [] ;;
      match s with
      | inr e => Ret (inr e)
      | inl (entries, chunks) => Ret (inl (mkManifest data main entries chunks (zlen data - zlen r)))
      end
  end.

(** manifest.go:41-72 parseManifest: the first candidate stream that can be read and parsed *)
Fixpoint parseStreams (withChunks : bool) (l : list (option bytes)) : outcome (option manifest) :=
  match l with
  | [] => Ret None
  | None :: t => parseStreams withChunks t
  | Some data :: t =>
      m <- parseBytes withChunks data ;;
      match m with inl m => Ret (Some m) | inr _ => parseStreams withChunks t end
  end.
Definition parseManifest (f : zfile) (withChunks : bool) : outcome (option manifest) :=
  if zf_open_ok f then parseStreams withChunks (zf_streams f) else Ret None.
