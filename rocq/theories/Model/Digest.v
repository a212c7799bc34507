(** /repo/signingblock/signingblock.go:588-733 and verity.go: content digests *)
From Coq Require Import String.
From Verif.Model Require Import Bytes Env Utils SigBlock DataSource Result.

(* verity.go:12-15 *)
Definition verityChunkSize : Z := 4096.

(** signer.go:41-54 contentDigest.Hash (panics on unknown kinds) *)
Definition digestHash (d : Z) : outcome hash_id :=
  if d =? digestChunkedSha256 then Ret HSha256
  else if d =? digestChunkedSha512 then Ret HSha512
  else if d =? digestVeritySha256 then Ret HSha256
  else if d =? digestNonChunkedSha256 then Ret HSha256
  else Panic PExplicit.

Fixpoint omap {A B} (f : A -> outcome B) (l : list A) : outcome (list B) :=
  match l with
  | [] => Ret []
  | x :: t => y <- f x ;; ys <- omap f t ;; Ret (y :: ys)
  end.

Section WithEnv.
  Variable E : env.

  (** signingblock.go:686-700 one chunk: every hasher digests prefix ++ chunk and the sum is copied to
      its buffer.  None = writeTo failed. *)
  Fixpoint digestChunk (input : dataSource) (offset chunkSize chunkIndex : Z)
           (bufs : list (hash_id * bytes)) : outcome (option (list (hash_id * bytes))) :=
    match bufs with
    | [] => Ret (Some [])
    | (h, buf) :: t =>
        match ds_write input offset chunkSize with
        | None => Ret None
        | Some data =>
            let sum := e_hash E h ((xa5 :: le_enc 4 chunkSize) ++ data) in
            buf' <- copyAt buf (5 + chunkIndex * zlen sum) sum ;;
            t' <- digestChunk input offset chunkSize chunkIndex t ;;
            Ret (match t' with None => None | Some t' => Some ((h, buf') :: t') end)
        end
    end.

  (** signingblock.go:676-705 the chunks of one input; [fuel] bounds the iterations (each consumes at
      least one byte). *)
  Fixpoint digestInput (fuel : nat) (input : dataSource) (offset remaining chunkIndex : Z)
           (bufs : list (hash_id * bytes)) : outcome (option (Z * list (hash_id * bytes))) :=
    match fuel with
    | O => Ret (Some (chunkIndex, bufs))
    | S fuel' =>
        if remaining <=? 0 then Ret (Some (chunkIndex, bufs)) else
        let chunkSize := if maxChunkSize <? remaining then maxChunkSize else remaining in
        b <- digestChunk input offset chunkSize chunkIndex bufs ;;
        match b with
        | None => Ret None
        | Some bufs' => digestInput fuel' input (offset + chunkSize) (remaining - chunkSize) (chunkIndex + 1) bufs'
        end
    end.

  Fixpoint digestInputs (contents : list dataSource) (chunkIndex : Z) (bufs : list (hash_id * bytes))
    : outcome (option (list (hash_id * bytes))) :=
    match contents with
    | [] => Ret (Some bufs)
    | input :: rest =>
        r <- digestInput (Z.to_nat (ds_length input)) input 0 (ds_length input) chunkIndex bufs ;;
        match r with
        | None => Ret None
        | Some (i, bufs') => digestInputs rest i bufs'
        end
    end.

  (** signingblock.go:649-713 computeOneMbChunkContentDigests; None = error *)
  Definition computeOneMbChunkContentDigests (algos : list Z) (contents : list dataSource)
    : outcome (option digests) :=
    let total := sumZ (map ds_chunkCount contents) in
    if max_int32 / 1024 <=? total then Ret None else
    hs <- omap digestHash algos ;;
    let bufs := map (fun h => (h, (x5a :: le_enc 4 total) ++ zeros (total * hash_size h))) hs in
    r <- digestInputs contents 0 bufs ;;
    match r with
    | None => Ret None
    | Some bufs' =>
        Ret (Some (fold_left (fun m kv => zset (fst kv) (e_hash E (fst (snd kv)) (snd (snd kv))) m)
                             (combine algos bufs') []))
    end.

  (** verity.go:132-134 *)
  Definition divideRoundup (dividend divisor : Z) : Z := (dividend + divisor - 1) / divisor.

  (** verity.go:120-130 saltedDigest with the 8-byte zero salt of signingblock.go:723 *)
  Definition saltedDigest (salt data : bytes) : bytes := e_hash E HSha256 (salt ++ data).

  (** verity.go:72-82 the level sizes, from the bottom level up; fuel: every level is smaller *)
  Fixpoint levelSizes (fuel : nat) (dataSize digestSize : Z) : list Z :=
    match fuel with
    | O => []
    | S fuel' =>
        let chunkCount := divideRoundup dataSize verityChunkSize in
        let size := verityChunkSize * divideRoundup (chunkCount * digestSize) verityChunkSize in
        if chunkCount * digestSize <=? verityChunkSize then [size]
        else size :: levelSizes fuel' (chunkCount * digestSize) digestSize
    end.

  (** verity.go:84-92 offsets (int32 arithmetic) *)
  Fixpoint levelOffsets (sizes : list Z) (acc : Z) : option (list Z) :=
    match sizes with
    | [] => Some []
    | size :: t => if (size <? min_int32) || (max_int32 <? size) then None
                   else let acc' := wrap32 (acc + size) in
                        match levelOffsets t acc' with None => None | Some l => Some (acc' :: l) end
    end.
  Definition calculateLevelOffset (dataSize digestSize : Z) : option (list Z) :=
    match levelOffsets (rev (levelSizes (Z.to_nat (dataSize + 1)) dataSize digestSize)) 0 with
    | None => None
    | Some l => Some (0 :: l)
    end.

  (** verity.go:95-119 digestDataByChunks; the sink is (window, bytes written) *)
  Fixpoint digestDataLoop (fuel : nat) (salt : bytes) (src : dataSource) (offset : Z) (sink : bytes * Z)
    : option (Z * (bytes * Z)) :=
    match fuel with
    | O => Some (offset, sink)
    | S fuel' =>
        if offset + verityChunkSize <=? ds_length src then
          match ds_write src offset verityChunkSize with
          | None => None
          | Some buf =>
              match byteWrite (fst sink) (snd sink) (saltedDigest salt buf) with
              | None => None
              | Some sink' => digestDataLoop fuel' salt src (offset + verityChunkSize) sink'
              end
          end
        else Some (offset, sink)
    end.
  Definition digestDataByChunks (salt : bytes) (src : dataSource) (sink : bytes * Z) : option (bytes * Z) :=
    let size := ds_length src in
    match digestDataLoop (Z.to_nat (size / verityChunkSize + 1)) salt src 0 sink with
    | None => None
    | Some (offset, sink1) =>
        let remaining := size mod verityChunkSize in
        if 0 <? remaining then
          match ds_write src offset remaining with
          | None => None
          | Some buf => byteWrite (fst sink1) (snd sink1)
                                  (saltedDigest salt (buf ++ zeros (verityChunkSize - remaining)))
          end
        else Some sink1
    end.

  (** verity.go:38-63 one level: [lo,hi) is its window in the buffer, [src] what it digests *)
  Definition verityLevel (salt : bytes) (src : dataSource) (buffer : bytes) (lo hi : Z) : outcome (option bytes) :=
    if (lo <? 0) || (hi <? lo) || (zlen buffer <? hi) then Panic PSlice else
    let digestSize := hash_size HSha256 in
    match digestDataByChunks salt src (slice buffer lo hi, 0) with
    | None => Ret None
    | Some sink =>
        let totalOutput := divideRoundup (ds_length src) verityChunkSize * digestSize in
        let incomplete := totalOutput mod verityChunkSize in
        match (if 0 <? incomplete then byteWrite (fst sink) (snd sink) (zeros (verityChunkSize - incomplete))
               else Some sink) with
        | None => Ret None
        | Some (win, _) => Ret (Some (takeZ lo buffer ++ win ++ dropZ hi buffer))
        end
    end.

  (** verity.go:37-63 the loop for i = len(levelOffset)-2 down to 0.  [offs] is levelOffset[0..i+1]
      reversed (so it starts with levelOffset[i+1]; levelOffset[i]), [next] = levelOffset[i+2], None for
      the first iteration. *)
  Fixpoint verityLevels (salt : bytes) (contents : dataSource) (offs : list Z) (next : option Z) (buffer : bytes)
    : outcome (option bytes) :=
    match offs with
    | hi :: ((lo :: _) as rest) =>
        let src := match next with
                   | None => contents
                   | Some h2 => dataSourceBytes (slice buffer hi h2)
                   end in
        b <- verityLevel salt src buffer lo hi ;;
        match b with
        | None => Ret None
        | Some buffer' => verityLevels salt contents rest (Some hi) buffer'
        end
    | _ => Ret (Some buffer)
    end.

  (** verity.go:29-67 generateTreeRootHash; Ret None = error *)
  Definition generateTreeRootHash (salt : bytes) (contents : dataSource) : outcome (option bytes) :=
    match calculateLevelOffset (ds_length contents) (hash_size HSha256) with
    | None => Ret None
    | Some offs =>
        let total := last offs 0 in
        if total <? 0 then Panic PSlice else
        b <- verityLevels salt contents (rev offs) None (zeros total) ;;
        match b with
        | None => Ret None
        | Some buffer =>
            if zlen buffer <? verityChunkSize then Panic PSlice
            else Ret (Some (saltedDigest salt (takeZ verityChunkSize buffer)))
        end
    end.

  (** signingblock.go:715-733 computeVerityContentDigest (contents is never empty) *)
  Definition computeVerityContentDigest (contents : list dataSource) : outcome (option bytes) :=
    match contents with
    | [] => Panic PIndex
    | c0 :: _ =>
        if negb (ds_length c0 mod verityChunkSize =? 0) then Ret None else
        let chained := dataSourceChained contents in
        rootHash <- generateTreeRootHash (zeros 8) chained ;;
        match rootHash with
        | None => Ret None
        | Some h => result <- copyAt (zeros (32 + 8)) 0 h ;;
                    Ret (Some (takeZ 32 result ++ le_enc 8 (ds_length chained)))
        end
    end.

  (** signingblock.go:623-634 *)
  Fixpoint splitAlgos (algos : list Z) : outcome (list Z * bool) :=
    match algos with
    | [] => Ret ([], false)
    | a :: t =>
        if (a =? digestChunkedSha256) || (a =? digestChunkedSha512) then
          '(l, v) <- splitAlgos t ;; Ret (a :: l, v)
        else if a =? digestVeritySha256 then '(l, _) <- splitAlgos t ;; Ret (l, true)
        else Panic PExplicit
    end.

  (** signingblock.go:622-647 computeContentDigests; Ret None = error *)
  Definition computeContentDigests (algos : list Z) (contents : list dataSource) : outcome (option digests) :=
    '(oneMb, hasVerity) <- splitAlgos algos ;;
    result <- match oneMb with
              | [] => Ret (Some [])
              | _ => computeOneMbChunkContentDigests oneMb contents
              end ;;
    match result with
    | None => Ret None
    | Some m =>
        m' <- (if hasVerity then
                 v <- computeVerityContentDigest contents ;;
                 Ret (match v with None => None | Some d => Some (zset digestVeritySha256 d m) end)
               else Ret (Some m)) ;;
        Ret (match m' with Some [] => None | x => x end)
    end.

  (** signingblock.go:588-620 verifyIntegrity.  [keys] = the keys of expectedDigests in the order in
      which [range] visits them. *)
  Definition verifyIntegrity (file : bytes) (ei : eocd_info) (sigBlockOffset : Z) (keys : list Z)
             (expected : digests) (r : core) : outcome (core * bool) :=
    let before := dataSourceApk file 0 sigBlockOffset in
    let centralDir := dataSourceApk file (ei_centralDirOffset ei) (ei_eocdOffset ei) in
    eocd <- copyAt (ei_eocd ei) eocdCentralDirOffsetOffset (le_enc 4 sigBlockOffset) ;;
    actual <- computeContentDigests keys [before; centralDir; dataSourceBytes eocd] ;;
    match actual with
    | None => Ret (addError r "Failed to compute digest(s) of contents", false)
    | Some m =>
        let getd k (d : digests) := match zget k d with Some x => x | None => [] end in
        Ret (fold_left (fun r k => if bytes_eqb (getd k expected) (getd k m) then r
                                   else addError r "digest of contents did not verify.") keys r, true)
    end.
End WithEnv.
