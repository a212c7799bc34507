(** /repo/signingblock/datasource.go *)
From Verif.Model Require Import Bytes SigBlock.

(** datasource.go:8-12 the dataSource interface.  [ds_write offset size] returns the bytes written
    (None = an error is returned; what was written before the error is never used by the callers).
    Offsets and sizes are non-negative in all calls. *)
Record dataSource : Type := {
  ds_chunkCount : Z;
  ds_length : Z;
  ds_write : Z -> Z -> option bytes
}.

(** datasource.go:19-46 dataSourceApk (section [start,end) of the file) *)
Definition dataSourceApk (file : bytes) (start end_ : Z) : dataSource := {|
  ds_chunkCount := (end_ - start + maxChunkSize - 1) / maxChunkSize;
  ds_length := end_ - start;
  ds_write := fun offset size =>
    if (end_ <? offset) || (end_ - start <? offset) then None
    else if (end_ - start <? size) || (end_ - start <? offset + size) then None
    else read_at file (start + offset) size
|}.

(** datasource.go:48-70 dataSourceBytes *)
Definition dataSourceBytes (data : bytes) : dataSource := {|
  ds_chunkCount := (zlen data + maxChunkSize - 1) / maxChunkSize;
  ds_length := zlen data;
  ds_write := fun offset size =>
    if zlen data <=? offset then None
    else if (zlen data <? size) || (zlen data <? offset + size) then None
    else Some (slice data offset (offset + size))
|}.

(** datasource.go:100-116 the loop of dataSourceChained.writeTo *)
Fixpoint chainedWrite (sources : list dataSource) (offset size : Z) : option bytes :=
  match sources with
  | [] => Some []
  | src :: rest =>
      if ds_length src <=? offset then chainedWrite rest (offset - ds_length src) size
      else
        let remaining := ds_length src - offset in
        if size <=? remaining then ds_write src offset size
        else match ds_write src offset remaining with
             | None => None
             | Some a => match chainedWrite rest 0 (size - remaining) with
                         | None => None
                         | Some b => Some (a ++ b)
                         end
             end
  end.

Definition sumZ (l : list Z) : Z := fold_left Z.add l 0.

(** datasource.go:72-121 dataSourceChained / newChainedDataSource *)
Definition dataSourceChained (sources : list dataSource) : dataSource :=
  let totalSize := sumZ (map ds_length sources) in {|
  ds_chunkCount := (totalSize + maxChunkSize - 1) / maxChunkSize;
  ds_length := totalSize;
  ds_write := fun offset size =>
    if totalSize <=? offset then None
    else if (totalSize <? size) || (totalSize <? offset + size) then None
    else chainedWrite sources offset size
|}.

(** datasource.go:123-142 byteWriter.Write into a window of a buffer: [dest] is the window, [off] the
    number of bytes already written.  None = io.EOF. *)
Definition byteWrite (dest : bytes) (off : Z) (p : bytes) : option (bytes * Z) :=
  if zlen dest <=? off then None
  else if zlen dest - off <? zlen p then None
  else Some (takeZ off dest ++ p ++ dropZ (off + zlen p) dest, off + zlen p).
