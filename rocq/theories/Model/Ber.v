(** /repo/fullsailor/pkcs7/ber.go: transcoding of BER to DER before a PKCS#7 signature is parsed.
    Simplification: a position [offset] in [ber] is represented by the remaining bytes ber[offset:]; the comparison
    of two positions is then the comparison of the lengths of the remainders. *)
From Verif.Model Require Import Bytes.

(** ber.go:13-16, 35-39.  asn1Primitive.length is always len(content) (ber.go:193-197) and is left out. *)
Inductive asn1obj : Set :=
| Prim (tagBytes content : bytes)
| Struct (tagBytes : bytes) (content : list asn1obj).

(** Result of a Go call with an error value; [BPanic] is an index out of range; [BFuel] cannot happen with the fuel
    given by [ber2der]. *)
Inductive bres (A : Type) : Type := BRet (a : A) | BErr | BPanic | BFuel.
Arguments BRet {A} a.
Arguments BErr {A}.
Arguments BPanic {A}.
Arguments BFuel {A}.
Definition bbind {A B} (m : bres A) (f : A -> bres B) : bres B :=
  match m with BRet a => f a | BErr => BErr | BPanic => BPanic | BFuel => BFuel end.

(** ber.go:90-97 lengthLength; at most 8 iterations for a 64-bit int *)
Fixpoint lengthLength (fuel : nat) (i : Z) : nat :=
  match fuel with
  | O => 1%nat
  | Datatypes.S f => if 255 <? i then Datatypes.S (lengthLength f (i / 256)) else 1%nat
  end.
(** ber.go:76-87 marshalLongLength *)
Fixpoint marshalLongLength (n : nat) (i : Z) : bytes :=
  match n with
  | O => []
  | Datatypes.S m => z2b (i / 256 ^ Z.of_nat m) :: marshalLongLength m i
  end.
(** ber.go:112-130 encodeLength *)
Definition encodeLength (length : Z) : bytes :=
  if 128 <=? length then
    let l := lengthLength 8 length in z2b (Z.lor 128 (Z.of_nat l)) :: marshalLongLength l length
  else [z2b length].

(** ber.go:18-33, 41-54 EncodeTo *)
Fixpoint encodeTo (o : asn1obj) : bytes :=
  match o with
  | Prim tag content => tag ++ encodeLength (zlen content) ++ content
  | Struct tag content => let inner := flat_map encodeTo content in tag ++ encodeLength (zlen inner) ++ inner
  end.

(** ber.go:139-146 the further bytes of a tag, up to and including the first one below 0x80 *)
Fixpoint readTagRest (s : bytes) : bres (bytes * bytes) :=
  match s with
  | [] => BPanic
  | b :: t => if b2z b <? 128 then BRet ([b], t)
              else bbind (readTagRest t) (fun p => BRet (b :: fst p, snd p))
  end.
(** ber.go:134-150: the tag bytes and the first byte *)
Definition readTag (s : bytes) : bres (bytes * byte * bytes) :=
  match s with
  | [] => BPanic
  | b :: t => if Z.land (b2z b) 31 =? 31 then bbind (readTagRest t) (fun p => BRet (b :: fst p, b, snd p))
              else BRet ([b], b, t)
  end.

(** ber.go:176-179 *)
Fixpoint readLengthBytes (n : nat) (length : Z) (s : bytes) : bres (Z * bytes) :=
  match n with
  | O => BRet (length, s)
  | Datatypes.S m => match s with [] => BPanic | b :: t => readLengthBytes m (length * 256 + b2z b) t end
  end.
(** ber.go:158-184: length, indefinite *)
Definition readLength (s : bytes) : bres (Z * bool * bytes) :=
  match s with
  | [] => BPanic
  | l :: t =>
      if 128 <? b2z l then
        let numberOfBytes := Z.land (b2z l) 127 in
        if 4 <? numberOfBytes then BErr
        else match t with
             | [] => BPanic
             | d :: t' =>
                 if (numberOfBytes =? 4) && (127 <? b2z d) then BErr
                 else bbind (if b2z d =? 0 then readLengthBytes (Z.to_nat (numberOfBytes - 1)) 0 t'
                             else readLengthBytes (Z.to_nat numberOfBytes) 0 t)
                            (fun p => BRet (fst p, false, snd p))
             end
      else if b2z l =? 128 then BRet (0, true, t)
      else BRet (b2z l, false, t)
  end.

(** ber.go:242-248 isIndefiniteTermination *)
Definition isIndefiniteTermination (s : bytes) : bres bool :=
  match s with
  | a :: b :: _ => BRet ((b2z a =? 0) && (b2z b =? 0))
  | _ => BErr
  end.

(** ber.go:132-240 readObject: the object and the remaining bytes; [readChildren] is the loop of ber.go:207-228, where
    [endLen] is the number of bytes after contentEnd. *)
Fixpoint readObject (fuel : nat) (s : bytes) : bres (asn1obj * bytes) :=
  match fuel with
  | O => BFuel
  | Datatypes.S f =>
      bbind (readTag s) (fun '(tag, b, s1) =>
      bbind (readLength s1) (fun '(length, indefinite, s2) =>
      if zlen s2 <? length then BErr
      else let kind := Z.land (b2z b) 32 in
           if indefinite && (kind =? 0) then BErr
           else let after := dropZ length s2 in
                if kind =? 0 then BRet (Prim tag (takeZ length s2), after)
                else bbind (readChildren f (zlen after) indefinite s2) (fun '(subObjects, s3) =>
                     BRet (Struct tag subObjects, if indefinite then dropZ 2 s3 else after))))
  end
with readChildren (fuel : nat) (endLen : Z) (indefinite : bool) (s : bytes) : bres (list asn1obj * bytes) :=
  match fuel with
  | O => BFuel
  | Datatypes.S f =>
      if (endLen <? zlen s) || indefinite then
        bbind (readObject f s) (fun '(subObj, s1) =>
        let continue := bbind (readChildren f endLen indefinite s1) (fun '(os, s2) => BRet (subObj :: os, s2)) in
        if indefinite then
          bbind (isIndefiniteTermination s1) (fun terminated => if terminated then BRet ([subObj], s1) else continue)
        else continue)
      else BRet ([], s)
  end.

(** ber.go:56-74 ber2der *)
Definition ber2der (ber : bytes) : bres bytes :=
  match ber with
  | [] => BErr
  | _ => bbind (readObject (Datatypes.S (List.length ber)) ber) (fun '(obj, _) => BRet (encodeTo obj))
  end.
