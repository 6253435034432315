(** Number encodings used for arguments, storage and return data, and the byte
    helpers of arwen/helpers.go.

    big.Int (Go standard library) is modelled by [Z]: SetBytes, Bytes, IsUint64,
    Uint64, IsInt64, Int64 as documented in package math/big.  The
    two's-complement functions come from github.com/ElrondNetwork/big-int-util
    (not in /repo); they are modelled from their documentation: zero is the empty
    string, other numbers have the shortest two's-complement form. *)
From Verif Require Export GoRt MathModel.

(** math/big (Int).SetBytes: big-endian unsigned value. *)
Definition be_decode (l : bytes) : Z := fold_left (fun a b => a * 256 + bz b) l 0.

(** Digits of [z] in base 256, most significant first, in front of [acc];
    [fuel] bounds the number of digits. *)
Fixpoint be_digits (fuel : nat) (z : Z) (acc : bytes) : bytes :=
  match fuel with
  | O => acc
  | S f => if z <=? 0 then acc else be_digits f (z / 256) (zb z :: acc)
  end.

(** math/big (Int).Bytes: big-endian bytes of the absolute value, no leading zero. *)
Definition be_encode (z : Z) : bytes :=
  be_digits (S (Z.to_nat (Z.log2 (Z.abs z)))) (Z.abs z) [].

(** Complement of every bit of a byte. *)
Definition bnot (b : byte) : byte := zb (255 - bz b).

(** big-int-util/twos-complement ToBytes (assumed, see above). *)
Definition twos_encode (z : Z) : bytes :=
  if z =? 0 then [] else
  if 0 <? z then
    let b := be_encode z in
    match b with
    | [] => []
    | f :: _ => if 128 <=? bz f then zb 0 :: b else b
    end
  else
    let b := map bnot (be_encode (- z - 1)) in
    match b with
    | [] => [zb 255]
    | f :: _ => if bz f <? 128 then zb 255 :: b else b
    end.

(** big-int-util/twos-complement SetBytes / FromBytes (assumed, see above). *)
Definition twos_decode (l : bytes) : Z :=
  match l with
  | [] => 0
  | f :: _ => if 128 <=? bz f then be_decode l - 256 ^ blen l else be_decode l
  end.

(** math/big IsUint64 / IsInt64. *)
Definition is_uint64 (z : Z) : bool := (0 <=? z) && (z <=? max_u64).
Definition is_int64 (z : Z) : bool := (min_i64 <=? z) && (z <=? max_i64).

(** * arwen/helpers.go *)

(** arwen/helpers.go:24-26 CustomStorageKey: the key type is appended.  (The Go
    slice passed in is always freshly made with capacity equal to length, so
    append copies.) *)
Definition CustomStorageKey (keyType : bytes) (associatedKey : bytes) : bytes :=
  associatedKey ++ keyType.

(** arwen/helpers.go:47-66 GuardedGetBytesSlice *)
Definition GuardedGetBytesSlice (data : bytes) (offset length : Z) : res bytes :=
  let dataLength := u32 (blen data) in
  let requestedEnd := AddInt32 offset length in
  if (offset <? 0) || (dataLength <? u32 offset) || (dataLength <? u32 requestedEnd)
  then RErr ErrGeneric
  else if length <? 0 then RErr ErrGeneric
  else slice data offset requestedEnd.

(** arwen/helpers.go:69-84 PadBytesLeft; [None] is Go's nil slice. *)
Definition PadBytesLeft (data : option bytes) (size : Z) : option bytes :=
  match data with
  | None => None
  | Some [] => Some []
  | Some d =>
      let padSize := SubInt size (blen d) in
      if padSize <=? 0 then Some d else Some (zeros padSize ++ d)
  end.

(** arwen/helpers.go:87-94 InverseBytes: invBytes[length-i-1] = data[i] for every i. *)
Fixpoint inverse_loop (data : bytes) (inv : bytes) : bytes :=
  match data with
  | [] => inv
  | b :: rest => inverse_loop rest (b :: inv)
  end.
Definition InverseBytes (data : bytes) : bytes := inverse_loop data [].

(** arwen/helpers.go:111-124 U64ToLEB128.  [fuel] is the number of loop
    iterations allowed; ten suffice for 64-bit numbers. *)
Fixpoint leb_loop (fuel : nat) (n : Z) : bytes :=
  match fuel with
  | O => []
  | S f =>
      let b := Z.land n 127 in
      let n' := Z.shiftr n 7 in
      if n' =? 0 then [zb b] else zb (Z.lor b 128) :: leb_loop f n'
  end.
Definition U64ToLEB128 (n : Z) : bytes := leb_loop 10 n.

(** * Numbers crossing the API (the value part; gas is charged separately) *)

(** arwen/elrondapi/smallIntOps.go:113-125, 113-148: fetching argument [id];
    len(args) is truncated to int32. *)
Definition arg_at (args : list bytes) (id : Z) : res bytes :=
  if (id <? 0) || (i32 (Z.of_nat (length args)) <=? id) then RErr ErrArgIndexOutOfRange
  else gindex args id.

(** smallIntOps.go:106-126 smallIntGetUnsignedArgument *)
Definition smallIntGetUnsignedArgument (args : list bytes) (id : Z) : res Z :=
  arg ← arg_at args id;
  if is_uint64 (be_decode arg) then ROk (i64 (be_decode arg)) else RErr ErrArgOutOfRange.

(** smallIntOps.go:129-149 smallIntGetSignedArgument (also int64getArgument, 270-273) *)
Definition smallIntGetSignedArgument (args : list bytes) (id : Z) : res Z :=
  arg ← arg_at args id;
  if is_int64 (twos_decode arg) then ROk (twos_decode arg) else RErr ErrArgOutOfRange.

(** smallIntOps.go:159, 189: bytes written by smallIntFinishUnsigned,
    smallIntStorageStoreUnsigned and int64storageStore *)
Definition smallIntUnsignedBytes (value : Z) : bytes := be_encode (u64 value).

(** smallIntOps.go:171, 212: bytes written by smallIntFinishSigned, int64finish and
    smallIntStorageStoreSigned *)
Definition smallIntSignedBytes (value : Z) : bytes := twos_encode value.

(** smallIntOps.go:235-242: smallIntStorageLoadUnsigned and int64storageLoad on the
    stored bytes *)
Definition smallIntLoadUnsigned (data : bytes) : res Z :=
  if is_uint64 (be_decode data) then ROk (i64 (be_decode data)) else RErr ErrStorageValueOutOfRange.

(** smallIntOps.go:259-266: smallIntStorageLoadSigned on the stored bytes *)
Definition smallIntLoadSigned (data : bytes) : res Z :=
  if is_int64 (twos_decode data) then ROk (twos_decode data) else RErr ErrStorageValueOutOfRange.

(** bigIntOps.go bigIntStorageStoreUnsigned / bigIntFinishUnsigned /
    bigIntGetUnsignedBytes: value.Bytes() *)
Definition bigIntUnsignedBytes (z : Z) : bytes := be_encode z.
(** bigIntOps.go bigIntStorageLoadUnsigned / bigIntSetUnsignedBytes /
    bigIntGetUnsignedArgument: value.SetBytes *)
Definition bigIntFromUnsignedBytes (l : bytes) : Z := be_decode l.
(** bigIntOps.go bigIntFinishSigned / bigIntGetSignedBytes: twos.ToBytes *)
Definition bigIntSignedBytes (z : Z) : bytes := twos_encode z.
(** bigIntOps.go bigIntSetSignedBytes / bigIntGetSignedArgument: twos.SetBytes *)
Definition bigIntFromSignedBytes (l : bytes) : Z := twos_decode l.

(** elrondei.go:1759-1760 (setStorageLock): bytes stored for a time stamp *)
Definition timelockBytes (ts : Z) : bytes := be_encode ts.
(** elrondei.go:1783-1784 (getStorageLock): time stamp read from stored bytes;
    Int64() of a value outside the int64 range keeps the low 64 bits. *)
Definition timelockFromBytes (l : bytes) : Z := i64 (be_decode l).
