(** Decoding of argument vectors that contracts pass through their memory. *)
From Verif Require Export MemModel CodecModel.

(** encoding/binary LittleEndian.Uint32, converted to int32. *)
Definition le_int32 (a b c d : byte) : Z :=
  i32 (bz a + 256 * bz b + 65536 * bz c + 16777216 * bz d).

(** arwen/elrondapi/elrondei.go:3006-3012, the loop of createInt32Array over the raw
    data; a trailing chunk of fewer than 4 bytes makes the slice expression panic. *)
Fixpoint int32_chunks (raw : bytes) : res (list Z) :=
  match raw with
  | [] => ROk []
  | a :: b :: c :: d :: rest => ns ← int32_chunks rest; ROk (le_int32 a b c d :: ns)
  | _ => RPanic
  end.

(** arwen/elrondapi/elrondei.go:3003-3014 createInt32Array; writing beyond
    numIntegers panics, unwritten entries stay 0. *)
Definition createInt32Array (raw : bytes) (numIntegers : Z) : res (list Z) :=
  ns ← int32_chunks raw;
  if numIntegers <? Z.of_nat (length ns) then RPanic
  else ROk (ns ++ replicate (Z.to_nat numIntegers - length ns) 0).

(** arwen/elrondapi/elrondei.go:2995-2998: int32 sum (wraps). *)
Definition total_len (lengths : list Z) : Z := fold_left (fun t l => i32 (t + l)) lengths 0.

(** arwen/elrondapi/elrondei.go:2972-3001 getArgumentsFromMemory;
    [numArguments*4] is an int32 product. *)
Definition getArgumentsFromMemory (m : memory) (numArguments lenOffset dataOffset : Z)
  : res (list bytes * Z) :=
  if numArguments <? 0 then RErr ErrGeneric else
  raw ← MemLoad m lenOffset (i32 (numArguments * 4));
  lengths ← createInt32Array raw numArguments;
  data ← MemLoadMultiple m dataOffset lengths;
  ROk (data, total_len lengths).

(** arwen/elrondapi/elrondei.go:828-835 indirectContractCallArguments *)
Record call_args := mkCallArgs {
  ca_dest : bytes;
  ca_value : option Z;
  ca_function : bytes;
  ca_args : list bytes;
  ca_actualLen : Z
}.

(** arwen/elrondapi/elrondei.go:882-932 extractIndirectContractCallArguments without
    its gas charge (lines 922-923, DataCopyPerByte * actualLen, charged by the API
    model).  The error of getArgumentsFromMemory is assigned to [err] and never
    looked at: on error the arguments are nil and the length is 0. *)
Definition extractIndirectContractCallArguments (m : memory) (destOffset valueOffset : Z)
  (hasValueOffset : bool) (functionOffset functionLength numArguments lenOffset dataOffset : Z)
  : res call_args :=
  dest ← MemLoad m destOffset 32;
  value ← (if hasValueOffset
           then vb ← MemLoad m valueOffset 32; ROk (Some (be_decode vb))
           else ROk None);
  function ← MemLoad m functionOffset functionLength;
  match getArgumentsFromMemory m numArguments lenOffset dataOffset with
  | ROk (args, n) => ROk (mkCallArgs dest value function args n)
  | RErr _ => ROk (mkCallArgs dest value function [] 0)
  | RPanic => RPanic
  end.
