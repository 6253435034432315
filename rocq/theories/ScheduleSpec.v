(** What a gas schedule says, and which of the schedules proposed over time
    governs (nothing of the model's decoding is used here: only the names of the
    sections and of their entries, and the shape of the map). *)
From Verif Require Import Base VmTypes ScheduleModel.
From stdpp Require Import gmap strings.
Local Open Scope Z_scope.

(** two names with the same letters, whatever their case *)
Definition same_letters (a b : string) : Prop := lower a = lower b.

(** the schedule gives [v] for the entry [f] of a section: under this very name,
    or, when this very name is missing, under the same name in other letters *)
Definition says (m : gas_map) (s : section) (f : string) (v : Z) : Prop :=
  exists sec : gmap string Z, m !! section_name s = Some sec /\
    (sec !! f = Some v \/
     sec !! f = None /\ exists k, same_letters k f /\ sec !! k = Some v).

(** no entry is given twice with different prices *)
Definition unambiguous (m : gas_map) : Prop :=
  forall s f v1 v2, In f (section_fields s) -> says m s f v1 -> says m s f v2 -> v1 = v2.

(** the price that fits in the entry: opcodes have 32 bits *)
Definition fits (s : section) (v v' : Z) : Prop :=
  match s with SOpcode => v' = v mod 4294967296 | _ => v' = v end.

(** a complete schedule: every entry of every section has a price, not 0 *)
Definition complete (m : gas_map) : Prop :=
  forall s f, In f (section_fields s) ->
    exists v v', says m s f v /\ fits s v v' /\ v' <> 0.

(** the numbers of a schedule are of type uint64 *)
Definition typed_map (m : gas_map) : Prop :=
  forall s (sec : gmap string Z) k v, m !! s = Some sec -> sec !! k = Some v -> in_u64 v.

(** the schedule that governs after proposals [ms] (last one last): the last
    complete one, or else the first schedule *)
Inductive governs (m0 : gas_map) : list gas_map -> gas_map -> Prop :=
| governs_first : governs m0 [] m0
| governs_new ms m : complete m -> governs m0 (ms ++ [m]) m
| governs_old ms m g : ~ complete m -> governs m0 ms g -> governs m0 (ms ++ [m]) g.

(** [price] is the price list of a schedule *)
Definition price_list (price : section -> string -> Z) (m : gas_map) : Prop :=
  forall s f v, In f (section_fields s) -> says m s f v -> fits s v (price s f).

(** [costs] is the opcode table of a schedule: at the number of every opcode the
    price given under its name *)
Definition opcode_table (costs : list Z) (m : gas_map) : Prop :=
  length costs = length opcodes /\
  forall n op v, nth_error opcodes n = Some op -> says m SOpcode op v ->
    nth_error costs n = Some (v mod 4294967296).

(** where the prices charged by the virtual machine are found *)
Definition entry (c : cost) : section * string :=
  match c with
  | StorePerByte => (SBase, "StorePerByte") | ReleasePerByte => (SBase, "ReleasePerByte")
  | DataCopyPerByte => (SBase, "DataCopyPerByte") | PersistPerByte => (SBase, "PersistPerByte")
  | CompilePerByte => (SBase, "CompilePerByte") | AoTPreparePerByte => (SBase, "AoTPreparePerByte")
  | GetCodeCost => (SBase, "GetCode")
  | CGetSCAddress => (SElrond, "GetSCAddress") | CGetOwnerAddress => (SElrond, "GetOwnerAddress")
  | CIsSmartContract => (SElrond, "IsSmartContract") | CGetShardOfAddress => (SElrond, "GetShardOfAddress")
  | CGetExternalBalance => (SElrond, "GetExternalBalance") | CGetBlockHash => (SElrond, "GetBlockHash")
  | CTransferValue => (SElrond, "TransferValue") | CGetArgument => (SElrond, "GetArgument")
  | CGetFunction => (SElrond, "GetFunction") | CGetNumArguments => (SElrond, "GetNumArguments")
  | CStorageStore => (SElrond, "StorageStore") | CStorageLoad => (SElrond, "StorageLoad")
  | CGetCaller => (SElrond, "GetCaller") | CGetCallValue => (SElrond, "GetCallValue")
  | CLog => (SElrond, "Log") | CFinish => (SElrond, "Finish") | CSignalError => (SElrond, "SignalError")
  | CGetBlockTimeStamp => (SElrond, "GetBlockTimeStamp") | CGetGasLeft => (SElrond, "GetGasLeft")
  | CInt64GetArgument => (SElrond, "Int64GetArgument") | CInt64StorageStore => (SElrond, "Int64StorageStore")
  | CInt64StorageLoad => (SElrond, "Int64StorageLoad") | CInt64Finish => (SElrond, "Int64Finish")
  | CGetStateRootHash => (SElrond, "GetStateRootHash") | CGetBlockNonce => (SElrond, "GetBlockNonce")
  | CGetBlockEpoch => (SElrond, "GetBlockEpoch") | CGetBlockRound => (SElrond, "GetBlockRound")
  | CGetBlockRandomSeed => (SElrond, "GetBlockRandomSeed")
  | CExecuteOnSameContext => (SElrond, "ExecuteOnSameContext")
  | CExecuteOnDestContext => (SElrond, "ExecuteOnDestContext")
  | CDelegateExecution => (SElrond, "DelegateExecution") | CExecuteReadOnly => (SElrond, "ExecuteReadOnly")
  | CAsyncCallStep => (SElrond, "AsyncCallStep") | CAsyncCallbackGasLock => (SElrond, "AsyncCallbackGasLock")
  | CCreateContract => (SElrond, "CreateContract") | CGetReturnData => (SElrond, "GetReturnData")
  | CGetNumReturnData => (SElrond, "GetNumReturnData") | CGetReturnDataSize => (SElrond, "GetReturnDataSize")
  | CBigIntNew => (SBigInt, "BigIntNew") | CBigIntUnsignedByteLength => (SBigInt, "BigIntUnsignedByteLength")
  | CBigIntSignedByteLength => (SBigInt, "BigIntSignedByteLength")
  | CBigIntGetUnsignedBytes => (SBigInt, "BigIntGetUnsignedBytes")
  | CBigIntGetSignedBytes => (SBigInt, "BigIntGetSignedBytes")
  | CBigIntSetUnsignedBytes => (SBigInt, "BigIntSetUnsignedBytes")
  | CBigIntSetSignedBytes => (SBigInt, "BigIntSetSignedBytes")
  | CBigIntIsInt64 => (SBigInt, "BigIntIsInt64") | CBigIntGetInt64 => (SBigInt, "BigIntGetInt64")
  | CBigIntSub => (SBigInt, "BigIntSub") | CBigIntMul => (SBigInt, "BigIntMul")
  | CBigIntTDiv => (SBigInt, "BigIntTDiv") | CBigIntSign => (SBigInt, "BigIntSign")
  | CBigIntCmp => (SBigInt, "BigIntCmp") | CBigIntFinishUnsigned => (SBigInt, "BigIntFinishUnsigned")
  | CBigIntFinishSigned => (SBigInt, "BigIntFinishSigned")
  | CBigIntStorageLoadUnsigned => (SBigInt, "BigIntStorageLoadUnsigned")
  | CBigIntStorageStoreUnsigned => (SBigInt, "BigIntStorageStoreUnsigned")
  | CBigIntGetUnsignedArgument => (SBigInt, "BigIntGetUnsignedArgument")
  | CBigIntGetSignedArgument => (SBigInt, "BigIntGetSignedArgument")
  | CBigIntGetCallValue => (SBigInt, "BigIntGetCallValue")
  | CBigIntGetExternalBalance => (SBigInt, "BigIntGetExternalBalance")
  | CBigIntSetInt64 => (SBigInt, "BigIntSetInt64") | CBigIntAdd => (SBigInt, "BigIntAdd")
  | CBigIntTMod => (SBigInt, "BigIntTMod") | CBigIntEDiv => (SBigInt, "BigIntEDiv")
  | CBigIntEMod => (SBigInt, "BigIntEMod") | CBigIntAbs => (SBigInt, "BigIntAbs")
  | CBigIntNeg => (SBigInt, "BigIntNeg") | CBigIntNot => (SBigInt, "BigIntNot")
  | CBigIntAnd => (SBigInt, "BigIntAnd") | CBigIntOr => (SBigInt, "BigIntOr")
  | CBigIntXor => (SBigInt, "BigIntXor") | CBigIntShr => (SBigInt, "BigIntShr")
  | CBigIntShl => (SBigInt, "BigIntShl")
  | CSHA256 => (SCrypto, "SHA256") | CKeccak256 => (SCrypto, "Keccak256")
  | CRipemd160 => (SCrypto, "Ripemd160") | CVerifyBLS => (SCrypto, "VerifyBLS")
  | CVerifyEd25519 => (SCrypto, "VerifyEd25519") | CVerifySecp256k1 => (SCrypto, "VerifySecp256k1")
  end%string.
