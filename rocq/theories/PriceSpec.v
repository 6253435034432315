(** Vocabulary for C63: what the gas schedule asks for each API call. *)
From Verif Require Import VmTypes InvSpec.

(** the entry of the gas schedule a call is charged under; the entries of
    bigIntAdd and of the other functions of [subtraction_price] are in the
    schedule but not used *)
Definition entry (c : api_call) : option cost :=
  match c with
  | A_getGasLeft => Some CGetGasLeft
  | A_getSCAddress _ => Some CGetSCAddress
  | A_getOwnerAddress _ => Some CGetOwnerAddress
  | A_getShardOfAddress _ => Some CGetShardOfAddress
  | A_isSmartContract _ => Some CIsSmartContract
  | A_signalError _ _ => Some CSignalError
  | A_getExternalBalance _ _ | A_getESDTBalance _ _ _ _ _ | A_getESDTNFTNameLength _ _ _ _
  | A_getESDTNFTAttributeLength _ _ _ _ | A_getESDTNFTURILength _ _ _ _
  | A_getESDTTokenData _ _ _ _ _ _ _ _ _ _ _ _ => Some CGetExternalBalance
  | A_getBlockHash _ _ | A_getOriginalTxHash _ => Some CGetBlockHash
  | A_transferValue _ _ _ _ | A_transferValueExecute _ _ _ _ _ _ _ _ | A_transferESDT _ _ _ _ _ _ _
  | A_transferESDTExecute _ _ _ _ _ _ _ _ _ _ | A_transferESDTNFTExecute _ _ _ _ _ _ _ _ _ _ _ => Some CTransferValue
  | A_createAsyncCall _ _ _ _ _ _ _ _ _ _ _ | A_setAsyncContextCallback _ _ _ _ => None
  | A_upgradeContract _ _ _ _ _ _ _ _ _ | A_upgradeFromSourceContract _ _ _ _ _ _ _ _
  | A_createContract _ _ _ _ _ _ _ _ _ | A_deployFromSourceContract _ _ _ _ _ _ _ _ => Some CCreateContract
  | A_asyncCall _ _ _ _ => Some CAsyncCallStep
  | A_getArgumentLength _ | A_getArgument _ _ => Some CGetArgument
  | A_getFunction _ => Some CGetFunction
  | A_getNumArguments => Some CGetNumArguments
  | A_storageStore _ _ _ _ => Some CStorageStore
  | A_storageLoadLength _ _ | A_storageLoadFromAddress _ _ _ _ | A_storageLoad _ _ _ | A_getStorageLock _ _
  | A_isStorageLocked _ _ | A_getCurrentESDTNFTNonce _ _ _ => Some CStorageLoad
  | A_setStorageLock _ _ _ | A_clearStorageLock _ _ | A_smallIntStorageStoreUnsigned _ _ _
  | A_smallIntStorageStoreSigned _ _ _ | A_int64storageStore _ _ _ => Some CInt64StorageStore
  | A_getCaller _ => Some CGetCaller
  | A_checkNoPayment | A_getCallValue _ | A_getESDTValue _ | A_getESDTTokenName _ | A_getESDTTokenNonce
  | A_getESDTTokenType | A_getCallValueTokenName _ _ => Some CGetCallValue
  | A_writeLog _ _ _ _ | A_writeEventLog _ _ _ _ _ => Some CLog
  | A_getBlockTimestamp | A_getPrevBlockTimestamp => Some CGetBlockTimeStamp
  | A_getBlockNonce | A_getPrevBlockNonce => Some CGetBlockNonce
  | A_getBlockRound | A_getPrevBlockRound => Some CGetBlockRound
  | A_getBlockEpoch | A_getPrevBlockEpoch => Some CGetBlockEpoch
  | A_getBlockRandomSeed _ | A_getPrevBlockRandomSeed _ => Some CGetBlockRandomSeed
  | A_getStateRootHash _ => Some CGetStateRootHash
  | A_finish _ _ => Some CFinish
  | A_executeOnSameContext _ _ _ _ _ _ _ _ => Some CExecuteOnSameContext
  | A_executeOnDestContext _ _ _ _ _ _ _ _ | A_executeOnDestContextByCaller _ _ _ _ _ _ _ _ => Some CExecuteOnDestContext
  | A_delegateExecution _ _ _ _ _ _ _ => Some CDelegateExecution
  | A_executeReadOnly _ _ _ _ _ _ _ => Some CExecuteReadOnly
  | A_getNumReturnData => Some CGetNumReturnData
  | A_getReturnDataSize _ => Some CGetReturnDataSize
  | A_getReturnData _ _ => Some CGetReturnData
  | A_smallIntGetUnsignedArgument _ | A_smallIntGetSignedArgument _ | A_int64getArgument _ => Some CInt64GetArgument
  | A_smallIntFinishUnsigned _ | A_smallIntFinishSigned _ | A_int64finish _ => Some CInt64Finish
  | A_smallIntStorageLoadUnsigned _ _ | A_smallIntStorageLoadSigned _ _ | A_int64storageLoad _ _ => Some CInt64StorageLoad
  | A_bigIntGetUnsignedArgument _ _ => Some CBigIntGetUnsignedArgument
  | A_bigIntGetSignedArgument _ _ => Some CBigIntGetSignedArgument
  | A_bigIntStorageStoreUnsigned _ _ _ => Some CBigIntStorageStoreUnsigned
  | A_bigIntStorageLoadUnsigned _ _ _ => Some CBigIntStorageLoadUnsigned
  | A_bigIntGetCallValue _ | A_bigIntGetESDTCallValue _ => Some CBigIntGetCallValue
  | A_bigIntGetExternalBalance _ _ | A_bigIntGetESDTExternalBalance _ _ _ _ _ => Some CBigIntGetExternalBalance
  | A_bigIntNew _ => Some CBigIntNew
  | A_bigIntUnsignedByteLength _ => Some CBigIntUnsignedByteLength
  | A_bigIntSignedByteLength _ => Some CBigIntSignedByteLength
  | A_bigIntGetUnsignedBytes _ _ => Some CBigIntGetUnsignedBytes
  | A_bigIntGetSignedBytes _ _ => Some CBigIntGetSignedBytes
  | A_bigIntSetUnsignedBytes _ _ _ => Some CBigIntSetUnsignedBytes
  | A_bigIntSetSignedBytes _ _ _ => Some CBigIntSetSignedBytes
  | A_bigIntIsInt64 _ => Some CBigIntIsInt64
  | A_bigIntGetInt64 _ => Some CBigIntGetInt64
  | A_bigIntSetInt64 _ _ => Some CBigIntSetInt64
  | A_bigIntAdd _ _ _ => Some CBigIntAdd
  | A_bigIntSub _ _ _ => Some CBigIntSub
  | A_bigIntMul _ _ _ => Some CBigIntMul
  | A_bigIntTDiv _ _ _ => Some CBigIntTDiv
  | A_bigIntTMod _ _ _ => Some CBigIntTMod
  | A_bigIntEDiv _ _ _ => Some CBigIntEDiv
  | A_bigIntEMod _ _ _ => Some CBigIntEMod
  | A_bigIntAbs _ _ => Some CBigIntAbs
  | A_bigIntNeg _ _ => Some CBigIntNeg
  | A_bigIntSign _ => Some CBigIntSign
  | A_bigIntCmp _ _ => Some CBigIntCmp
  | A_bigIntNot _ _ => Some CBigIntNot
  | A_bigIntAnd _ _ _ => Some CBigIntAnd
  | A_bigIntOr _ _ _ => Some CBigIntOr
  | A_bigIntXor _ _ _ => Some CBigIntXor
  | A_bigIntShr _ _ _ => Some CBigIntShr
  | A_bigIntShl _ _ _ => Some CBigIntShl
  | A_bigIntFinishUnsigned _ => Some CBigIntFinishUnsigned
  | A_bigIntFinishSigned _ => Some CBigIntFinishSigned
  | A_sha256 _ _ _ => Some CSHA256
  | A_keccak256 _ _ _ => Some CKeccak256
  | A_ripemd160 _ _ _ => Some CRipemd160
  | A_verifyBLS _ _ _ _ => Some CVerifyBLS
  | A_verifyEd25519 _ _ _ _ => Some CVerifyEd25519
  | A_verifySecp256k1 _ _ _ _ _ => Some CVerifySecp256k1
  end.

(** the functions charged under the entry of bigIntSub instead of their own *)
Definition subtraction_price (c : api_call) : bool :=
  match c with
  | A_bigIntSetInt64 _ _ | A_bigIntAdd _ _ _ | A_bigIntTMod _ _ _ | A_bigIntEDiv _ _ _ | A_bigIntEMod _ _ _
  | A_bigIntAbs _ _ | A_bigIntNeg _ _ | A_bigIntNot _ _ | A_bigIntAnd _ _ _ | A_bigIntOr _ _ _ | A_bigIntXor _ _ _
  | A_bigIntShr _ _ _ | A_bigIntShl _ _ _ => true
  | _ => false
  end.

(** the bytes a call asks to have copied or kept, with the schedule's price for
    one of them *)
Definition data_bytes (c : api_call) : option (cost * Z) :=
  match c with
  | A_finish _ l => Some (PersistPerByte, i32 l)
  | A_transferValue _ _ _ l | A_transferESDT _ _ _ _ _ _ l => Some (PersistPerByte, i32 l)
  | A_writeLog _ l _ n =>
      if (0 <=? i32 n) && (0 <=? i32 l) && (32 * i32 n + i32 l <=? max_i32)
      then Some (PersistPerByte, 32 * i32 n + i32 l) else None
  | A_asyncCall _ _ _ l | A_upgradeContract _ _ _ _ _ l _ _ _ => Some (DataCopyPerByte, i32 l)
  | A_sha256 _ l _ | A_keccak256 _ l _ | A_ripemd160 _ l _ => Some (DataCopyPerByte, i32 l)
  | A_verifyBLS _ _ l _ | A_verifyEd25519 _ _ l _ | A_verifySecp256k1 _ _ _ l _ => Some (DataCopyPerByte, i32 l)
  | _ => None
  end.

(** the price of a call: its entry, and that of the bytes handled *)
Definition price_under `{E : env} (k : option cost) (c : api_call) : Z :=
  match k with Some k => e_cost E k | None => 0 end +
  match data_bytes c with Some (k, n) => e_cost E k * Z.max 0 n | None => 0 end.
Definition price `{E : env} (c : api_call) : Z := price_under (entry c) c.
