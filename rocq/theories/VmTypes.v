(** State of the virtual machine host: records for the contexts of
    arwen/contexts, the inputs and outputs exchanged with the node
    (elrond-vm-common), the blockchain behind the hook, and the programs run
    by a Wasmer instance.

    For every record field [f] there is an assignment function [set_f]. *)
From Verif Require Export GoRt MathModel MemModel CodecModel.

(** * Gas schedule

    config/gasCost.go:14-62, 100-136: names of the prices.  (EthAPICost,
    CryptoAPICost and WASMOpcodeCost are not modelled.) *)
Inductive cost :=
(* BaseOperationCost, gasCost.go:14-22 *)
| StorePerByte | ReleasePerByte | DataCopyPerByte | PersistPerByte
| CompilePerByte | AoTPreparePerByte | GetCodeCost
(* ElrondAPICost, gasCost.go:24-62 *)
| CGetSCAddress | CGetOwnerAddress | CIsSmartContract | CGetShardOfAddress
| CGetExternalBalance | CGetBlockHash | CTransferValue | CGetArgument
| CGetFunction | CGetNumArguments | CStorageStore | CStorageLoad
| CGetCaller | CGetCallValue | CLog | CFinish | CSignalError
| CGetBlockTimeStamp | CGetGasLeft | CInt64GetArgument | CInt64StorageStore
| CInt64StorageLoad | CInt64Finish | CGetStateRootHash | CGetBlockNonce
| CGetBlockEpoch | CGetBlockRound | CGetBlockRandomSeed
| CExecuteOnSameContext | CExecuteOnDestContext | CDelegateExecution
| CExecuteReadOnly | CAsyncCallStep | CAsyncCallbackGasLock
| CCreateContract | CGetReturnData | CGetNumReturnData | CGetReturnDataSize
(* BigIntAPICost, gasCost.go:100-136 *)
| CBigIntNew | CBigIntUnsignedByteLength | CBigIntSignedByteLength
| CBigIntGetUnsignedBytes | CBigIntGetSignedBytes | CBigIntSetUnsignedBytes
| CBigIntSetSignedBytes | CBigIntIsInt64 | CBigIntGetInt64 | CBigIntSub
| CBigIntMul | CBigIntTDiv | CBigIntSign | CBigIntCmp | CBigIntFinishUnsigned
| CBigIntFinishSigned | CBigIntStorageLoadUnsigned
| CBigIntStorageStoreUnsigned | CBigIntGetUnsignedArgument
| CBigIntGetSignedArgument | CBigIntGetCallValue | CBigIntGetExternalBalance
(* ... of which the following are in the schedule but never read by the code *)
| CBigIntSetInt64 | CBigIntAdd | CBigIntTMod | CBigIntEDiv | CBigIntEMod
| CBigIntAbs | CBigIntNeg | CBigIntNot | CBigIntAnd | CBigIntOr | CBigIntXor
| CBigIntShr | CBigIntShl
(* CryptoAPICost, gasCost.go *)
| CSHA256 | CKeccak256 | CRipemd160 | CVerifyBLS | CVerifyEd25519 | CVerifySecp256k1.

(** * Inputs *)

(** elrond-vm-common CallType (values 0..3). *)
Inductive call_type := DirectCall | AsynchronousCall | AsynchronousCallBack | ESDTTransferAndExecute.
Global Instance call_type_eq_dec : EqDecision call_type.
Proof. solve_decision. Defined.

(** elrond-vm-common ReturnCode (values 0..11). *)
Inductive return_code :=
| RcOk | RcFunctionNotFound | RcFunctionWrongSignature | RcContractNotFound
| RcUserError | RcOutOfGas | RcAccountCollision | RcOutOfFunds
| RcCallStackOverFlow | RcContractInvalid | RcExecutionFailed | RcUpgradeFailed.
Global Instance return_code_eq_dec : EqDecision return_code.
Proof. solve_decision. Defined.

(** the numeric value of a return code (elrond-vm-common output.go) *)
Definition rc_num (c : return_code) : Z :=
  match c with
  | RcOk => 0 | RcFunctionNotFound => 1 | RcFunctionWrongSignature => 2
  | RcContractNotFound => 3 | RcUserError => 4 | RcOutOfGas => 5
  | RcAccountCollision => 6 | RcOutOfFunds => 7 | RcCallStackOverFlow => 8
  | RcContractInvalid => 9 | RcExecutionFailed => 10 | RcUpgradeFailed => 11
  end.

(** elrond-vm-common ESDTTransfer (copied by arwen/contexts/runtime.go:423-432). *)
Record esdt_transfer := mkEsdt {
  et_value : Z; et_name : bytes; et_type : Z; et_nonce : Z }.

(** elrond-vm-common VMInput, the fields copied by runtime.go:435-484
    SetVMInput.  Simplifications: PrevTxHash is not modelled (it is only
    copied); a nil CallValue is 0 (as SetVMInput makes it). *)
Record vm_input := mkInput {
  vi_caller : bytes;
  vi_args : list bytes;
  vi_value : Z;
  vi_ctype : call_type;
  vi_gasprice : Z;
  vi_gas : Z;
  vi_locked : Z;
  vi_esdt : list esdt_transfer;
  vi_origtx : bytes;
  vi_curtx : bytes;
  vi_aftererr : bool
}.
(** assignment to the field [vi_caller] of [vm_input] *)
Definition set_vi_caller (v : bytes) (x : vm_input) : vm_input :=
  mkInput v (vi_args x) (vi_value x) (vi_ctype x) (vi_gasprice x) (vi_gas x) (vi_locked x) (vi_esdt x) (vi_origtx x) (vi_curtx x) (vi_aftererr x).
(** assignment to the field [vi_args] of [vm_input] *)
Definition set_vi_args (v : list bytes) (x : vm_input) : vm_input :=
  mkInput (vi_caller x) v (vi_value x) (vi_ctype x) (vi_gasprice x) (vi_gas x) (vi_locked x) (vi_esdt x) (vi_origtx x) (vi_curtx x) (vi_aftererr x).
(** assignment to the field [vi_value] of [vm_input] *)
Definition set_vi_value (v : Z) (x : vm_input) : vm_input :=
  mkInput (vi_caller x) (vi_args x) v (vi_ctype x) (vi_gasprice x) (vi_gas x) (vi_locked x) (vi_esdt x) (vi_origtx x) (vi_curtx x) (vi_aftererr x).
(** assignment to the field [vi_ctype] of [vm_input] *)
Definition set_vi_ctype (v : call_type) (x : vm_input) : vm_input :=
  mkInput (vi_caller x) (vi_args x) (vi_value x) v (vi_gasprice x) (vi_gas x) (vi_locked x) (vi_esdt x) (vi_origtx x) (vi_curtx x) (vi_aftererr x).
(** assignment to the field [vi_gasprice] of [vm_input] *)
Definition set_vi_gasprice (v : Z) (x : vm_input) : vm_input :=
  mkInput (vi_caller x) (vi_args x) (vi_value x) (vi_ctype x) v (vi_gas x) (vi_locked x) (vi_esdt x) (vi_origtx x) (vi_curtx x) (vi_aftererr x).
(** assignment to the field [vi_gas] of [vm_input] *)
Definition set_vi_gas (v : Z) (x : vm_input) : vm_input :=
  mkInput (vi_caller x) (vi_args x) (vi_value x) (vi_ctype x) (vi_gasprice x) v (vi_locked x) (vi_esdt x) (vi_origtx x) (vi_curtx x) (vi_aftererr x).
(** assignment to the field [vi_locked] of [vm_input] *)
Definition set_vi_locked (v : Z) (x : vm_input) : vm_input :=
  mkInput (vi_caller x) (vi_args x) (vi_value x) (vi_ctype x) (vi_gasprice x) (vi_gas x) v (vi_esdt x) (vi_origtx x) (vi_curtx x) (vi_aftererr x).
(** assignment to the field [vi_esdt] of [vm_input] *)
Definition set_vi_esdt (v : list esdt_transfer) (x : vm_input) : vm_input :=
  mkInput (vi_caller x) (vi_args x) (vi_value x) (vi_ctype x) (vi_gasprice x) (vi_gas x) (vi_locked x) v (vi_origtx x) (vi_curtx x) (vi_aftererr x).
(** assignment to the field [vi_origtx] of [vm_input] *)
Definition set_vi_origtx (v : bytes) (x : vm_input) : vm_input :=
  mkInput (vi_caller x) (vi_args x) (vi_value x) (vi_ctype x) (vi_gasprice x) (vi_gas x) (vi_locked x) (vi_esdt x) v (vi_curtx x) (vi_aftererr x).
(** assignment to the field [vi_curtx] of [vm_input] *)
Definition set_vi_curtx (v : bytes) (x : vm_input) : vm_input :=
  mkInput (vi_caller x) (vi_args x) (vi_value x) (vi_ctype x) (vi_gasprice x) (vi_gas x) (vi_locked x) (vi_esdt x) (vi_origtx x) v (vi_aftererr x).
(** assignment to the field [vi_aftererr] of [vm_input] *)
Definition set_vi_aftererr (v : bool) (x : vm_input) : vm_input :=
  mkInput (vi_caller x) (vi_args x) (vi_value x) (vi_ctype x) (vi_gasprice x) (vi_gas x) (vi_locked x) (vi_esdt x) (vi_origtx x) (vi_curtx x) v.


(** elrond-vm-common ContractCallInput. *)
Record call_input := mkCall {
  ci_vm : vm_input;
  ci_rcpt : bytes;
  ci_fn : bytes;
  ci_init : bool
}.
(** assignment to the field [ci_vm] of [call_input] *)
Definition set_ci_vm (v : vm_input) (x : call_input) : call_input :=
  mkCall v (ci_rcpt x) (ci_fn x) (ci_init x).
(** assignment to the field [ci_rcpt] of [call_input] *)
Definition set_ci_rcpt (v : bytes) (x : call_input) : call_input :=
  mkCall (ci_vm x) v (ci_fn x) (ci_init x).
(** assignment to the field [ci_fn] of [call_input] *)
Definition set_ci_fn (v : bytes) (x : call_input) : call_input :=
  mkCall (ci_vm x) (ci_rcpt x) v (ci_init x).
(** assignment to the field [ci_init] of [call_input] *)
Definition set_ci_init (v : bool) (x : call_input) : call_input :=
  mkCall (ci_vm x) (ci_rcpt x) (ci_fn x) v.


(** elrond-vm-common ContractCreateInput. *)
Record create_input := mkCreate {
  cc_vm : vm_input; cc_code : bytes; cc_meta : bytes }.

(** arwen/common.go:102-108 CodeDeployInput. *)
Record deploy_input := mkDeploy {
  di_code : bytes; di_meta : bytes; di_addr : bytes; di_deployer : bytes }.

(** * Outputs *)

(** elrond-vm-common OutputTransfer. *)
Record out_transfer := mkTransfer {
  ot_value : Z; ot_gaslimit : Z; ot_gaslocked : Z; ot_data : bytes;
  ot_ctype : call_type; ot_sender : bytes }.

(** elrond-vm-common LogEntry (output.go:224-236). *)
Record log_entry := mkLog {
  le_addr : bytes; le_id : bytes; le_topics : list bytes; le_data : bytes }.

(** elrond-vm-common OutputAccount.  Simplifications: the account's Address is
    the key of the map it is in; a nil BalanceDelta is 0; nil Code and
    CodeMetadata are empty; a StorageUpdate is its Data (its Offset is the key). *)
Record out_account := mkAcc {
  oa_nonce : Z;
  oa_balance : option Z;
  oa_delta : Z;
  oa_storage : gmap bytes bytes;
  oa_code : bytes;
  oa_meta : bytes;
  oa_deployer : option bytes;
  oa_transfers : list out_transfer;
  oa_gasused : Z
}.
(** assignment to the field [oa_nonce] of [out_account] *)
Definition set_oa_nonce (v : Z) (x : out_account) : out_account :=
  mkAcc v (oa_balance x) (oa_delta x) (oa_storage x) (oa_code x) (oa_meta x) (oa_deployer x) (oa_transfers x) (oa_gasused x).
(** assignment to the field [oa_balance] of [out_account] *)
Definition set_oa_balance (v : option Z) (x : out_account) : out_account :=
  mkAcc (oa_nonce x) v (oa_delta x) (oa_storage x) (oa_code x) (oa_meta x) (oa_deployer x) (oa_transfers x) (oa_gasused x).
(** assignment to the field [oa_delta] of [out_account] *)
Definition set_oa_delta (v : Z) (x : out_account) : out_account :=
  mkAcc (oa_nonce x) (oa_balance x) v (oa_storage x) (oa_code x) (oa_meta x) (oa_deployer x) (oa_transfers x) (oa_gasused x).
(** assignment to the field [oa_storage] of [out_account] *)
Definition set_oa_storage (v : gmap bytes bytes) (x : out_account) : out_account :=
  mkAcc (oa_nonce x) (oa_balance x) (oa_delta x) v (oa_code x) (oa_meta x) (oa_deployer x) (oa_transfers x) (oa_gasused x).
(** assignment to the field [oa_code] of [out_account] *)
Definition set_oa_code (v : bytes) (x : out_account) : out_account :=
  mkAcc (oa_nonce x) (oa_balance x) (oa_delta x) (oa_storage x) v (oa_meta x) (oa_deployer x) (oa_transfers x) (oa_gasused x).
(** assignment to the field [oa_meta] of [out_account] *)
Definition set_oa_meta (v : bytes) (x : out_account) : out_account :=
  mkAcc (oa_nonce x) (oa_balance x) (oa_delta x) (oa_storage x) (oa_code x) v (oa_deployer x) (oa_transfers x) (oa_gasused x).
(** assignment to the field [oa_deployer] of [out_account] *)
Definition set_oa_deployer (v : option bytes) (x : out_account) : out_account :=
  mkAcc (oa_nonce x) (oa_balance x) (oa_delta x) (oa_storage x) (oa_code x) (oa_meta x) v (oa_transfers x) (oa_gasused x).
(** assignment to the field [oa_transfers] of [out_account] *)
Definition set_oa_transfers (v : list out_transfer) (x : out_account) : out_account :=
  mkAcc (oa_nonce x) (oa_balance x) (oa_delta x) (oa_storage x) (oa_code x) (oa_meta x) (oa_deployer x) v (oa_gasused x).
(** assignment to the field [oa_gasused] of [out_account] *)
Definition set_oa_gasused (v : Z) (x : out_account) : out_account :=
  mkAcc (oa_nonce x) (oa_balance x) (oa_delta x) (oa_storage x) (oa_code x) (oa_meta x) (oa_deployer x) (oa_transfers x) v.


(** elrond-vm-common VMOutput.  DeletedAccounts and TouchedAccounts are never
    written by the modelled code and are left out.  [o_refund] is None for a
    nil GasRefund. *)
Record vm_output := mkOut {
  o_retdata : list bytes;
  o_code : return_code;
  o_msg : bytes;
  o_gasrem : Z;
  o_refund : option Z;
  o_accounts : gmap bytes out_account;
  o_logs : list log_entry
}.
(** assignment to the field [o_retdata] of [vm_output] *)
Definition set_o_retdata (v : list bytes) (x : vm_output) : vm_output :=
  mkOut v (o_code x) (o_msg x) (o_gasrem x) (o_refund x) (o_accounts x) (o_logs x).
(** assignment to the field [o_code] of [vm_output] *)
Definition set_o_code (v : return_code) (x : vm_output) : vm_output :=
  mkOut (o_retdata x) v (o_msg x) (o_gasrem x) (o_refund x) (o_accounts x) (o_logs x).
(** assignment to the field [o_msg] of [vm_output] *)
Definition set_o_msg (v : bytes) (x : vm_output) : vm_output :=
  mkOut (o_retdata x) (o_code x) v (o_gasrem x) (o_refund x) (o_accounts x) (o_logs x).
(** assignment to the field [o_gasrem] of [vm_output] *)
Definition set_o_gasrem (v : Z) (x : vm_output) : vm_output :=
  mkOut (o_retdata x) (o_code x) (o_msg x) v (o_refund x) (o_accounts x) (o_logs x).
(** assignment to the field [o_refund] of [vm_output] *)
Definition set_o_refund (v : option Z) (x : vm_output) : vm_output :=
  mkOut (o_retdata x) (o_code x) (o_msg x) (o_gasrem x) v (o_accounts x) (o_logs x).
(** assignment to the field [o_accounts] of [vm_output] *)
Definition set_o_accounts (v : gmap bytes out_account) (x : vm_output) : vm_output :=
  mkOut (o_retdata x) (o_code x) (o_msg x) (o_gasrem x) (o_refund x) v (o_logs x).
(** assignment to the field [o_logs] of [vm_output] *)
Definition set_o_logs (v : list log_entry) (x : vm_output) : vm_output :=
  mkOut (o_retdata x) (o_code x) (o_msg x) (o_gasrem x) (o_refund x) (o_accounts x) v.


(** * The blockchain behind the hook *)

(** A user account as returned by the hook (vmcommon.UserAccountHandler). *)
Record user_account := mkUser {
  ua_nonce : Z;
  ua_balance : Z;
  ua_code : bytes;
  ua_codehash : bytes;
  ua_meta : bytes;
  ua_owner : bytes;
  ua_storage : gmap bytes bytes
}.
(** assignment to the field [ua_nonce] of [user_account] *)
Definition set_ua_nonce (v : Z) (x : user_account) : user_account :=
  mkUser v (ua_balance x) (ua_code x) (ua_codehash x) (ua_meta x) (ua_owner x) (ua_storage x).
(** assignment to the field [ua_balance] of [user_account] *)
Definition set_ua_balance (v : Z) (x : user_account) : user_account :=
  mkUser (ua_nonce x) v (ua_code x) (ua_codehash x) (ua_meta x) (ua_owner x) (ua_storage x).
(** assignment to the field [ua_code] of [user_account] *)
Definition set_ua_code (v : bytes) (x : user_account) : user_account :=
  mkUser (ua_nonce x) (ua_balance x) v (ua_codehash x) (ua_meta x) (ua_owner x) (ua_storage x).
(** assignment to the field [ua_codehash] of [user_account] *)
Definition set_ua_codehash (v : bytes) (x : user_account) : user_account :=
  mkUser (ua_nonce x) (ua_balance x) (ua_code x) v (ua_meta x) (ua_owner x) (ua_storage x).
(** assignment to the field [ua_meta] of [user_account] *)
Definition set_ua_meta (v : bytes) (x : user_account) : user_account :=
  mkUser (ua_nonce x) (ua_balance x) (ua_code x) (ua_codehash x) v (ua_owner x) (ua_storage x).
(** assignment to the field [ua_owner] of [user_account] *)
Definition set_ua_owner (v : bytes) (x : user_account) : user_account :=
  mkUser (ua_nonce x) (ua_balance x) (ua_code x) (ua_codehash x) (ua_meta x) v (ua_storage x).
(** assignment to the field [ua_storage] of [user_account] *)
Definition set_ua_storage (v : gmap bytes bytes) (x : user_account) : user_account :=
  mkUser (ua_nonce x) (ua_balance x) (ua_code x) (ua_codehash x) (ua_meta x) (ua_owner x) v.


(** The state reached through the hook: the accounts.  A missing account is
    reported by GetUserAccount as an error ([e_missing_err]) or as nil.
    [w_esdt] stands for whatever else the built-in functions keep. *)
Record world := mkWorld {
  w_accounts : gmap bytes user_account;
  w_esdt : gmap bytes Z
}.
(** assignment to the field [w_accounts] of [world] *)
Definition set_w_accounts (v : gmap bytes user_account) (x : world) : world :=
  mkWorld v (w_esdt x).
(** assignment to the field [w_esdt] of [world] *)
Definition set_w_esdt (v : gmap bytes Z) (x : world) : world :=
  mkWorld (w_accounts x) v.


(** The data returned by the hook's GetESDTToken (esdt.ESDigitalToken), as far
    as the API looks at it (elrondei.go:642-786). *)
Record esdt_meta := mkEsdtMeta {
  em_hash : bytes; em_name : bytes; em_attributes : bytes;
  em_creator : bytes; em_royalties : Z; em_uris : list bytes }.
Record esdt_token := mkEsdtToken {
  ek_value : Z; ek_properties : bytes; ek_meta : option esdt_meta }.

(** * Programs *)

(** The functions a contract can import (elrondei.go:114-466 ElrondEIImports,
    bigIntOps.go BigIntImports, smallIntOps.go SmallIntImports, cryptoei.go
    CryptoImports) with their integer arguments; interpreted in ApiModel. *)
Inductive api_call :=
| A_getGasLeft
| A_getSCAddress (resultOffset : Z)
| A_getOwnerAddress (resultOffset : Z)
| A_getShardOfAddress (addressOffset : Z)
| A_isSmartContract (addressOffset : Z)
| A_signalError (messageOffset messageLength : Z)
| A_getExternalBalance (addressOffset resultOffset : Z)
| A_getBlockHash (nonce resultOffset : Z)
| A_getESDTBalance (addressOffset tokenIDOffset tokenIDLen nonce resultOffset : Z)
| A_getESDTNFTNameLength (addressOffset tokenIDOffset tokenIDLen nonce : Z)
| A_getESDTNFTAttributeLength (addressOffset tokenIDOffset tokenIDLen nonce : Z)
| A_getESDTNFTURILength (addressOffset tokenIDOffset tokenIDLen nonce : Z)
| A_getESDTTokenData (addressOffset tokenIDOffset tokenIDLen nonce valueHandle propertiesOffset hashOffset nameOffset attributesOffset creatorOffset royaltiesHandle urisOffset : Z)
| A_transferValue (destOffset valueOffset dataOffset length : Z)
| A_transferValueExecute (destOffset valueOffset gasLimit functionOffset functionLength numArguments argumentsLengthOffset dataOffset : Z)
| A_transferESDT (destOffset tokenIDOffset tokenIDLen valueOffset gasLimit dataOffset length : Z)
| A_transferESDTExecute (destOffset tokenIDOffset tokenIDLen valueOffset gasLimit functionOffset functionLength numArguments argumentsLengthOffset dataOffset : Z)
| A_transferESDTNFTExecute (destOffset tokenIDOffset tokenIDLen valueOffset nonce gasLimit functionOffset functionLength numArguments argumentsLengthOffset dataOffset : Z)
| A_createAsyncCall (asyncContextIdentifier identifierLength destOffset valueOffset dataOffset length successCallback successLength errorCallback errorLength gas : Z)
| A_setAsyncContextCallback (asyncContextIdentifier identifierLength callback callbackLength : Z)
| A_upgradeContract (destOffset gasLimit valueOffset codeOffset codeMetadataOffset length numArguments argumentsLengthOffset dataOffset : Z)
| A_upgradeFromSourceContract (destOffset gasLimit valueOffset sourceContractAddressOffset codeMetadataOffset numArguments argumentsLengthOffset dataOffset : Z)
| A_asyncCall (destOffset valueOffset dataOffset length : Z)
| A_getArgumentLength (id : Z)
| A_getArgument (id argOffset : Z)
| A_getFunction (functionOffset : Z)
| A_getNumArguments
| A_storageStore (keyOffset keyLength dataOffset dataLength : Z)
| A_storageLoadLength (keyOffset keyLength : Z)
| A_storageLoadFromAddress (addressOffset keyOffset keyLength dataOffset : Z)
| A_storageLoad (keyOffset keyLength dataOffset : Z)
| A_setStorageLock (keyOffset keyLength lockTimestamp : Z)
| A_getStorageLock (keyOffset keyLength : Z)
| A_isStorageLocked (keyOffset keyLength : Z)
| A_clearStorageLock (keyOffset keyLength : Z)
| A_getCaller (resultOffset : Z)
| A_checkNoPayment
| A_getCallValue (resultOffset : Z)
| A_getESDTValue (resultOffset : Z)
| A_getESDTTokenName (resultOffset : Z)
| A_getESDTTokenNonce
| A_getCurrentESDTNFTNonce (addressOffset tokenIDOffset tokenIDLen : Z)
| A_getESDTTokenType
| A_getCallValueTokenName (callValueOffset tokenNameOffset : Z)
| A_writeLog (dataPointer dataLength topicPtr numTopics : Z)
| A_writeEventLog (numTopics topicLengthsOffset topicOffset dataOffset dataLength : Z)
| A_getBlockTimestamp
| A_getBlockNonce
| A_getBlockRound
| A_getBlockEpoch
| A_getBlockRandomSeed (pointer : Z)
| A_getStateRootHash (pointer : Z)
| A_getPrevBlockTimestamp
| A_getPrevBlockNonce
| A_getPrevBlockRound
| A_getPrevBlockEpoch
| A_getPrevBlockRandomSeed (pointer : Z)
| A_finish (pointer length : Z)
| A_executeOnSameContext (gasLimit addressOffset valueOffset functionOffset functionLength numArguments argumentsLengthOffset dataOffset : Z)
| A_executeOnDestContext (gasLimit addressOffset valueOffset functionOffset functionLength numArguments argumentsLengthOffset dataOffset : Z)
| A_executeOnDestContextByCaller (gasLimit addressOffset valueOffset functionOffset functionLength numArguments argumentsLengthOffset dataOffset : Z)
| A_delegateExecution (gasLimit addressOffset functionOffset functionLength numArguments argumentsLengthOffset dataOffset : Z)
| A_executeReadOnly (gasLimit addressOffset functionOffset functionLength numArguments argumentsLengthOffset dataOffset : Z)
| A_createContract (gasLimit valueOffset codeOffset codeMetadataOffset length resultOffset numArguments argumentsLengthOffset dataOffset : Z)
| A_deployFromSourceContract (gasLimit valueOffset addressOffset codeMetadataOffset resultOffset numArguments argumentsLengthOffset dataOffset : Z)
| A_getNumReturnData
| A_getReturnDataSize (resultID : Z)
| A_getReturnData (resultID dataOffset : Z)
| A_getOriginalTxHash (dataOffset : Z)
| A_smallIntGetUnsignedArgument (id : Z)
| A_smallIntGetSignedArgument (id : Z)
| A_smallIntFinishUnsigned (value : Z)
| A_smallIntFinishSigned (value : Z)
| A_smallIntStorageStoreUnsigned (keyOffset keyLength value : Z)
| A_smallIntStorageStoreSigned (keyOffset keyLength value : Z)
| A_smallIntStorageLoadUnsigned (keyOffset keyLength : Z)
| A_smallIntStorageLoadSigned (keyOffset keyLength : Z)
| A_int64getArgument (id : Z)
| A_int64finish (value : Z)
| A_int64storageStore (keyOffset keyLength value : Z)
| A_int64storageLoad (keyOffset keyLength : Z)
| A_bigIntGetUnsignedArgument (id destinationHandle : Z)
| A_bigIntGetSignedArgument (id destinationHandle : Z)
| A_bigIntStorageStoreUnsigned (keyOffset keyLength sourceHandle : Z)
| A_bigIntStorageLoadUnsigned (keyOffset keyLength destinationHandle : Z)
| A_bigIntGetCallValue (destinationHandle : Z)
| A_bigIntGetESDTCallValue (destinationHandle : Z)
| A_bigIntGetExternalBalance (addressOffset resultHandle : Z)
| A_bigIntGetESDTExternalBalance (addressOffset tokenIDOffset tokenIDLen nonce resultHandle : Z)
| A_bigIntNew (smallValue : Z)
| A_bigIntUnsignedByteLength (referenceHandle : Z)
| A_bigIntSignedByteLength (referenceHandle : Z)
| A_bigIntGetUnsignedBytes (referenceHandle byteOffset : Z)
| A_bigIntGetSignedBytes (referenceHandle byteOffset : Z)
| A_bigIntSetUnsignedBytes (destinationHandle byteOffset byteLength : Z)
| A_bigIntSetSignedBytes (destinationHandle byteOffset byteLength : Z)
| A_bigIntIsInt64 (referenceHandle : Z)
| A_bigIntGetInt64 (referenceHandle : Z)
| A_bigIntSetInt64 (destinationHandle value : Z)
| A_bigIntAdd (destinationHandle op1 op2 : Z)
| A_bigIntSub (destinationHandle op1 op2 : Z)
| A_bigIntMul (destinationHandle op1 op2 : Z)
| A_bigIntTDiv (destinationHandle op1 op2 : Z)
| A_bigIntTMod (destinationHandle op1 op2 : Z)
| A_bigIntEDiv (destinationHandle op1 op2 : Z)
| A_bigIntEMod (destinationHandle op1 op2 : Z)
| A_bigIntAbs (destinationHandle op : Z)
| A_bigIntNeg (destinationHandle op : Z)
| A_bigIntSign (op : Z)
| A_bigIntCmp (op1 op2 : Z)
| A_bigIntNot (destinationHandle op : Z)
| A_bigIntAnd (destinationHandle op1 op2 : Z)
| A_bigIntOr (destinationHandle op1 op2 : Z)
| A_bigIntXor (destinationHandle op1 op2 : Z)
| A_bigIntShr (destinationHandle op bits : Z)
| A_bigIntShl (destinationHandle op bits : Z)
| A_bigIntFinishUnsigned (referenceHandle : Z)
| A_bigIntFinishSigned (referenceHandle : Z)
| A_sha256 (dataOffset length resultOffset : Z)
| A_keccak256 (dataOffset length resultOffset : Z)
| A_ripemd160 (dataOffset length resultOffset : Z)
| A_verifyBLS (keyOffset messageOffset messageLength sigOffset : Z)
| A_verifyEd25519 (keyOffset messageOffset messageLength sigOffset : Z)
| A_verifySecp256k1 (keyOffset keyLength messageOffset messageLength sigOffset : Z).

(** What a WebAssembly function does, seen from the host: it burns gas points
    ([PWork]), reads, writes and grows its own memory, calls API functions and
    goes on with the returned integer, returns, or traps.  A terminating run of
    a WebAssembly function is a path in such a tree; a run that does not
    terminate runs out of points, which is also a (long enough) path.
    This replaces the wasmer engine. *)
Inductive prog :=
| PRet
| PTrap
| PWork (points : Z) (k : prog)
| PRead (offset len : Z) (k : bytes -> prog)
| PWrite (offset : Z) (data : bytes) (k : prog)
| PGrow (k : bool -> prog)
| PApi (c : api_call) (k : Z -> prog).

(** A compiled module (wasmer Instance as seen through
    wasmer/interfaces.go): its exports with their code and whether they have
    neither arguments nor results, whether it declares a memory, its imports,
    its initial memory. *)
Record wmodule := mkModule {
  wm_exports : list (bytes * prog);
  wm_void : bytes -> option (Z * Z);
  wm_hasmem : bool;
  wm_imports : list bytes;
  wm_mem : memory }.

(** A running Wasmer instance: gas points used and limit, breakpoint value
    (arwen/common.go:14-29), memory, module, and the function in execution. *)
Record inst := mkInst {
  in_points : Z;
  in_limit : Z;
  in_bp : Z;
  in_mem : memory;
  in_mod : wmodule
}.
(** assignment to the field [in_points] of [inst] *)
Definition set_in_points (v : Z) (x : inst) : inst :=
  mkInst v (in_limit x) (in_bp x) (in_mem x) (in_mod x).
(** assignment to the field [in_limit] of [inst] *)
Definition set_in_limit (v : Z) (x : inst) : inst :=
  mkInst (in_points x) v (in_bp x) (in_mem x) (in_mod x).
(** assignment to the field [in_bp] of [inst] *)
Definition set_in_bp (v : Z) (x : inst) : inst :=
  mkInst (in_points x) (in_limit x) v (in_mem x) (in_mod x).
(** assignment to the field [in_mem] of [inst] *)
Definition set_in_mem (v : memory) (x : inst) : inst :=
  mkInst (in_points x) (in_limit x) (in_bp x) v (in_mod x).
(** assignment to the field [in_mod] of [inst] *)
Definition set_in_mod (v : wmodule) (x : inst) : inst :=
  mkInst (in_points x) (in_limit x) (in_bp x) (in_mem x) v.


(** * Asynchronous calls *)

(** arwen/common.go:127-133 AsyncCallInfo; also what the handler interface
    exposes of an AsyncGeneratedCall (common.go:186-209, GasLocked = 0). *)
Record async_call := mkAsync {
  ac_dest : bytes; ac_data : bytes; ac_limit : Z; ac_locked : Z; ac_value : bytes }.

(** arwen/common.go:68-80 AsyncCallStatus. *)
Inductive async_status := AsPending | AsResolved | AsRejected.
Global Instance async_status_eq_dec : EqDecision async_status.
Proof. solve_decision. Defined.

(** arwen/common.go:161-170 AsyncGeneratedCall. *)
Record gen_call := mkGenCall {
  gc_status : async_status;
  gc_dest : bytes;
  gc_data : bytes;
  gc_limit : Z;
  gc_value : bytes;
  gc_success : bytes;
  gc_error : bytes;
  gc_provided : Z
}.
(** assignment to the field [gc_status] of [gen_call] *)
Definition set_gc_status (v : async_status) (x : gen_call) : gen_call :=
  mkGenCall v (gc_dest x) (gc_data x) (gc_limit x) (gc_value x) (gc_success x) (gc_error x) (gc_provided x).
(** assignment to the field [gc_dest] of [gen_call] *)
Definition set_gc_dest (v : bytes) (x : gen_call) : gen_call :=
  mkGenCall (gc_status x) v (gc_data x) (gc_limit x) (gc_value x) (gc_success x) (gc_error x) (gc_provided x).
(** assignment to the field [gc_data] of [gen_call] *)
Definition set_gc_data (v : bytes) (x : gen_call) : gen_call :=
  mkGenCall (gc_status x) (gc_dest x) v (gc_limit x) (gc_value x) (gc_success x) (gc_error x) (gc_provided x).
(** assignment to the field [gc_limit] of [gen_call] *)
Definition set_gc_limit (v : Z) (x : gen_call) : gen_call :=
  mkGenCall (gc_status x) (gc_dest x) (gc_data x) v (gc_value x) (gc_success x) (gc_error x) (gc_provided x).
(** assignment to the field [gc_value] of [gen_call] *)
Definition set_gc_value (v : bytes) (x : gen_call) : gen_call :=
  mkGenCall (gc_status x) (gc_dest x) (gc_data x) (gc_limit x) v (gc_success x) (gc_error x) (gc_provided x).
(** assignment to the field [gc_success] of [gen_call] *)
Definition set_gc_success (v : bytes) (x : gen_call) : gen_call :=
  mkGenCall (gc_status x) (gc_dest x) (gc_data x) (gc_limit x) (gc_value x) v (gc_error x) (gc_provided x).
(** assignment to the field [gc_error] of [gen_call] *)
Definition set_gc_error (v : bytes) (x : gen_call) : gen_call :=
  mkGenCall (gc_status x) (gc_dest x) (gc_data x) (gc_limit x) (gc_value x) (gc_success x) v (gc_provided x).
(** assignment to the field [gc_provided] of [gen_call] *)
Definition set_gc_provided (v : Z) (x : gen_call) : gen_call :=
  mkGenCall (gc_status x) (gc_dest x) (gc_data x) (gc_limit x) (gc_value x) (gc_success x) (gc_error x) v.


(** arwen/common.go:174-177 AsyncContext. *)
Record async_ctx := mkActx {
  ax_callback : bytes;
  ax_calls : list gen_call
}.
(** assignment to the field [ax_callback] of [async_ctx] *)
Definition set_ax_callback (v : bytes) (x : async_ctx) : async_ctx :=
  mkActx v (ax_calls x).
(** assignment to the field [ax_calls] of [async_ctx] *)
Definition set_ax_calls (v : list gen_call) (x : async_ctx) : async_ctx :=
  mkActx (ax_callback x) v.


(** arwen/common.go:181-185 AsyncContextInfo. *)
Record async_info := mkAinfo {
  ai_caller : bytes;
  ai_retdata : bytes;
  ai_map : gmap bytes async_ctx
}.
(** assignment to the field [ai_caller] of [async_info] *)
Definition set_ai_caller (v : bytes) (x : async_info) : async_info :=
  mkAinfo v (ai_retdata x) (ai_map x).
(** assignment to the field [ai_retdata] of [async_info] *)
Definition set_ai_retdata (v : bytes) (x : async_info) : async_info :=
  mkAinfo (ai_caller x) v (ai_map x).
(** assignment to the field [ai_map] of [async_info] *)
Definition set_ai_map (v : gmap bytes async_ctx) (x : async_info) : async_info :=
  mkAinfo (ai_caller x) (ai_retdata x) v.


(** * Contexts *)

(** arwen/contexts/metering.go:15-24, the part that is pushed and popped. *)
Record metering := mkMet {
  mt_provided : Z;
  mt_initcost : Z;
  mt_forexec : Z;
  mt_used : gmap bytes Z
}.
(** assignment to the field [mt_provided] of [metering] *)
Definition set_mt_provided (v : Z) (x : metering) : metering :=
  mkMet v (mt_initcost x) (mt_forexec x) (mt_used x).
(** assignment to the field [mt_initcost] of [metering] *)
Definition set_mt_initcost (v : Z) (x : metering) : metering :=
  mkMet (mt_provided x) v (mt_forexec x) (mt_used x).
(** assignment to the field [mt_forexec] of [metering] *)
Definition set_mt_forexec (v : Z) (x : metering) : metering :=
  mkMet (mt_provided x) (mt_initcost x) v (mt_used x).
(** assignment to the field [mt_used] of [metering] *)
Definition set_mt_used (v : gmap bytes Z) (x : metering) : metering :=
  mkMet (mt_provided x) (mt_initcost x) (mt_forexec x) v.


(** arwen/contexts/runtime.go:22-57, the part that is pushed and popped by
    runtime.go:323-360 (the list of errors, kept for logging only, is not
    modelled). *)
Record frame := mkFrame {
  r_input : vm_input;
  r_addr : bytes;
  r_fn : bytes;
  r_ro : bool;
  r_async : option async_call;
  r_actx : async_info
}.
(** assignment to the field [r_input] of [frame] *)
Definition set_r_input (v : vm_input) (x : frame) : frame :=
  mkFrame v (r_addr x) (r_fn x) (r_ro x) (r_async x) (r_actx x).
(** assignment to the field [r_addr] of [frame] *)
Definition set_r_addr (v : bytes) (x : frame) : frame :=
  mkFrame (r_input x) v (r_fn x) (r_ro x) (r_async x) (r_actx x).
(** assignment to the field [r_fn] of [frame] *)
Definition set_r_fn (v : bytes) (x : frame) : frame :=
  mkFrame (r_input x) (r_addr x) v (r_ro x) (r_async x) (r_actx x).
(** assignment to the field [r_ro] of [frame] *)
Definition set_r_ro (v : bool) (x : frame) : frame :=
  mkFrame (r_input x) (r_addr x) (r_fn x) v (r_async x) (r_actx x).
(** assignment to the field [r_async] of [frame] *)
Definition set_r_async (v : option async_call) (x : frame) : frame :=
  mkFrame (r_input x) (r_addr x) (r_fn x) (r_ro x) v (r_actx x).
(** assignment to the field [r_actx] of [frame] *)
Definition set_r_actx (v : async_info) (x : frame) : frame :=
  mkFrame (r_input x) (r_addr x) (r_fn x) (r_ro x) (r_async x) v.


(** Ghost record of what ran, used only in statements: contract code started
    on behalf of address [EvRun sc storage] (runtime address, address under
    which storage is written); an address made owner of the storage that is
    written; value moved by a transfer, with the running contract and the one
    that called it, if any; the read-only mark of the running frame set; an account removed from the
    output, with its balance change there and in the saved outputs. *)
Inductive event :=
| EvRun (sc sto : bytes)
| EvOwner (sto : bytes)
| EvMove (sc : bytes) (parent : option bytes) (sender dest : bytes) (value : Z)
| EvReadOnly (on : bool)
| EvDelete (a : bytes) (dropped : list Z).

(** The host: arwen/host/arwen.go:36-72 with its contexts.  Stacks have their
    top at the head.  Instances live in a heap [h_insts] and are referred to by
    number, because the code compares instance pointers
    (runtime.go:394 popInstance); a cleaned instance is removed from the heap.
    The blockchain context's stack holds snapshot numbers of the node's
    journal (blockchain.go:307-334); the model keeps the state to return to. *)
Record host := mkHost {
  h_big : gmap Z Z;
  (* bigint.go *)
     h_bigst : list (gmap Z Z);
  h_out : vm_output;
  (* output.go *)
     h_outst : list vm_output;
  h_codeupd : gset bytes;
  h_met : metering;
  (* metering.go *)
     h_metst : list metering;
  h_rt : frame;
  (* runtime.go *)
     h_rtst : list frame;
  h_codesize : Z;
  h_verify : bool;
  h_insts : gmap nat inst;
  h_next : nat;
  h_cur : option nat;
  h_ist : list (option nat);
  h_stoaddr : bytes;
  (* storage.go *)
     h_stost : list bytes;
  h_stoprot : bool;
  h_world : world;
  (* behind the blockchain hook *)
     h_bcst : list world;
  (* blockchain.go *)
     h_cache : gmap bytes bytes;
  (* compiled code, by code hash *)
     h_trace : list event              (* ghost *)
}.
(** assignment to the field [h_big] of [host] *)
Definition set_h_big (v : gmap Z Z) (x : host) : host :=
  mkHost v (h_bigst x) (h_out x) (h_outst x) (h_codeupd x) (h_met x) (h_metst x) (h_rt x) (h_rtst x) (h_codesize x) (h_verify x) (h_insts x) (h_next x) (h_cur x) (h_ist x) (h_stoaddr x) (h_stost x) (h_stoprot x) (h_world x) (h_bcst x) (h_cache x) (h_trace x).
(** assignment to the field [h_bigst] of [host] *)
Definition set_h_bigst (v : list (gmap Z Z)) (x : host) : host :=
  mkHost (h_big x) v (h_out x) (h_outst x) (h_codeupd x) (h_met x) (h_metst x) (h_rt x) (h_rtst x) (h_codesize x) (h_verify x) (h_insts x) (h_next x) (h_cur x) (h_ist x) (h_stoaddr x) (h_stost x) (h_stoprot x) (h_world x) (h_bcst x) (h_cache x) (h_trace x).
(** assignment to the field [h_out] of [host] *)
Definition set_h_out (v : vm_output) (x : host) : host :=
  mkHost (h_big x) (h_bigst x) v (h_outst x) (h_codeupd x) (h_met x) (h_metst x) (h_rt x) (h_rtst x) (h_codesize x) (h_verify x) (h_insts x) (h_next x) (h_cur x) (h_ist x) (h_stoaddr x) (h_stost x) (h_stoprot x) (h_world x) (h_bcst x) (h_cache x) (h_trace x).
(** assignment to the field [h_outst] of [host] *)
Definition set_h_outst (v : list vm_output) (x : host) : host :=
  mkHost (h_big x) (h_bigst x) (h_out x) v (h_codeupd x) (h_met x) (h_metst x) (h_rt x) (h_rtst x) (h_codesize x) (h_verify x) (h_insts x) (h_next x) (h_cur x) (h_ist x) (h_stoaddr x) (h_stost x) (h_stoprot x) (h_world x) (h_bcst x) (h_cache x) (h_trace x).
(** assignment to the field [h_codeupd] of [host] *)
Definition set_h_codeupd (v : gset bytes) (x : host) : host :=
  mkHost (h_big x) (h_bigst x) (h_out x) (h_outst x) v (h_met x) (h_metst x) (h_rt x) (h_rtst x) (h_codesize x) (h_verify x) (h_insts x) (h_next x) (h_cur x) (h_ist x) (h_stoaddr x) (h_stost x) (h_stoprot x) (h_world x) (h_bcst x) (h_cache x) (h_trace x).
(** assignment to the field [h_met] of [host] *)
Definition set_h_met (v : metering) (x : host) : host :=
  mkHost (h_big x) (h_bigst x) (h_out x) (h_outst x) (h_codeupd x) v (h_metst x) (h_rt x) (h_rtst x) (h_codesize x) (h_verify x) (h_insts x) (h_next x) (h_cur x) (h_ist x) (h_stoaddr x) (h_stost x) (h_stoprot x) (h_world x) (h_bcst x) (h_cache x) (h_trace x).
(** assignment to the field [h_metst] of [host] *)
Definition set_h_metst (v : list metering) (x : host) : host :=
  mkHost (h_big x) (h_bigst x) (h_out x) (h_outst x) (h_codeupd x) (h_met x) v (h_rt x) (h_rtst x) (h_codesize x) (h_verify x) (h_insts x) (h_next x) (h_cur x) (h_ist x) (h_stoaddr x) (h_stost x) (h_stoprot x) (h_world x) (h_bcst x) (h_cache x) (h_trace x).
(** assignment to the field [h_rt] of [host] *)
Definition set_h_rt (v : frame) (x : host) : host :=
  mkHost (h_big x) (h_bigst x) (h_out x) (h_outst x) (h_codeupd x) (h_met x) (h_metst x) v (h_rtst x) (h_codesize x) (h_verify x) (h_insts x) (h_next x) (h_cur x) (h_ist x) (h_stoaddr x) (h_stost x) (h_stoprot x) (h_world x) (h_bcst x) (h_cache x) (h_trace x).
(** assignment to the field [h_rtst] of [host] *)
Definition set_h_rtst (v : list frame) (x : host) : host :=
  mkHost (h_big x) (h_bigst x) (h_out x) (h_outst x) (h_codeupd x) (h_met x) (h_metst x) (h_rt x) v (h_codesize x) (h_verify x) (h_insts x) (h_next x) (h_cur x) (h_ist x) (h_stoaddr x) (h_stost x) (h_stoprot x) (h_world x) (h_bcst x) (h_cache x) (h_trace x).
(** assignment to the field [h_codesize] of [host] *)
Definition set_h_codesize (v : Z) (x : host) : host :=
  mkHost (h_big x) (h_bigst x) (h_out x) (h_outst x) (h_codeupd x) (h_met x) (h_metst x) (h_rt x) (h_rtst x) v (h_verify x) (h_insts x) (h_next x) (h_cur x) (h_ist x) (h_stoaddr x) (h_stost x) (h_stoprot x) (h_world x) (h_bcst x) (h_cache x) (h_trace x).
(** assignment to the field [h_verify] of [host] *)
Definition set_h_verify (v : bool) (x : host) : host :=
  mkHost (h_big x) (h_bigst x) (h_out x) (h_outst x) (h_codeupd x) (h_met x) (h_metst x) (h_rt x) (h_rtst x) (h_codesize x) v (h_insts x) (h_next x) (h_cur x) (h_ist x) (h_stoaddr x) (h_stost x) (h_stoprot x) (h_world x) (h_bcst x) (h_cache x) (h_trace x).
(** assignment to the field [h_insts] of [host] *)
Definition set_h_insts (v : gmap nat inst) (x : host) : host :=
  mkHost (h_big x) (h_bigst x) (h_out x) (h_outst x) (h_codeupd x) (h_met x) (h_metst x) (h_rt x) (h_rtst x) (h_codesize x) (h_verify x) v (h_next x) (h_cur x) (h_ist x) (h_stoaddr x) (h_stost x) (h_stoprot x) (h_world x) (h_bcst x) (h_cache x) (h_trace x).
(** assignment to the field [h_next] of [host] *)
Definition set_h_next (v : nat) (x : host) : host :=
  mkHost (h_big x) (h_bigst x) (h_out x) (h_outst x) (h_codeupd x) (h_met x) (h_metst x) (h_rt x) (h_rtst x) (h_codesize x) (h_verify x) (h_insts x) v (h_cur x) (h_ist x) (h_stoaddr x) (h_stost x) (h_stoprot x) (h_world x) (h_bcst x) (h_cache x) (h_trace x).
(** assignment to the field [h_cur] of [host] *)
Definition set_h_cur (v : option nat) (x : host) : host :=
  mkHost (h_big x) (h_bigst x) (h_out x) (h_outst x) (h_codeupd x) (h_met x) (h_metst x) (h_rt x) (h_rtst x) (h_codesize x) (h_verify x) (h_insts x) (h_next x) v (h_ist x) (h_stoaddr x) (h_stost x) (h_stoprot x) (h_world x) (h_bcst x) (h_cache x) (h_trace x).
(** assignment to the field [h_ist] of [host] *)
Definition set_h_ist (v : list (option nat)) (x : host) : host :=
  mkHost (h_big x) (h_bigst x) (h_out x) (h_outst x) (h_codeupd x) (h_met x) (h_metst x) (h_rt x) (h_rtst x) (h_codesize x) (h_verify x) (h_insts x) (h_next x) (h_cur x) v (h_stoaddr x) (h_stost x) (h_stoprot x) (h_world x) (h_bcst x) (h_cache x) (h_trace x).
(** assignment to the field [h_stoaddr] of [host] *)
Definition set_h_stoaddr (v : bytes) (x : host) : host :=
  mkHost (h_big x) (h_bigst x) (h_out x) (h_outst x) (h_codeupd x) (h_met x) (h_metst x) (h_rt x) (h_rtst x) (h_codesize x) (h_verify x) (h_insts x) (h_next x) (h_cur x) (h_ist x) v (h_stost x) (h_stoprot x) (h_world x) (h_bcst x) (h_cache x) (h_trace x).
(** assignment to the field [h_stost] of [host] *)
Definition set_h_stost (v : list bytes) (x : host) : host :=
  mkHost (h_big x) (h_bigst x) (h_out x) (h_outst x) (h_codeupd x) (h_met x) (h_metst x) (h_rt x) (h_rtst x) (h_codesize x) (h_verify x) (h_insts x) (h_next x) (h_cur x) (h_ist x) (h_stoaddr x) v (h_stoprot x) (h_world x) (h_bcst x) (h_cache x) (h_trace x).
(** assignment to the field [h_stoprot] of [host] *)
Definition set_h_stoprot (v : bool) (x : host) : host :=
  mkHost (h_big x) (h_bigst x) (h_out x) (h_outst x) (h_codeupd x) (h_met x) (h_metst x) (h_rt x) (h_rtst x) (h_codesize x) (h_verify x) (h_insts x) (h_next x) (h_cur x) (h_ist x) (h_stoaddr x) (h_stost x) v (h_world x) (h_bcst x) (h_cache x) (h_trace x).
(** assignment to the field [h_world] of [host] *)
Definition set_h_world (v : world) (x : host) : host :=
  mkHost (h_big x) (h_bigst x) (h_out x) (h_outst x) (h_codeupd x) (h_met x) (h_metst x) (h_rt x) (h_rtst x) (h_codesize x) (h_verify x) (h_insts x) (h_next x) (h_cur x) (h_ist x) (h_stoaddr x) (h_stost x) (h_stoprot x) v (h_bcst x) (h_cache x) (h_trace x).
(** assignment to the field [h_bcst] of [host] *)
Definition set_h_bcst (v : list world) (x : host) : host :=
  mkHost (h_big x) (h_bigst x) (h_out x) (h_outst x) (h_codeupd x) (h_met x) (h_metst x) (h_rt x) (h_rtst x) (h_codesize x) (h_verify x) (h_insts x) (h_next x) (h_cur x) (h_ist x) (h_stoaddr x) (h_stost x) (h_stoprot x) (h_world x) v (h_cache x) (h_trace x).
(** assignment to the field [h_cache] of [host] *)
Definition set_h_cache (v : gmap bytes bytes) (x : host) : host :=
  mkHost (h_big x) (h_bigst x) (h_out x) (h_outst x) (h_codeupd x) (h_met x) (h_metst x) (h_rt x) (h_rtst x) (h_codesize x) (h_verify x) (h_insts x) (h_next x) (h_cur x) (h_ist x) (h_stoaddr x) (h_stost x) (h_stoprot x) (h_world x) (h_bcst x) v (h_trace x).
(** assignment to the field [h_trace] of [host] *)
Definition set_h_trace (v : list event) (x : host) : host :=
  mkHost (h_big x) (h_bigst x) (h_out x) (h_outst x) (h_codeupd x) (h_met x) (h_metst x) (h_rt x) (h_rtst x) (h_codesize x) (h_verify x) (h_insts x) (h_next x) (h_cur x) (h_ist x) (h_stoaddr x) (h_stost x) (h_stoprot x) (h_world x) (h_bcst x) (h_cache x) v.


(** * The environment

    What the modelled code calls but does not define: the node's hook, the
    built-in functions, the compiler, cryptography, JSON, error texts, and the
    epoch flags, constant during a transaction (arwen.go:252-269). *)
Record env := mkEnv {
  e_v2 : bool; e_v3 : bool; e_aot : bool; e_dyn : bool; e_esdt : bool;
  e_cost : cost -> Z;
  e_protected : bytes;                     (* ElrondProtectedKeyPrefix *)
  e_isBuiltin : bytes -> bool;             (* execution.go:435 IsBuiltinFunctionName *)
  e_builtin : world -> call_input -> world * res vm_output; (* hook ProcessBuiltInFunction *)
  e_shard : bytes -> Z;                    (* hook GetShardOfAddress / ComputeId *)
  e_isSC : bytes -> bool;                  (* hook IsSmartContract *)
  e_isPayable : world -> bytes -> res bool; (* hook IsPayable *)
  e_newAddress : bytes -> Z -> res bytes;  (* hook NewAddress with the VM type *)
  e_missing_err : bool;                    (* GetUserAccount of a missing account is an error *)
  e_compile : bytes -> option wmodule;     (* wasmer compilation *)
  e_sha256 : bytes -> bytes;
  e_apiname : bytes -> bool;               (* names of imports, arwen.go GetAPIMethods *)
  e_errmsg : err -> bytes;                 (* error texts *)
  e_codestr : return_code -> bytes;        (* ReturnCode.String() *)
  e_order : list bytes -> list bytes;      (* order in which Go visits a map's keys *)
  e_marshal : async_info -> bytes;         (* json.Marshal *)
  e_unmarshal : bytes -> res async_info;   (* json.Unmarshal; RPanic: later nil dereference *)
  e_esdtToken : world -> bytes -> bytes -> Z -> res esdt_token; (* hook GetESDTToken *)
  e_blockhash : Z -> res bytes;
  e_blockinfo : bool -> string -> Z;       (* current/last nonce, round, epoch, timestamp *)
  e_blockseed : bool -> bytes;
  e_stateroot : bytes;
  e_nftNonceKey : bytes;                   (* vmcommon.ElrondProtectedKeyPrefix + ESDTNFTLatestNonceIdentifier *)
  e_hash : string -> bytes -> res bytes;   (* crypto.Sha256, Keccak256, Ripemd160 *)
  e_verifySig : string -> bytes -> bytes -> bytes -> bool (* crypto.VerifyBLS etc. *)
}.
Existing Class env.

(** The host's own memory of an instance is addressed by int32 and prices are
    uint64: side conditions on the environment used as hypotheses. *)
Definition env_ok (E : env) : Prop :=
  (forall c, in_u64 (e_cost E c)) /\
  e_protected E <> [] /\
  (forall l, Permutation (e_order E l) l).

(** * The host monad

    A modelled Go function takes the host and gives it back with its result:
    a value, an error, or a Go panic; [OFuel] is the model running out of
    recursion fuel (VmModel), excluded by theorem. *)
Inductive outc (A : Type) : Type :=
| OOk (a : A) | OErr (e : err) | OPanic | OFuel.
Arguments OOk {A} a.
Arguments OErr {A} e.
Arguments OPanic {A}.
Arguments OFuel {A}.

Definition M (A : Type) : Type := host -> host * outc A.

Definition ret {A} (a : A) : M A := fun h => (h, OOk a).
Definition fail {A} (e : err) : M A := fun h => (h, OErr e).
Definition panic {A} : M A := fun h => (h, OPanic).
Definition nofuel {A} : M A := fun h => (h, OFuel).

Definition bind {A B} (m : M A) (k : A -> M B) : M B := fun h =>
  match m h with
  | (h1, OOk a) => k a h1
  | (h1, OErr e) => (h1, OErr e)
  | (h1, OPanic) => (h1, OPanic)
  | (h1, OFuel) => (h1, OFuel)
  end.

Declare Scope host_scope.
Delimit Scope host_scope with host.
Notation "x <- m ;; k" := (bind m (fun x => k))
  (at level 100, m at next level, right associativity) : host_scope.
Notation "' p <- m ;; k" := (bind m (fun x => match x with p => k end))
  (at level 100, p pattern, m at next level, right associativity) : host_scope.
Notation "m ;;; k" := (bind m (fun _ => k)) (at level 100, right associativity) : host_scope.
Open Scope host_scope.

(** reading and assigning the state *)
Definition gets {A} (f : host -> A) : M A := fun h => (h, OOk (f h)).
Definition modify (f : host -> host) : M unit := fun h => (f h, OOk tt).

(** Go's [x, err := f()] where the code looks at err itself. *)
Definition try {A} (m : M A) : M (A + err) := fun h =>
  match m h with
  | (h1, OOk a) => (h1, OOk (inl a))
  | (h1, OErr e) => (h1, OOk (inr e))
  | (h1, OPanic) => (h1, OPanic)
  | (h1, OFuel) => (h1, OFuel)
  end.

(** results of pure functions *)
Definition lift {A} (r : res A) : M A := fun h =>
  match r with ROk a => (h, OOk a) | RErr e => (h, OErr e) | RPanic => (h, OPanic) end.

(** Go's [defer f()] around [m], where [f] looks at the error (if any) [m]
    ended with; on a panic the deferred function runs with no error and the
    panic goes on (Go spec, "Handling panics"). *)
Definition deferring {A B} (m : M A) (f : A + err -> M B) (p : M unit) : M B := fun h =>
  match m h with
  | (h1, OOk a) => f (inl a) h1
  | (h1, OErr e) => f (inr e) h1
  | (h1, OPanic) => match p h1 with (h2, OFuel) => (h2, OFuel) | (h2, _) => (h2, OPanic) end
  | (h1, OFuel) => (h1, OFuel)
  end.
