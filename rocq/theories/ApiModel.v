(** The functions that contracts import: arwen/elrondapi/elrondei.go,
    bigIntOps.go, smallIntOps.go and arwen/cryptoapi/cryptoei.go.

    Definitions only.  The body of an API function is a [cmd]: a sequence of
    the host operations of [prim], each followed by what the function does with
    the result, ending in the integer given back to the contract (0 for a
    function without result).  [interp] (below) says what the host operations
    do.  [runtime.ElrondAPIErrorShouldFailExecution()], [BigIntAPI...],
    [CryptoAPI...] and [ElrondSyncExecAPI...] are constantly true
    (runtime.go:636-661), so [arwen.WithFault(err, ...)] with an error always
    fails the execution. *)
From Verif Require Export HostModel ApiArgsModel.

(** * Host operations *)
Inductive prim : Type -> Type :=
| QGet {B} (f : host -> B) : prim B                         (* looks, changes nothing *)
| QUseGas (g : Z) : prim unit                               (* metering.UseGas *)
| QMemStore (offset : Z) (data : bytes) : prim unit         (* runtime.MemStore *)
| QFault (e : err) : prim unit                              (* arwen.WithFault(err, ..., true) *)
| QSignal (message : bytes) : prim unit                     (* runtime.SignalUserError *)
| QBreak (v : Z) : prim unit                                (* runtime.SetRuntimeBreakpointValue *)
| QBigPut (v : Z) : prim Z                                  (* bigInt.Put *)
| QBigGet (handle : Z) : prim Z                             (* bigInt.GetOne *)
| QBigSet (handle v : Z) : prim unit                        (* value of bigInt.GetOne assigned *)
| QSetStorage (key value : bytes) : prim storage_status     (* storage.SetStorage *)
| QSetTimeLock (key value : bytes) : prim storage_status    (* storage.SetProtectedStorage of the timelock key *)
| QGetStorage (key : bytes) : prim bytes
| QGetStorageUnmetered (key : bytes) : prim bytes
| QGetStorageFrom (address key : bytes) : prim bytes        (* storage.GetStorageFromAddress *)
| QFinish (d : bytes) : prim unit                           (* output.Finish *)
| QWriteLog (topics : list bytes) (data : bytes) : prim unit (* output.WriteLog(runtime.GetSCAddress(), ...) *)
| QTransfer (dest : bytes) (gasLimit value : Z) (data : bytes) : prim unit
                                                            (* output.Transfer from the running contract *)
| QBalance (address : bytes) : prim Z                       (* blockchain.GetBalanceBigInt *)
| QGetCode (address : bytes) : prim bytes                   (* blockchain.GetCode *)
| QAddAsync (id : bytes) (c : gen_call) : prim unit         (* runtime.AddAsyncContextCall *)
| QAsyncCallback (id callback : bytes) : prim unit          (* runtime.GetAsyncContext, Callback assigned *)
| QAsyncCall (dest data value : bytes) : prim unit          (* runtime.ExecuteAsyncCall *)
| QExecDest (byCaller : bool) (value gasLimit : Z) (dest function : bytes) (args : list bytes) : prim unit
| QExecSame (value gasLimit : Z) (dest function : bytes) (args : list bytes) : prim unit
| QExecReadOnly (gasLimit : Z) (dest function : bytes) (args : list bytes) : prim unit
| QESDTExecute (dest token : bytes) (nonce value gasLimit : Z) (function : bytes) (args : list bytes) : prim Z
| QCreate (value gasLimit : Z) (code meta : bytes) (args : list bytes) : prim bytes.

Inductive cmd : Type :=
| CRet (r : Z)
| CPanic
| CDo {B : Type} (p : prim B) (k : B + err -> cmd).

(** an operation that cannot return an error *)
Definition act {B} (p : prim B) (k : B -> cmd) : cmd :=
  CDo p (fun x => match x with inl b => k b | inr _ => CPanic end).
Definition get {B} (f : host -> B) (k : B -> cmd) : cmd := act (QGet f) k.

(** [if arwen.WithFault(err, context, ...) { return r }] *)
Definition fault (e : err) (r : Z) : cmd := act (QFault e) (fun _ => CRet r).
Definition or_fault {B} (p : prim B) (r : Z) (k : B -> cmd) : cmd :=
  CDo p (fun x => match x with inl b => k b | inr e => fault e r end).
Definition res_or_fault {B} (x : res B) (r : Z) (k : B -> cmd) : cmd :=
  match x with ROk b => k b | RErr e => fault e r | RPanic => CPanic end.

Definition load (offset len r : Z) (k : bytes -> cmd) : cmd :=
  get (fun h => mem_load h offset len) (fun x => res_or_fault x r k).
Definition store (offset : Z) (data : bytes) (r : Z) (k : cmd) : cmd :=
  or_fault (QMemStore offset data) r (fun _ => k).
Definition use (g : Z) (k : cmd) : cmd := act (QUseGas g) (fun _ => k).
Definition charge `{E : env} (c : cost) (k : cmd) : cmd := use (e_cost E c) k.
(** [math.MulUint64(price, uint64(length))] for an int32 length *)
Definition per_byte `{E : env} (c : cost) (len : Z) : Z := MulUint64 (e_cost E c) (u64 len).
Definition charge_bytes `{E : env} (c : cost) (len : Z) (k : cmd) : cmd := use (per_byte c len) k.

(** the memory of the running instance *)
Definition cur_mem (h : host) : res memory :=
  match h_cur h with
  | Some i => match h_insts h !! i with Some x => ROk (in_mem x) | None => RPanic end
  | None => RPanic
  end.

Definition zlen {A} (l : list A) : Z := i32 (Z.of_nat (length l)).

(** elrondei.go:2972-3001 getArgumentsFromMemory *)
Definition get_args (num lenOffset dataOffset : Z) (k : res (list bytes * Z) -> cmd) : cmd :=
  get (fun h => m ← cur_mem h; getArgumentsFromMemory m num lenOffset dataOffset) k.

(** elrondei.go:838-932 extractIndirectContractCallArguments(WithValue) with
    the charge of lines 922-923 *)
Definition extract `{E : env} (hasValue : bool) (dest value fn fnLen num lenOffset dataOffset r : Z)
    (k : call_args -> cmd) : cmd :=
  get (fun h => m ← cur_mem h;
         extractIndirectContractCallArguments m dest value hasValue fn fnLen num lenOffset dataOffset)
      (fun x => res_or_fault x r (fun a => charge_bytes DataCopyPerByte (ca_actualLen a) $ k a)).

(** elrondei.go:603-607 isBuiltInCall: a parse error leaves the name empty *)
Definition isBuiltInCall `{E : env} (data : bytes) : bool :=
  e_isBuiltin E (match ParseData data with ROk (f, _) => f | _ => [] end).

Definition sc_address (h : host) : bytes := r_addr (h_rt h).
Definition vm_in (h : host) : vm_input := r_input (h_rt h).

(** elrondei.go:104-112 getFirstESDTTransferIfExist *)
Definition first_esdt (h : host) : esdt_transfer :=
  match vi_esdt (vm_in h) with t :: _ => t | [] => mkEsdt 0 [] 0 0 end.

(** * elrondei.go *)

(** 468-476 *)
Definition getGasLeft `{E : env} : cmd :=
  charge CGetGasLeft $ get gas_left $ fun g => CRet (i64 g).

(** 478-491 *)
Definition getSCAddress `{E : env} (resultOffset : Z) : cmd :=
  charge CGetSCAddress $ get sc_address $ fun a => store resultOffset a 0 $ CRet 0.

(** 493-511 *)
Definition getOwnerAddress `{E : env} (resultOffset : Z) : cmd :=
  charge CGetOwnerAddress $ get GetOwnerAddress $ fun o => res_or_fault o 0 $ fun a =>
  store resultOffset a 0 $ CRet 0.

(** 513-528 *)
Definition getShardOfAddress `{E : env} (addressOffset : Z) : cmd :=
  charge CGetShardOfAddress $ load addressOffset AddressLen 0 $ fun a => CRet (i32 (e_shard E a)).

(** 530-547 *)
Definition isSmartContract `{E : env} (addressOffset : Z) : cmd :=
  charge CIsSmartContract $ load addressOffset AddressLen 0 $ fun a =>
  CRet (if e_isSC E a then 1 else 0).

(** 549-562 *)
Definition signalError `{E : env} (messageOffset messageLength : Z) : cmd :=
  charge CSignalError $ load messageOffset messageLength 0 $ fun m =>
  act (QSignal m) $ fun _ => CRet 0.

(** 564-584; GetBalance (blockchain.go:57-60) is the balance's absolute value in bytes *)
Definition getExternalBalance `{E : env} (addressOffset resultOffset : Z) : cmd :=
  charge CGetExternalBalance $ load addressOffset AddressLen 0 $ fun a =>
  act (QBalance a) $ fun b => store resultOffset (be_encode b) 0 $ CRet 0.

(** 586-601; BlockHash (blockchain.go:182-194) gives nil for a negative nonce or on an error *)
Definition getBlockHash `{E : env} (nonce resultOffset : Z) : cmd :=
  charge CGetBlockHash $
  store resultOffset (if nonce <? 0 then [] else match e_blockhash E nonce with ROk x => x | _ => [] end) 1 $ CRet 0.

(** 609-640 getESDTDataFromBlockchainHook, with the caller's WithFault *)
Definition esdt_data `{E : env} (addressOffset tokenIDOffset tokenIDLen nonce : Z) (k : esdt_token -> cmd) : cmd :=
  charge CGetExternalBalance $
  load addressOffset AddressLen 0 $ fun a =>
  load tokenIDOffset tokenIDLen 0 $ fun t =>
  get (fun h => e_esdtToken E (h_world h) a t (u64 nonce)) $ fun x => res_or_fault x 0 k.

(** 642-662 *)
Definition getESDTBalance `{E : env} (addressOffset tokenIDOffset tokenIDLen nonce resultOffset : Z) : cmd :=
  esdt_data addressOffset tokenIDOffset tokenIDLen nonce $ fun t =>
  store resultOffset (be_encode (ek_value t)) 0 $ CRet (zlen (be_encode (ek_value t))).

(** 664-682 *)
Definition getESDTNFTNameLength `{E : env} (addressOffset tokenIDOffset tokenIDLen nonce : Z) : cmd :=
  esdt_data addressOffset tokenIDOffset tokenIDLen nonce $ fun t =>
  CRet (match ek_meta t with None => 0 | Some m => zlen (em_name m) end).

(** 684-702 *)
Definition getESDTNFTAttributeLength `{E : env} (addressOffset tokenIDOffset tokenIDLen nonce : Z) : cmd :=
  esdt_data addressOffset tokenIDOffset tokenIDLen nonce $ fun t =>
  CRet (match ek_meta t with None => 0 | Some m => zlen (em_attributes m) end).

(** 704-725 *)
Definition getESDTNFTURILength `{E : env} (addressOffset tokenIDOffset tokenIDLen nonce : Z) : cmd :=
  esdt_data addressOffset tokenIDOffset tokenIDLen nonce $ fun t =>
  CRet (match ek_meta t with
        | None => 0
        | Some m => match em_uris m with u :: _ => zlen u | [] => 0 end end).

(** 727-787 *)
Definition getESDTTokenData `{E : env} (addressOffset tokenIDOffset tokenIDLen nonce valueHandle
    propertiesOffset hashOffset nameOffset attributesOffset creatorOffset royaltiesHandle urisOffset : Z) : cmd :=
  esdt_data addressOffset tokenIDOffset tokenIDLen nonce $ fun t =>
  act (QBigSet valueHandle (ek_value t)) $ fun _ =>
  store propertiesOffset (ek_properties t) 0 $
  let result := CRet (zlen (be_encode (ek_value t))) in
  match ek_meta t with
  | None => result
  | Some m =>
      store hashOffset (em_hash m) 0 $
      store nameOffset (em_name m) 0 $
      store attributesOffset (em_attributes m) 0 $
      store creatorOffset (em_creator m) 0 $
      act (QBigSet royaltiesHandle (em_royalties m)) $ fun _ =>
      match em_uris m with
      | u :: _ => store urisOffset u 0 result
      | [] => result
      end
  end.

(** 789-826 *)
Definition transferValue `{E : env} (destOffset valueOffset dataOffset length : Z) : cmd :=
  charge CTransferValue $
  load destOffset AddressLen 1 $ fun dest =>
  load valueOffset BalanceLen 1 $ fun value =>
  charge_bytes PersistPerByte length $
  load dataOffset length 1 $ fun data =>
  if isBuiltInCall data then CRet 1 else
  or_fault (QTransfer dest 0 (be_decode value) data) 1 $ fun _ => CRet 0.

(** the value read by extractIndirectContractCallArgumentsWithValue *)
Definition ca_val (a : call_args) : Z := default 0 (ca_value a).

(** 936-1058; MemLoad never gives nil, so [function != nil] holds *)
Definition transferValueExecute `{E : env} (destOffset valueOffset gasLimit functionOffset functionLength
    numArguments argumentsLengthOffset dataOffset : Z) : cmd :=
  charge CTransferValue $
  extract true destOffset valueOffset functionOffset functionLength numArguments argumentsLengthOffset dataOffset 1 $ fun a =>
  charge CTransferValue $
  if e_isBuiltin E (ca_function a) then CRet 1 else
  get sc_address $ fun sender =>
  if AreInSameShard sender (ca_dest a) && e_isSC E (ca_dest a) then
    CDo (QExecDest false (ca_val a) gasLimit (ca_dest a) (ca_function a) (ca_args a)) $ fun x =>
    CRet (match x with inl _ => 0 | inr _ => 1 end)
  else
    or_fault (QTransfer (ca_dest a) (u64 gasLimit) (ca_val a) (makeCallData (ca_function a) (ca_args a))) 1 $ fun _ =>
    CRet 0.

(** 1073-1091 *)
Definition transferESDT `{E : env} (length : Z) : cmd :=
  charge CTransferValue $ charge_bytes PersistPerByte length $ CRet 1.

(** 1116-1264 *)
Definition transferESDTNFTExecute `{E : env} (destOffset tokenIDOffset tokenIDLen valueOffset nonce gasLimit
    functionOffset functionLength numArguments argumentsLengthOffset dataOffset : Z) : cmd :=
  load tokenIDOffset tokenIDLen 1 $ fun token =>
  extract true destOffset valueOffset functionOffset functionLength numArguments argumentsLengthOffset dataOffset 1 $ fun a =>
  charge_bytes DataCopyPerByte (ca_actualLen a) $
  charge CTransferValue $
  act (QESDTExecute (ca_dest a) token nonce (ca_val a) gasLimit (ca_function a) (ca_args a)) $ fun r => CRet r.

(** 1094-1113 *)
Definition transferESDTExecute `{E : env} (destOffset tokenIDOffset tokenIDLen valueOffset gasLimit
    functionOffset functionLength numArguments argumentsLengthOffset dataOffset : Z) : cmd :=
  transferESDTNFTExecute destOffset tokenIDOffset tokenIDLen valueOffset 0 gasLimit
    functionOffset functionLength numArguments argumentsLengthOffset dataOffset.

(** 1267-1326 *)
Definition createAsyncCall (idOffset idLength destOffset valueOffset dataOffset length
    successOffset successLength errorOffset errorLength gas : Z) : cmd :=
  load idOffset idLength 0 $ fun id =>
  load destOffset AddressLen 0 $ fun dest =>
  load valueOffset BalanceLen 0 $ fun value =>
  load dataOffset length 0 $ fun data =>
  load successOffset successLength 0 $ fun success =>
  load errorOffset errorLength 0 $ fun error =>
  act (QAddAsync id (mkGenCall AsPending dest data 0 value success error (u64 gas))) $ fun _ => CRet 0.

(** 1329-1358; the callback name is read after GetAsyncContext *)
Definition setAsyncContextCallback (idOffset idLength callback callbackLength : Z) : cmd :=
  load idOffset idLength (-1) $ fun id =>
  get (fun h => ai_map (r_actx (h_rt h)) !! id) $ fun c =>
  match c with
  | None => fault ErrAsyncContextDoesNotExist (-1)
  | Some _ => load callback callbackLength (-1) $ fun name =>
              or_fault (QAsyncCallback id name) (-1) $ fun _ => CRet 0
  end.

(** 1506-1540 upgradeContract *)
Definition upgrade_helper `{E : env} (dest code meta value : bytes) (args : list bytes) (gasLimit : Z) : cmd :=
  if u64 gasLimit <? AddUint64 (MulUint64 2 (e_cost E CAsyncCallStep)) (e_cost E CAsyncCallbackGasLock)
  then act (QBreak BreakpointOutOfGas) $ fun _ => CRet 0
  else CDo (QAsyncCall dest (makeCallData UpgradeFunctionName (code :: meta :: args)) value) $ fun _ => CRet 0.

(** 1361-1419 *)
Definition upgradeContract `{E : env} (destOffset gasLimit valueOffset codeOffset codeMetadataOffset length
    numArguments argumentsLengthOffset dataOffset : Z) : cmd :=
  charge CCreateContract $
  load valueOffset BalanceLen 0 $ fun value =>
  load codeOffset length 0 $ fun code =>
  load codeMetadataOffset CodeMetadataLen 0 $ fun meta =>
  get_args numArguments argumentsLengthOffset dataOffset $ fun args =>
  charge_bytes DataCopyPerByte (match args with ROk (_, n) => n | _ => 0 end) $
  res_or_fault args 0 $ fun p =>
  load destOffset AddressLen 0 $ fun dest =>
  charge_bytes DataCopyPerByte length $
  upgrade_helper dest code meta value (fst p) gasLimit.

(** 1422-1504 *)
Definition upgradeFromSourceContract `{E : env} (destOffset gasLimit valueOffset sourceOffset codeMetadataOffset
    numArguments argumentsLengthOffset dataOffset : Z) : cmd :=
  charge CCreateContract $
  load valueOffset BalanceLen 0 $ fun value =>
  load sourceOffset AddressLen 0 $ fun source =>
  load codeMetadataOffset CodeMetadataLen 0 $ fun meta =>
  get_args numArguments argumentsLengthOffset dataOffset $ fun args =>
  charge_bytes DataCopyPerByte (match args with ROk (_, n) => n | _ => 0 end) $
  res_or_fault args 0 $ fun p =>
  load destOffset AddressLen 0 $ fun dest =>
  or_fault (QGetCode source) 0 $ fun code =>
  upgrade_helper dest code meta value (fst p) gasLimit.

(** 1543-1579 *)
Definition asyncCall `{E : env} (destOffset valueOffset dataOffset length : Z) : cmd :=
  charge CAsyncCallStep $
  load destOffset AddressLen 0 $ fun dest =>
  load valueOffset BalanceLen 0 $ fun value =>
  charge_bytes DataCopyPerByte length $
  load dataOffset length 0 $ fun data =>
  CDo (QAsyncCall dest data value) $ fun x =>
  match x with
  | inl _ => CRet 0
  | inr e => if err_is e ErrNotEnoughGas
             then act (QBreak BreakpointOutOfGas) (fun _ => CRet 0) else fault e 0
  end.

(** 1581-1595 *)
Definition getArgumentLength `{E : env} (id : Z) : cmd :=
  charge CGetArgument $ get (fun h => vi_args (vm_in h)) $ fun args =>
  CRet (if id <? 0 then -1 else match args !! Z.to_nat id with Some a => zlen a | None => -1 end).

(** 1597-1616 *)
Definition getArgument `{E : env} (id argOffset : Z) : cmd :=
  charge CGetArgument $ get (fun h => vi_args (vm_in h)) $ fun args =>
  if id <? 0 then CRet (-1) else
  match args !! Z.to_nat id with
  | None => CRet (-1)
  | Some a => store argOffset a (-1) $ CRet (zlen a)
  end.

(** 1618-1633 *)
Definition getFunction `{E : env} (functionOffset : Z) : cmd :=
  charge CGetFunction $ get (fun h => r_fn (h_rt h)) $ fun f =>
  store functionOffset f (-1) $ CRet (zlen f).

(** 1635-1645 *)
Definition getNumArguments `{E : env} : cmd :=
  charge CGetNumArguments $ get (fun h => vi_args (vm_in h)) $ fun args => CRet (zlen args).

(** arwen/interface.go:233-247 StorageStatus *)
Definition status_num (s : storage_status) : Z :=
  match s with StorageUnchanged => 0 | StorageModified => 1 | StorageAdded => 2 | StorageDeleted => 3 end.

(** 1647-1672 *)
Definition storageStore `{E : env} (keyOffset keyLength dataOffset dataLength : Z) : cmd :=
  charge CStorageStore $
  load keyOffset keyLength (-1) $ fun key =>
  load dataOffset dataLength (-1) $ fun data =>
  or_fault (QSetStorage key data) (-1) $ fun s => CRet (status_num s).

(** 1674-1691 *)
Definition storageLoadLength `{E : env} (keyOffset keyLength : Z) : cmd :=
  charge CStorageLoad $
  load keyOffset keyLength (-1) $ fun key =>
  act (QGetStorageUnmetered key) $ fun data => CRet (zlen data).

(** 1693-1720 *)
Definition storageLoadFromAddress `{E : env} (addressOffset keyOffset keyLength dataOffset : Z) : cmd :=
  charge CStorageLoad $
  load keyOffset keyLength (-1) $ fun key =>
  load addressOffset AddressLen (-1) $ fun address =>
  act (QGetStorageFrom address key) $ fun data =>
  store dataOffset data (-1) $ CRet (zlen data).

(** 1722-1744 *)
Definition storageLoad `{E : env} (keyOffset keyLength dataOffset : Z) : cmd :=
  charge CStorageLoad $
  load keyOffset keyLength (-1) $ fun key =>
  act (QGetStorage key) $ fun data =>
  store dataOffset data (-1) $ CRet (zlen data).

(** 1746-1767 *)
Definition setStorageLock `{E : env} (keyOffset keyLength lockTimestamp : Z) : cmd :=
  charge CInt64StorageStore $
  load keyOffset keyLength (-1) $ fun key =>
  or_fault (QSetTimeLock key (timelockBytes lockTimestamp)) (-1) $ fun s => CRet (status_num s).

(** 1769-1788, in continuation form (isStorageLocked goes on with the result) *)
Definition getStorageLock_k `{E : env} (keyOffset keyLength : Z) (k : Z -> cmd) : cmd :=
  charge CStorageLoad $
  get (fun h => mem_load h keyOffset keyLength) $ fun x =>
  match x with
  | RErr e => act (QFault e) $ fun _ => k (-1)
  | RPanic => CPanic
  | ROk key => act (QGetStorage (CustomStorageKey TimeLockKeyPrefix key)) $ fun data => k (timelockFromBytes data)
  end.
Definition getStorageLock `{E : env} (keyOffset keyLength : Z) : cmd :=
  getStorageLock_k keyOffset keyLength CRet.

(** 2062-2071 *)
Definition getBlockTimestamp_k `{E : env} (k : Z -> cmd) : cmd :=
  charge CGetBlockTimeStamp $ k (i64 (e_blockinfo E true "timestamp")).

(** 1790-1803 *)
Definition isStorageLocked `{E : env} (keyOffset keyLength : Z) : cmd :=
  getStorageLock_k keyOffset keyLength $ fun lock =>
  if lock <? 0 then CRet (-1) else
  getBlockTimestamp_k $ fun now => CRet (if lock <=? now then 0 else 1).

(** 1805-1808 *)
Definition clearStorageLock `{E : env} (keyOffset keyLength : Z) : cmd := setStorageLock keyOffset keyLength 0.

(** 1810-1824 *)
Definition getCaller `{E : env} (resultOffset : Z) : cmd :=
  charge CGetCaller $ get (fun h => vi_caller (vm_in h)) $ fun a => store resultOffset a 0 $ CRet 0.

(** 1826-1845 *)
Definition checkNoPayment `{E : env} : cmd :=
  charge CGetCallValue $ get vm_in $ fun i =>
  if 0 <? vi_value i then fault ErrNonPayableFunctionEgld 0 else
  if negb (match vi_esdt i with [] => true | _ => false end) then fault ErrNonPayableFunctionEsdt 0 else CRet 0.

(** arwen/helper.go PadBytesLeft on a non-nil slice *)
Definition pad32 (b : bytes) : bytes := default [] (PadBytesLeft (Some b) BalanceLen).

(** 1847-1864 *)
Definition getCallValue `{E : env} (resultOffset : Z) : cmd :=
  charge CGetCallValue $ get (fun h => vi_value (vm_in h)) $ fun v =>
  store resultOffset (pad32 (be_encode v)) (-1) $ CRet (zlen (pad32 (be_encode v))).

(** 1866-1888 *)
Definition getESDTValue `{E : env} (resultOffset : Z) : cmd :=
  charge CGetCallValue $ get (fun h => et_value (first_esdt h)) $ fun v =>
  let b := if 0 <? v then pad32 (be_encode v) else [] in
  store resultOffset b (-1) $ CRet (zlen b).

(** 1890-1907 *)
Definition getESDTTokenName `{E : env} (resultOffset : Z) : cmd :=
  charge CGetCallValue $ get (fun h => et_name (first_esdt h)) $ fun n =>
  store resultOffset n (-1) $ CRet (zlen n).

(** 1909-1918 *)
Definition getESDTTokenNonce `{E : env} : cmd :=
  charge CGetCallValue $ get (fun h => et_nonce (first_esdt h)) $ fun n => CRet (i64 n).

(** 1921-1944: read errors give 0 without a fault *)
Definition getCurrentESDTNFTNonce `{E : env} (addressOffset tokenIDOffset tokenIDLen : Z) : cmd :=
  charge CStorageLoad $
  get (fun h => mem_load h addressOffset AddressLen) $ fun a =>
  match a with RErr _ => CRet 0 | RPanic => CPanic | ROk a =>
  get (fun h => mem_load h tokenIDOffset tokenIDLen) $ fun t =>
  match t with RErr _ => CRet 0 | RPanic => CPanic | ROk t =>
  act (QGetStorageFrom a (e_nftNonceKey E ++ t)) $ fun data => CRet (i64 (u64 (be_decode data))) end end.

(** 1947-1956 *)
Definition getESDTTokenType `{E : env} : cmd :=
  charge CGetCallValue $ get (fun h => et_type (first_esdt h)) $ fun t => CRet (i32 t).

(** 1959-1988: the token name is copied into a slice of length 0 *)
Definition getCallValueTokenName `{E : env} (callValueOffset tokenNameOffset : Z) : cmd :=
  charge CGetCallValue $ get (fun h => (vi_value (vm_in h), first_esdt h)) $ fun p =>
  let value := if negb (match et_name (snd p) with [] => true | _ => false end)
               then et_value (snd p) else fst p in
  let tokenName := @nil byte in
  store tokenNameOffset tokenName (-1) $
  store callValueOffset (pad32 (be_encode value)) (-1) $ CRet (zlen tokenName).

(** the loop of 2012-2017: [n] topics still to read, starting with topic [i] *)
Fixpoint load_topics (topicPtr : Z) (n : nat) (i : Z) (acc : list bytes) (k : list bytes -> cmd) : cmd :=
  match n with
  | O => k acc
  | S n => load (i32 (topicPtr + i32 (i * HashLen))) HashLen 0 $ fun t =>
           load_topics topicPtr n (i + 1) (acc ++ [t]) k
  end.

(** 1991-2020 *)
Definition writeLog `{E : env} (dataPointer dataLength topicPtr numTopics : Z) : cmd :=
  use (AddUint64 (e_cost E CLog) (per_byte PersistPerByte (i32 (i32 (numTopics * HashLen) + dataLength)))) $
  load dataPointer dataLength 0 $ fun log =>
  if numTopics <? 0 then fault ErrGeneric 0 else
  load_topics topicPtr (Z.to_nat numTopics) 0 [] $ fun topics =>
  act (QWriteLog topics log) $ fun _ => CRet 0.

(** 2023-2059 *)
Definition writeEventLog `{E : env} (numTopics topicLengthsOffset topicOffset dataOffset dataLength : Z) : cmd :=
  get_args numTopics topicLengthsOffset topicOffset $ fun t =>
  res_or_fault t 0 $ fun p =>
  load dataOffset dataLength 0 $ fun data =>
  use (AddUint64 (e_cost E CLog) (per_byte DataCopyPerByte (i32 (snd p + dataLength)))) $
  act (QWriteLog (fst p) data) $ fun _ => CRet 0.

(** 2062-2189 *)
Definition getBlockTimestamp `{E : env} : cmd := getBlockTimestamp_k CRet.
Definition block_number `{E : env} (c : cost) (current : bool) (what : string) : cmd :=
  charge c $ CRet (i64 (e_blockinfo E current what)).
Definition getBlockNonce `{E : env} : cmd := block_number CGetBlockNonce true "nonce".
Definition getBlockRound `{E : env} : cmd := block_number CGetBlockRound true "round".
Definition getBlockEpoch `{E : env} : cmd := block_number CGetBlockEpoch true "epoch".
Definition getPrevBlockTimestamp `{E : env} : cmd := block_number CGetBlockTimeStamp false "timestamp".
Definition getPrevBlockNonce `{E : env} : cmd := block_number CGetBlockNonce false "nonce".
Definition getPrevBlockRound `{E : env} : cmd := block_number CGetBlockRound false "round".
Definition getPrevBlockEpoch `{E : env} : cmd := block_number CGetBlockEpoch false "epoch".
Definition getBlockRandomSeed `{E : env} (pointer : Z) : cmd :=
  charge CGetBlockRandomSeed $ store pointer (e_blockseed E true) 0 $ CRet 0.
Definition getPrevBlockRandomSeed `{E : env} (pointer : Z) : cmd :=
  charge CGetBlockRandomSeed $ store pointer (e_blockseed E false) 0 $ CRet 0.
Definition getStateRootHash `{E : env} (pointer : Z) : cmd :=
  charge CGetStateRootHash $ store pointer (e_stateroot E) 0 $ CRet 0.

(** 2192-2208 returnData, imported as "finish" *)
Definition api_finish `{E : env} (pointer length : Z) : cmd :=
  use (AddUint64 (e_cost E CFinish) (per_byte PersistPerByte length)) $
  load pointer length 0 $ fun d => act (QFinish d) $ fun _ => CRet 0.

(** 2939-2954: synchronous calls stay in the caller's shard *)
Definition if_same_shard `{E : env} (dest : bytes) (r : Z) (k : cmd) : cmd :=
  get sc_address $ fun a => if AreInSameShard a dest then k else fault ErrSyncExecutionNotInSameShard r.

(** 2211-2307 *)
Definition executeOnSameContext `{E : env} (gasLimit addressOffset valueOffset functionOffset functionLength
    numArguments argumentsLengthOffset dataOffset : Z) : cmd :=
  extract true addressOffset valueOffset functionOffset functionLength numArguments argumentsLengthOffset dataOffset 1 $ fun a =>
  charge CExecuteOnSameContext $
  if_same_shard (ca_dest a) 1 $
  if isBuiltInCall (ca_function a) then CRet 1 else
  or_fault (QExecSame (ca_val a) gasLimit (ca_dest a) (ca_function a) (ca_args a)) 1 $ fun _ => CRet 0.

(** 2310-2402 *)
Definition executeOnDestContext `{E : env} (gasLimit addressOffset valueOffset functionOffset functionLength
    numArguments argumentsLengthOffset dataOffset : Z) : cmd :=
  extract true addressOffset valueOffset functionOffset functionLength numArguments argumentsLengthOffset dataOffset 1 $ fun a =>
  charge CExecuteOnDestContext $
  if_same_shard (ca_dest a) 1 $
  or_fault (QExecDest false (ca_val a) gasLimit (ca_dest a) (ca_function a) (ca_args a)) 1 $ fun _ => CRet 0.

(** 2405-2501 *)
Definition executeOnDestContextByCaller `{E : env} (gasLimit addressOffset valueOffset functionOffset functionLength
    numArguments argumentsLengthOffset dataOffset : Z) : cmd :=
  extract true addressOffset valueOffset functionOffset functionLength numArguments argumentsLengthOffset dataOffset 1 $ fun a =>
  charge CExecuteOnDestContext $
  if_same_shard (ca_dest a) 1 $
  if isBuiltInCall (ca_function a) then CRet 1 else
  or_fault (QExecDest true (ca_val a) gasLimit (ca_dest a) (ca_function a) (ca_args a)) 1 $ fun _ => CRet 0.

(** 2504-2596: the value is the running contract's own call value *)
Definition delegateExecution `{E : env} (gasLimit addressOffset functionOffset functionLength
    numArguments argumentsLengthOffset dataOffset : Z) : cmd :=
  extract false addressOffset 0 functionOffset functionLength numArguments argumentsLengthOffset dataOffset 1 $ fun a =>
  charge CDelegateExecution $
  get (fun h => vi_value (vm_in h)) $ fun value =>
  if_same_shard (ca_dest a) 1 $
  if isBuiltInCall (ca_function a) then CRet 1 else
  or_fault (QExecSame value gasLimit (ca_dest a) (ca_function a) (ca_args a)) 1 $ fun _ => CRet 0.

(** 2599-2693 *)
Definition executeReadOnly `{E : env} (gasLimit addressOffset functionOffset functionLength
    numArguments argumentsLengthOffset dataOffset : Z) : cmd :=
  extract false addressOffset 0 functionOffset functionLength numArguments argumentsLengthOffset dataOffset 1 $ fun a =>
  charge CExecuteReadOnly $
  if_same_shard (ca_dest a) 1 $
  if isBuiltInCall (ca_function a) then CRet 1 else
  or_fault (QExecReadOnly gasLimit (ca_dest a) (ca_function a) (ca_args a)) 1 $ fun _ => CRet 0.

(** 2696-2758, 2845-2876 *)
Definition createContract `{E : env} (gasLimit valueOffset codeOffset codeMetadataOffset length resultOffset
    numArguments argumentsLengthOffset dataOffset : Z) : cmd :=
  charge CCreateContract $
  load valueOffset BalanceLen 1 $ fun value =>
  load codeOffset length 1 $ fun code =>
  load codeMetadataOffset CodeMetadataLen 1 $ fun meta =>
  get_args numArguments argumentsLengthOffset dataOffset $ fun args =>
  charge_bytes DataCopyPerByte (match args with ROk (_, n) => n | _ => 0 end) $
  res_or_fault args 1 $ fun p =>
  CDo (QCreate (be_decode value) gasLimit code meta (fst p)) $ fun x =>
  match x with
  | inr _ => CRet 1
  | inl a => store resultOffset a 1 $ CRet 0
  end.

(** 2761-2843 *)
Definition deployFromSourceContract `{E : env} (gasLimit valueOffset sourceOffset codeMetadataOffset resultOffset
    numArguments argumentsLengthOffset dataOffset : Z) : cmd :=
  charge CCreateContract $
  load valueOffset BalanceLen 1 $ fun value =>
  load sourceOffset AddressLen 1 $ fun source =>
  load codeMetadataOffset CodeMetadataLen 1 $ fun meta =>
  get_args numArguments argumentsLengthOffset dataOffset $ fun args =>
  charge_bytes DataCopyPerByte (match args with ROk (_, n) => n | _ => 0 end) $
  res_or_fault args 1 $ fun p =>
  or_fault (QGetCode source) 1 $ fun code =>
  CDo (QCreate (be_decode value) gasLimit code meta (fst p)) $ fun x =>
  match x with
  | inr _ => CRet 1
  | inl a => store resultOffset a 1 $ CRet 0
  end.

(** 2878-2887 *)
Definition getNumReturnData `{E : env} : cmd :=
  charge CGetNumReturnData $ get (fun h => o_retdata (h_out h)) $ fun d => CRet (zlen d).

(** 2890-2903; a negative index makes Go's slice index panic *)
Definition getReturnDataSize `{E : env} (resultID : Z) : cmd :=
  charge CGetReturnDataSize $ get (fun h => o_retdata (h_out h)) $ fun d =>
  if zlen d <=? resultID then CRet 0 else
  match gindex d resultID with ROk x => CRet (zlen x) | _ => CPanic end.

(** 2906-2925 *)
Definition getReturnData `{E : env} (resultID dataOffset : Z) : cmd :=
  charge CGetReturnData $ get (fun h => o_retdata (h_out h)) $ fun d =>
  if zlen d <=? resultID then CRet 0 else
  match gindex d resultID with ROk x => store dataOffset x 0 $ CRet (zlen x) | _ => CPanic end.

(** 2928-2937 *)
Definition getOriginalTxHash `{E : env} (dataOffset : Z) : cmd :=
  charge CGetBlockHash $ get (fun h => vi_origtx (vm_in h)) $ fun d => store dataOffset d 0 $ CRet 0.

(** * smallIntOps.go *)

(** 105-149 *)
Definition api_smallIntGetUnsignedArgument `{E : env} (id : Z) : cmd :=
  charge CInt64GetArgument $ get (fun h => vi_args (vm_in h)) $ fun args =>
  res_or_fault (smallIntGetUnsignedArgument args id) 0 CRet.
Definition api_smallIntGetSignedArgument `{E : env} (id : Z) : cmd :=
  charge CInt64GetArgument $ get (fun h => vi_args (vm_in h)) $ fun args =>
  res_or_fault (smallIntGetSignedArgument args id) 0 CRet.
(** 151-173 *)
Definition smallIntFinishUnsigned `{E : env} (value : Z) : cmd :=
  charge CInt64Finish $ act (QFinish (smallIntUnsignedBytes value)) $ fun _ => CRet 0.
Definition smallIntFinishSigned `{E : env} (value : Z) : cmd :=
  charge CInt64Finish $ act (QFinish (smallIntSignedBytes value)) $ fun _ => CRet 0.
(** 175-220 *)
Definition smallInt_store `{E : env} (keyOffset keyLength : Z) (b : bytes) : cmd :=
  charge CInt64StorageStore $
  load keyOffset keyLength (-1) $ fun key =>
  or_fault (QSetStorage key b) (-1) $ fun s => CRet (status_num s).
Definition smallIntStorageStoreUnsigned `{E : env} (keyOffset keyLength value : Z) : cmd :=
  smallInt_store keyOffset keyLength (smallIntUnsignedBytes value).
Definition smallIntStorageStoreSigned `{E : env} (keyOffset keyLength value : Z) : cmd :=
  smallInt_store keyOffset keyLength (smallIntSignedBytes value).
(** 222-267 *)
Definition smallIntStorageLoadUnsigned `{E : env} (keyOffset keyLength : Z) : cmd :=
  charge CInt64StorageLoad $
  load keyOffset keyLength 0 $ fun key =>
  act (QGetStorage key) $ fun data => res_or_fault (smallIntLoadUnsigned data) 0 CRet.
Definition smallIntStorageLoadSigned `{E : env} (keyOffset keyLength : Z) : cmd :=
  charge CInt64StorageLoad $
  load keyOffset keyLength 0 $ fun key =>
  act (QGetStorage key) $ fun data => res_or_fault (smallIntLoadSigned data) 0 CRet.

(** * bigIntOps.go *)

(** 266-303: only [int32(len(args)) <= id] is checked; a negative index panics *)
Definition bigInt_argument `{E : env} (c : cost) (f : bytes -> Z) (id destination : Z) : cmd :=
  charge c $ get (fun h => vi_args (vm_in h)) $ fun args =>
  if zlen args <=? id then CRet 0 else
  act (QBigGet destination) $ fun _ =>
  match gindex args id with
  | ROk a => act (QBigSet destination (f a)) $ fun _ => CRet 0
  | _ => CPanic
  end.
Definition bigIntGetUnsignedArgument `{E : env} : Z -> Z -> cmd :=
  bigInt_argument CBigIntGetUnsignedArgument bigIntFromUnsignedBytes.
Definition bigIntGetSignedArgument `{E : env} : Z -> Z -> cmd :=
  bigInt_argument CBigIntGetSignedArgument bigIntFromSignedBytes.

(** 306-329 *)
Definition bigIntStorageStoreUnsigned `{E : env} (keyOffset keyLength source : Z) : cmd :=
  charge CBigIntStorageStoreUnsigned $
  load keyOffset keyLength 0 $ fun key =>
  act (QBigGet source) $ fun v =>
  or_fault (QSetStorage key (bigIntUnsignedBytes v)) (-1) $ fun s => CRet (status_num s).

(** 332-352 *)
Definition bigIntStorageLoadUnsigned `{E : env} (keyOffset keyLength destination : Z) : cmd :=
  charge CBigIntStorageLoadUnsigned $
  load keyOffset keyLength 0 $ fun key =>
  act (QGetStorage key) $ fun data =>
  act (QBigSet destination (bigIntFromUnsignedBytes data)) $ fun _ => CRet (zlen data).

(** 355-380 *)
Definition bigIntGetCallValue `{E : env} (destination : Z) : cmd :=
  charge CBigIntGetCallValue $ get (fun h => vi_value (vm_in h)) $ fun v =>
  act (QBigSet destination v) $ fun _ => CRet 0.
Definition bigIntGetESDTCallValue `{E : env} (destination : Z) : cmd :=
  charge CBigIntGetCallValue $ get (fun h => et_value (first_esdt h)) $ fun v =>
  act (QBigSet destination v) $ fun _ => CRet 0.

(** 382-400; the balance goes through its bytes *)
Definition bigIntGetExternalBalance `{E : env} (addressOffset result : Z) : cmd :=
  charge CBigIntGetExternalBalance $
  load addressOffset AddressLen 0 $ fun a =>
  act (QBalance a) $ fun b =>
  act (QBigSet result (be_decode (be_encode b))) $ fun _ => CRet 0.

(** 403-422 *)
Definition bigIntGetESDTExternalBalance `{E : env} (addressOffset tokenIDOffset tokenIDLen nonce result : Z) : cmd :=
  charge CBigIntGetExternalBalance $
  esdt_data addressOffset tokenIDOffset tokenIDLen nonce $ fun t =>
  act (QBigSet result (ek_value t)) $ fun _ => CRet 0.

(** 424-432 *)
Definition bigIntNew `{E : env} (smallValue : Z) : cmd :=
  charge CBigIntNew $ act (QBigPut smallValue) $ fun handle => CRet handle.

(** 435-460 *)
Definition bigIntUnsignedByteLength `{E : env} (reference : Z) : cmd :=
  charge CBigIntUnsignedByteLength $ act (QBigGet reference) $ fun v => CRet (zlen (bigIntUnsignedBytes v)).
Definition bigIntSignedByteLength `{E : env} (reference : Z) : cmd :=
  charge CBigIntSignedByteLength $ act (QBigGet reference) $ fun v => CRet (zlen (bigIntSignedBytes v)).

(** 463-506 *)
Definition bigInt_get_bytes `{E : env} (c : cost) (f : Z -> bytes) (reference byteOffset : Z) : cmd :=
  charge c $ act (QBigGet reference) $ fun v =>
  store byteOffset (f v) 0 $
  use (MulUint64 (e_cost E DataCopyPerByte) (Z.of_nat (length (f v)))) $ CRet (zlen (f v)).
Definition bigIntGetUnsignedBytes `{E : env} : Z -> Z -> cmd := bigInt_get_bytes CBigIntGetUnsignedBytes bigIntUnsignedBytes.
Definition bigIntGetSignedBytes `{E : env} : Z -> Z -> cmd := bigInt_get_bytes CBigIntGetSignedBytes bigIntSignedBytes.

(** 509-548 *)
Definition bigInt_set_bytes `{E : env} (c : cost) (f : bytes -> Z) (destination byteOffset byteLength : Z) : cmd :=
  charge c $ load byteOffset byteLength 0 $ fun b =>
  act (QBigSet destination (f b)) $ fun _ =>
  use (MulUint64 (e_cost E DataCopyPerByte) (Z.of_nat (length b))) $ CRet 0.
Definition bigIntSetUnsignedBytes `{E : env} : Z -> Z -> Z -> cmd :=
  bigInt_set_bytes CBigIntSetUnsignedBytes bigIntFromUnsignedBytes.
Definition bigIntSetSignedBytes `{E : env} : Z -> Z -> Z -> cmd :=
  bigInt_set_bytes CBigIntSetSignedBytes bigIntFromSignedBytes.

(** 551-587 *)
Definition bigIntIsInt64 `{E : env} (reference : Z) : cmd :=
  charge CBigIntIsInt64 $ act (QBigGet reference) $ fun v => CRet (if is_int64 v then 1 else 0).
Definition bigIntGetInt64 `{E : env} (reference : Z) : cmd :=
  charge CBigIntGetInt64 $ act (QBigGet reference) $ fun v => CRet (i64 v).
Definition bigIntSetInt64 `{E : env} (destination value : Z) : cmd :=
  charge CBigIntSub $ act (QBigSet destination value) $ fun _ => CRet 0.

(** big.Int.BitLen *)
Definition bitLen (v : Z) : Z := if v =? 0 then 0 else Z.log2 (Z.abs v) + 1.

(** bigIntOps.go:255-264 useExtraGasForOperations *)
Fixpoint extra_gas `{E : env} (values : list Z) (k : cmd) : cmd :=
  match values with
  | [] => k
  | v :: vs =>
      let byteLen := bitLen v / 8 in
      if 32 <? byteLen then use (MulUint64 (e_cost E DataCopyPerByte) byteLen) (extra_gas vs k)
      else extra_gas vs k
  end.

(** the binary operations of 590-698 and 771-823: GetThree, gas for the
    operands' sizes, the check, the assignment *)
Definition bigInt_op2 `{E : env} (c : cost) (chargeDest : bool) (f : Z -> Z -> res Z) (destination op1 op2 : Z) : cmd :=
  charge c $
  act (QBigGet destination) $ fun d =>
  act (QBigGet op1) $ fun a =>
  act (QBigGet op2) $ fun b =>
  extra_gas ((if chargeDest then [d] else []) ++ [a; b]) $
  res_or_fault (f a b) 0 $ fun v => act (QBigSet destination v) $ fun _ => CRet 0.

(** math/big Quo, Rem (truncated), Div, Mod (Euclidean) *)
Definition div_guard (f : Z -> Z -> Z) (a b : Z) : res Z := if b =? 0 then RErr ErrDivZero else ROk (f a b).
Definition big_quo (a b : Z) : Z := Z.quot a b.
Definition big_rem (a b : Z) : Z := Z.rem a b.
Definition big_div (a b : Z) : Z := Z.sgn b * (a / Z.abs b).
Definition big_mod (a b : Z) : Z := a mod Z.abs b.
Definition bit_guard (f : Z -> Z -> Z) (a b : Z) : res Z :=
  if (a <? 0) || (b <? 0) then RErr ErrBitwiseNegative else ROk (f a b).

Definition bigIntAdd `{E : env} := bigInt_op2 CBigIntSub true (fun a b => ROk (a + b)).
Definition bigIntSub `{E : env} := bigInt_op2 CBigIntSub true (fun a b => ROk (a - b)).
Definition bigIntMul `{E : env} := bigInt_op2 CBigIntMul true (fun a b => ROk (a * b)).
Definition bigIntTDiv `{E : env} := bigInt_op2 CBigIntTDiv true (div_guard big_quo).
Definition bigIntTMod `{E : env} := bigInt_op2 CBigIntSub true (div_guard big_rem).
Definition bigIntEDiv `{E : env} := bigInt_op2 CBigIntSub true (div_guard big_div).
Definition bigIntEMod `{E : env} := bigInt_op2 CBigIntSub true (div_guard big_mod).
Definition bigIntAnd `{E : env} := bigInt_op2 CBigIntSub false (bit_guard Z.land).
Definition bigIntOr `{E : env} := bigInt_op2 CBigIntSub false (bit_guard Z.lor).
Definition bigIntXor `{E : env} := bigInt_op2 CBigIntSub false (bit_guard Z.lxor).

(** 701-725, 753-768 *)
Definition bigInt_op1 `{E : env} (f : Z -> res Z) (destination op : Z) : cmd :=
  charge CBigIntSub $
  act (QBigGet destination) $ fun d =>
  act (QBigGet op) $ fun a =>
  extra_gas [d; a] $
  res_or_fault (f a) 0 $ fun v => act (QBigSet destination v) $ fun _ => CRet 0.
Definition bigIntAbs `{E : env} := bigInt_op1 (fun a => ROk (Z.abs a)).
Definition bigIntNeg `{E : env} := bigInt_op1 (fun a => ROk (- a)).
Definition bigIntNot `{E : env} := bigInt_op1 (fun a => if a <? 0 then RErr ErrBitwiseNegative else ROk (Z.lnot a)).

(** 727-751 *)
Definition bigIntSign `{E : env} (op : Z) : cmd :=
  charge CBigIntSign $ act (QBigGet op) $ fun a => extra_gas [a] $ CRet (Z.sgn a).
Definition bigIntCmp `{E : env} (op1 op2 : Z) : cmd :=
  charge CBigIntCmp $ act (QBigGet op1) $ fun a => act (QBigGet op2) $ fun b =>
  extra_gas [a; b] $ CRet (match a ?= b with Lt => -1 | Eq => 0 | Gt => 1 end).

(** 825-861 *)
Definition bigInt_shift `{E : env} (f : Z -> Z -> Z) (destination op bits : Z) : cmd :=
  charge CBigIntSub $
  act (QBigGet destination) $ fun _ =>
  act (QBigGet op) $ fun a =>
  extra_gas [a] $
  if (a <? 0) || (bits <? 0) then fault ErrShiftNegative 0 else
  act (QBigSet destination (f a bits)) $ fun _ => extra_gas [f a bits] $ CRet 0.
Definition bigIntShr `{E : env} := bigInt_shift Z.shiftr.
Definition bigIntShl `{E : env} := bigInt_shift Z.shiftl.

(** 863-894 *)
Definition bigInt_finish `{E : env} (c : cost) (f : Z -> bytes) (reference : Z) : cmd :=
  charge c $ act (QBigGet reference) $ fun v =>
  act (QFinish (f v)) $ fun _ =>
  use (MulUint64 (e_cost E PersistPerByte) (Z.of_nat (length (f v)))) $ CRet 0.
Definition bigIntFinishUnsigned `{E : env} := bigInt_finish CBigIntFinishUnsigned bigIntUnsignedBytes.
Definition bigIntFinishSigned `{E : env} := bigInt_finish CBigIntFinishSigned bigIntSignedBytes.

(** * cryptoei.go *)

(** 68-151: a hash error gives 1 without a fault *)
Definition crypto_hash `{E : env} (c : cost) (name : string) (dataOffset length resultOffset : Z) : cmd :=
  use (AddUint64 (e_cost E c) (per_byte DataCopyPerByte length)) $
  load dataOffset length 1 $ fun d =>
  match e_hash E name d with
  | ROk x => store resultOffset x 1 $ CRet 0
  | _ => CRet 1
  end.

(** cryptoei.go:24-31 key and signature sizes *)
Definition blsPublicKeyLength : Z := 96.
Definition blsSignatureLength : Z := 48.
Definition ed25519PublicKeyLength : Z := 32.
Definition ed25519SignatureLength : Z := 64.
Definition secp256k1CompressedPublicKeyLength : Z := 33.
Definition secp256k1UncompressedPublicKeyLength : Z := 65.

(** 153-232 *)
Definition crypto_verify `{E : env} (c : cost) (name : string) (keyLen sigLen keyOffset messageOffset messageLength sigOffset : Z) : cmd :=
  charge c $
  load keyOffset keyLen 1 $ fun key =>
  charge_bytes DataCopyPerByte messageLength $
  load messageOffset messageLength 1 $ fun message =>
  load sigOffset sigLen 1 $ fun sig =>
  CRet (if e_verifySig E name key message sig then 0 else -1).

(** 235-300 *)
Definition verifySecp256k1 `{E : env} (keyOffset keyLength messageOffset messageLength sigOffset : Z) : cmd :=
  charge CVerifySecp256k1 $
  if negb (keyLength =? secp256k1CompressedPublicKeyLength) && negb (keyLength =? secp256k1UncompressedPublicKeyLength)
  then fault ErrInvalidPublicKeySize 1 else
  load keyOffset keyLength 1 $ fun key =>
  charge_bytes DataCopyPerByte messageLength $
  load messageOffset messageLength 1 $ fun message =>
  load sigOffset 2 1 $ fun header =>
  match header !! 1%nat with
  | None => CPanic
  | Some b =>
      load sigOffset (i32 (bz b + 2)) 1 $ fun sig =>
      CRet (if e_verifySig E "secp256k1" key message sig then 0 else -1)
  end.

(** * The import table

    WebAssembly passes i32 and i64 values: arguments are read as int32 or int64
    as the Go signatures say. *)
Definition api `{E : env} (c : api_call) : cmd :=
  match c with
  | A_getGasLeft => getGasLeft
  | A_getSCAddress resultOffset => getSCAddress (i32 resultOffset)
  | A_getOwnerAddress resultOffset => getOwnerAddress (i32 resultOffset)
  | A_getShardOfAddress addressOffset => getShardOfAddress (i32 addressOffset)
  | A_isSmartContract addressOffset => isSmartContract (i32 addressOffset)
  | A_signalError messageOffset messageLength => signalError (i32 messageOffset) (i32 messageLength)
  | A_getExternalBalance addressOffset resultOffset => getExternalBalance (i32 addressOffset) (i32 resultOffset)
  | A_getBlockHash nonce resultOffset => getBlockHash (i64 nonce) (i32 resultOffset)
  | A_getESDTBalance addressOffset tokenIDOffset tokenIDLen nonce resultOffset => getESDTBalance (i32 addressOffset) (i32 tokenIDOffset) (i32 tokenIDLen) (i64 nonce) (i32 resultOffset)
  | A_getESDTNFTNameLength addressOffset tokenIDOffset tokenIDLen nonce => getESDTNFTNameLength (i32 addressOffset) (i32 tokenIDOffset) (i32 tokenIDLen) (i64 nonce)
  | A_getESDTNFTAttributeLength addressOffset tokenIDOffset tokenIDLen nonce => getESDTNFTAttributeLength (i32 addressOffset) (i32 tokenIDOffset) (i32 tokenIDLen) (i64 nonce)
  | A_getESDTNFTURILength addressOffset tokenIDOffset tokenIDLen nonce => getESDTNFTURILength (i32 addressOffset) (i32 tokenIDOffset) (i32 tokenIDLen) (i64 nonce)
  | A_getESDTTokenData addressOffset tokenIDOffset tokenIDLen nonce valueHandle propertiesOffset hashOffset nameOffset attributesOffset creatorOffset royaltiesHandle urisOffset => getESDTTokenData (i32 addressOffset) (i32 tokenIDOffset) (i32 tokenIDLen) (i64 nonce) (i32 valueHandle) (i32 propertiesOffset) (i32 hashOffset) (i32 nameOffset) (i32 attributesOffset) (i32 creatorOffset) (i32 royaltiesHandle) (i32 urisOffset)
  | A_transferValue destOffset valueOffset dataOffset length => transferValue (i32 destOffset) (i32 valueOffset) (i32 dataOffset) (i32 length)
  | A_transferValueExecute destOffset valueOffset gasLimit functionOffset functionLength numArguments argumentsLengthOffset dataOffset => transferValueExecute (i32 destOffset) (i32 valueOffset) (i64 gasLimit) (i32 functionOffset) (i32 functionLength) (i32 numArguments) (i32 argumentsLengthOffset) (i32 dataOffset)
  | A_transferESDT _ _ _ _ _ _ length => transferESDT (i32 length)
  | A_transferESDTExecute destOffset tokenIDOffset tokenIDLen valueOffset gasLimit functionOffset functionLength numArguments argumentsLengthOffset dataOffset => transferESDTExecute (i32 destOffset) (i32 tokenIDOffset) (i32 tokenIDLen) (i32 valueOffset) (i64 gasLimit) (i32 functionOffset) (i32 functionLength) (i32 numArguments) (i32 argumentsLengthOffset) (i32 dataOffset)
  | A_transferESDTNFTExecute destOffset tokenIDOffset tokenIDLen valueOffset nonce gasLimit functionOffset functionLength numArguments argumentsLengthOffset dataOffset => transferESDTNFTExecute (i32 destOffset) (i32 tokenIDOffset) (i32 tokenIDLen) (i32 valueOffset) (i64 nonce) (i64 gasLimit) (i32 functionOffset) (i32 functionLength) (i32 numArguments) (i32 argumentsLengthOffset) (i32 dataOffset)
  | A_createAsyncCall asyncContextIdentifier identifierLength destOffset valueOffset dataOffset length successCallback successLength errorCallback errorLength gas => createAsyncCall (i32 asyncContextIdentifier) (i32 identifierLength) (i32 destOffset) (i32 valueOffset) (i32 dataOffset) (i32 length) (i32 successCallback) (i32 successLength) (i32 errorCallback) (i32 errorLength) (i64 gas)
  | A_setAsyncContextCallback asyncContextIdentifier identifierLength callback callbackLength => setAsyncContextCallback (i32 asyncContextIdentifier) (i32 identifierLength) (i32 callback) (i32 callbackLength)
  | A_upgradeContract destOffset gasLimit valueOffset codeOffset codeMetadataOffset length numArguments argumentsLengthOffset dataOffset => upgradeContract (i32 destOffset) (i64 gasLimit) (i32 valueOffset) (i32 codeOffset) (i32 codeMetadataOffset) (i32 length) (i32 numArguments) (i32 argumentsLengthOffset) (i32 dataOffset)
  | A_upgradeFromSourceContract destOffset gasLimit valueOffset sourceContractAddressOffset codeMetadataOffset numArguments argumentsLengthOffset dataOffset => upgradeFromSourceContract (i32 destOffset) (i64 gasLimit) (i32 valueOffset) (i32 sourceContractAddressOffset) (i32 codeMetadataOffset) (i32 numArguments) (i32 argumentsLengthOffset) (i32 dataOffset)
  | A_asyncCall destOffset valueOffset dataOffset length => asyncCall (i32 destOffset) (i32 valueOffset) (i32 dataOffset) (i32 length)
  | A_getArgumentLength id => getArgumentLength (i32 id)
  | A_getArgument id argOffset => getArgument (i32 id) (i32 argOffset)
  | A_getFunction functionOffset => getFunction (i32 functionOffset)
  | A_getNumArguments => getNumArguments
  | A_storageStore keyOffset keyLength dataOffset dataLength => storageStore (i32 keyOffset) (i32 keyLength) (i32 dataOffset) (i32 dataLength)
  | A_storageLoadLength keyOffset keyLength => storageLoadLength (i32 keyOffset) (i32 keyLength)
  | A_storageLoadFromAddress addressOffset keyOffset keyLength dataOffset => storageLoadFromAddress (i32 addressOffset) (i32 keyOffset) (i32 keyLength) (i32 dataOffset)
  | A_storageLoad keyOffset keyLength dataOffset => storageLoad (i32 keyOffset) (i32 keyLength) (i32 dataOffset)
  | A_setStorageLock keyOffset keyLength lockTimestamp => setStorageLock (i32 keyOffset) (i32 keyLength) (i64 lockTimestamp)
  | A_getStorageLock keyOffset keyLength => getStorageLock (i32 keyOffset) (i32 keyLength)
  | A_isStorageLocked keyOffset keyLength => isStorageLocked (i32 keyOffset) (i32 keyLength)
  | A_clearStorageLock keyOffset keyLength => clearStorageLock (i32 keyOffset) (i32 keyLength)
  | A_getCaller resultOffset => getCaller (i32 resultOffset)
  | A_checkNoPayment => checkNoPayment
  | A_getCallValue resultOffset => getCallValue (i32 resultOffset)
  | A_getESDTValue resultOffset => getESDTValue (i32 resultOffset)
  | A_getESDTTokenName resultOffset => getESDTTokenName (i32 resultOffset)
  | A_getESDTTokenNonce => getESDTTokenNonce
  | A_getCurrentESDTNFTNonce addressOffset tokenIDOffset tokenIDLen => getCurrentESDTNFTNonce (i32 addressOffset) (i32 tokenIDOffset) (i32 tokenIDLen)
  | A_getESDTTokenType => getESDTTokenType
  | A_getCallValueTokenName callValueOffset tokenNameOffset => getCallValueTokenName (i32 callValueOffset) (i32 tokenNameOffset)
  | A_writeLog dataPointer dataLength topicPtr numTopics => writeLog (i32 dataPointer) (i32 dataLength) (i32 topicPtr) (i32 numTopics)
  | A_writeEventLog numTopics topicLengthsOffset topicOffset dataOffset dataLength => writeEventLog (i32 numTopics) (i32 topicLengthsOffset) (i32 topicOffset) (i32 dataOffset) (i32 dataLength)
  | A_getBlockTimestamp => getBlockTimestamp
  | A_getBlockNonce => getBlockNonce
  | A_getBlockRound => getBlockRound
  | A_getBlockEpoch => getBlockEpoch
  | A_getBlockRandomSeed pointer => getBlockRandomSeed (i32 pointer)
  | A_getStateRootHash pointer => getStateRootHash (i32 pointer)
  | A_getPrevBlockTimestamp => getPrevBlockTimestamp
  | A_getPrevBlockNonce => getPrevBlockNonce
  | A_getPrevBlockRound => getPrevBlockRound
  | A_getPrevBlockEpoch => getPrevBlockEpoch
  | A_getPrevBlockRandomSeed pointer => getPrevBlockRandomSeed (i32 pointer)
  | A_finish pointer length => api_finish (i32 pointer) (i32 length)
  | A_executeOnSameContext gasLimit addressOffset valueOffset functionOffset functionLength numArguments argumentsLengthOffset dataOffset => executeOnSameContext (i64 gasLimit) (i32 addressOffset) (i32 valueOffset) (i32 functionOffset) (i32 functionLength) (i32 numArguments) (i32 argumentsLengthOffset) (i32 dataOffset)
  | A_executeOnDestContext gasLimit addressOffset valueOffset functionOffset functionLength numArguments argumentsLengthOffset dataOffset => executeOnDestContext (i64 gasLimit) (i32 addressOffset) (i32 valueOffset) (i32 functionOffset) (i32 functionLength) (i32 numArguments) (i32 argumentsLengthOffset) (i32 dataOffset)
  | A_executeOnDestContextByCaller gasLimit addressOffset valueOffset functionOffset functionLength numArguments argumentsLengthOffset dataOffset => executeOnDestContextByCaller (i64 gasLimit) (i32 addressOffset) (i32 valueOffset) (i32 functionOffset) (i32 functionLength) (i32 numArguments) (i32 argumentsLengthOffset) (i32 dataOffset)
  | A_delegateExecution gasLimit addressOffset functionOffset functionLength numArguments argumentsLengthOffset dataOffset => delegateExecution (i64 gasLimit) (i32 addressOffset) (i32 functionOffset) (i32 functionLength) (i32 numArguments) (i32 argumentsLengthOffset) (i32 dataOffset)
  | A_executeReadOnly gasLimit addressOffset functionOffset functionLength numArguments argumentsLengthOffset dataOffset => executeReadOnly (i64 gasLimit) (i32 addressOffset) (i32 functionOffset) (i32 functionLength) (i32 numArguments) (i32 argumentsLengthOffset) (i32 dataOffset)
  | A_createContract gasLimit valueOffset codeOffset codeMetadataOffset length resultOffset numArguments argumentsLengthOffset dataOffset => createContract (i64 gasLimit) (i32 valueOffset) (i32 codeOffset) (i32 codeMetadataOffset) (i32 length) (i32 resultOffset) (i32 numArguments) (i32 argumentsLengthOffset) (i32 dataOffset)
  | A_deployFromSourceContract gasLimit valueOffset addressOffset codeMetadataOffset resultOffset numArguments argumentsLengthOffset dataOffset => deployFromSourceContract (i64 gasLimit) (i32 valueOffset) (i32 addressOffset) (i32 codeMetadataOffset) (i32 resultOffset) (i32 numArguments) (i32 argumentsLengthOffset) (i32 dataOffset)
  | A_getNumReturnData => getNumReturnData
  | A_getReturnDataSize resultID => getReturnDataSize (i32 resultID)
  | A_getReturnData resultID dataOffset => getReturnData (i32 resultID) (i32 dataOffset)
  | A_getOriginalTxHash dataOffset => getOriginalTxHash (i32 dataOffset)
  | A_smallIntGetUnsignedArgument id => api_smallIntGetUnsignedArgument (i32 id)
  | A_smallIntGetSignedArgument id => api_smallIntGetSignedArgument (i32 id)
  | A_smallIntFinishUnsigned value => smallIntFinishUnsigned (i64 value)
  | A_smallIntFinishSigned value => smallIntFinishSigned (i64 value)
  | A_smallIntStorageStoreUnsigned keyOffset keyLength value => smallIntStorageStoreUnsigned (i32 keyOffset) (i32 keyLength) (i64 value)
  | A_smallIntStorageStoreSigned keyOffset keyLength value => smallIntStorageStoreSigned (i32 keyOffset) (i32 keyLength) (i64 value)
  | A_smallIntStorageLoadUnsigned keyOffset keyLength => smallIntStorageLoadUnsigned (i32 keyOffset) (i32 keyLength)
  | A_smallIntStorageLoadSigned keyOffset keyLength => smallIntStorageLoadSigned (i32 keyOffset) (i32 keyLength)
  | A_int64getArgument id => api_smallIntGetSignedArgument (i32 id)
  | A_int64finish value => smallIntFinishSigned (i64 value)
  | A_int64storageStore keyOffset keyLength value => smallIntStorageStoreUnsigned (i32 keyOffset) (i32 keyLength) (i64 value)
  | A_int64storageLoad keyOffset keyLength => smallIntStorageLoadUnsigned (i32 keyOffset) (i32 keyLength)
  | A_bigIntGetUnsignedArgument id destinationHandle => bigIntGetUnsignedArgument (i32 id) (i32 destinationHandle)
  | A_bigIntGetSignedArgument id destinationHandle => bigIntGetSignedArgument (i32 id) (i32 destinationHandle)
  | A_bigIntStorageStoreUnsigned keyOffset keyLength sourceHandle => bigIntStorageStoreUnsigned (i32 keyOffset) (i32 keyLength) (i32 sourceHandle)
  | A_bigIntStorageLoadUnsigned keyOffset keyLength destinationHandle => bigIntStorageLoadUnsigned (i32 keyOffset) (i32 keyLength) (i32 destinationHandle)
  | A_bigIntGetCallValue destinationHandle => bigIntGetCallValue (i32 destinationHandle)
  | A_bigIntGetESDTCallValue destinationHandle => bigIntGetESDTCallValue (i32 destinationHandle)
  | A_bigIntGetExternalBalance addressOffset resultHandle => bigIntGetExternalBalance (i32 addressOffset) (i32 resultHandle)
  | A_bigIntGetESDTExternalBalance addressOffset tokenIDOffset tokenIDLen nonce resultHandle => bigIntGetESDTExternalBalance (i32 addressOffset) (i32 tokenIDOffset) (i32 tokenIDLen) (i64 nonce) (i32 resultHandle)
  | A_bigIntNew smallValue => bigIntNew (i64 smallValue)
  | A_bigIntUnsignedByteLength referenceHandle => bigIntUnsignedByteLength (i32 referenceHandle)
  | A_bigIntSignedByteLength referenceHandle => bigIntSignedByteLength (i32 referenceHandle)
  | A_bigIntGetUnsignedBytes referenceHandle byteOffset => bigIntGetUnsignedBytes (i32 referenceHandle) (i32 byteOffset)
  | A_bigIntGetSignedBytes referenceHandle byteOffset => bigIntGetSignedBytes (i32 referenceHandle) (i32 byteOffset)
  | A_bigIntSetUnsignedBytes destinationHandle byteOffset byteLength => bigIntSetUnsignedBytes (i32 destinationHandle) (i32 byteOffset) (i32 byteLength)
  | A_bigIntSetSignedBytes destinationHandle byteOffset byteLength => bigIntSetSignedBytes (i32 destinationHandle) (i32 byteOffset) (i32 byteLength)
  | A_bigIntIsInt64 referenceHandle => bigIntIsInt64 (i32 referenceHandle)
  | A_bigIntGetInt64 referenceHandle => bigIntGetInt64 (i32 referenceHandle)
  | A_bigIntSetInt64 destinationHandle value => bigIntSetInt64 (i32 destinationHandle) (i64 value)
  | A_bigIntAdd destinationHandle op1 op2 => bigIntAdd (i32 destinationHandle) (i32 op1) (i32 op2)
  | A_bigIntSub destinationHandle op1 op2 => bigIntSub (i32 destinationHandle) (i32 op1) (i32 op2)
  | A_bigIntMul destinationHandle op1 op2 => bigIntMul (i32 destinationHandle) (i32 op1) (i32 op2)
  | A_bigIntTDiv destinationHandle op1 op2 => bigIntTDiv (i32 destinationHandle) (i32 op1) (i32 op2)
  | A_bigIntTMod destinationHandle op1 op2 => bigIntTMod (i32 destinationHandle) (i32 op1) (i32 op2)
  | A_bigIntEDiv destinationHandle op1 op2 => bigIntEDiv (i32 destinationHandle) (i32 op1) (i32 op2)
  | A_bigIntEMod destinationHandle op1 op2 => bigIntEMod (i32 destinationHandle) (i32 op1) (i32 op2)
  | A_bigIntAbs destinationHandle op => bigIntAbs (i32 destinationHandle) (i32 op)
  | A_bigIntNeg destinationHandle op => bigIntNeg (i32 destinationHandle) (i32 op)
  | A_bigIntSign op => bigIntSign (i32 op)
  | A_bigIntCmp op1 op2 => bigIntCmp (i32 op1) (i32 op2)
  | A_bigIntNot destinationHandle op => bigIntNot (i32 destinationHandle) (i32 op)
  | A_bigIntAnd destinationHandle op1 op2 => bigIntAnd (i32 destinationHandle) (i32 op1) (i32 op2)
  | A_bigIntOr destinationHandle op1 op2 => bigIntOr (i32 destinationHandle) (i32 op1) (i32 op2)
  | A_bigIntXor destinationHandle op1 op2 => bigIntXor (i32 destinationHandle) (i32 op1) (i32 op2)
  | A_bigIntShr destinationHandle op bits => bigIntShr (i32 destinationHandle) (i32 op) (i32 bits)
  | A_bigIntShl destinationHandle op bits => bigIntShl (i32 destinationHandle) (i32 op) (i32 bits)
  | A_bigIntFinishUnsigned referenceHandle => bigIntFinishUnsigned (i32 referenceHandle)
  | A_bigIntFinishSigned referenceHandle => bigIntFinishSigned (i32 referenceHandle)
  | A_sha256 dataOffset length resultOffset => crypto_hash CSHA256 "sha256" (i32 dataOffset) (i32 length) (i32 resultOffset)
  | A_keccak256 dataOffset length resultOffset => crypto_hash CKeccak256 "keccak256" (i32 dataOffset) (i32 length) (i32 resultOffset)
  | A_ripemd160 dataOffset length resultOffset => crypto_hash CRipemd160 "ripemd160" (i32 dataOffset) (i32 length) (i32 resultOffset)
  | A_verifyBLS keyOffset messageOffset messageLength sigOffset => crypto_verify CVerifyBLS "bls" blsPublicKeyLength blsSignatureLength (i32 keyOffset) (i32 messageOffset) (i32 messageLength) (i32 sigOffset)
  | A_verifyEd25519 keyOffset messageOffset messageLength sigOffset => crypto_verify CVerifyEd25519 "ed25519" ed25519PublicKeyLength ed25519SignatureLength (i32 keyOffset) (i32 messageOffset) (i32 messageLength) (i32 sigOffset)
  | A_verifySecp256k1 keyOffset keyLength messageOffset messageLength sigOffset => verifySecp256k1 (i32 keyOffset) (i32 keyLength) (i32 messageOffset) (i32 messageLength) (i32 sigOffset)
  end.

(** * What the host operations do *)

(** elrondei.go:2939-2970 prepareIndirectContractCallInput *)
Definition indirect_input (h : host) (sender : bytes) (value gasLimit : Z) (dest function : bytes) (args : list bytes) : call_input :=
  mkCall (mkInput sender args value DirectCall 0 (BoundGasLimit h gasLimit) 0 [] [] [] false) dest function false.

(** Go's [_, _, err = host.ExecuteOnDestContext(input)] *)
Definition exec_dest (ed : edf) (i : call_input) : M unit :=
  r <- ed i ;;
  match snd r with None => ret tt | Some e => fail e end.

(** contexts/runtime.go:691-694 SetReadOnly *)
Definition SetReadOnly (b : bool) : M unit :=
  modify (fun h => set_h_trace (EvReadOnly b :: h_trace h) (set_h_rt (set_r_ro b (h_rt h)) h)).

(** elrondei.go:1190-1264 TransferESDTNFTExecuteWithTypedArgs after its charge *)
Definition esdt_execute `{E : env} (ed : edf) (dest token : bytes) (nonce value gasLimit : Z)
    (function : bytes) (args : list bytes) : M Z :=
  h0 <- gets (fun h => h) ;;
  let sender := sc_address h0 in
  let input := indirect_input h0 sender 0 gasLimit dest function args in
  let input := set_ci_vm (set_vi_esdt [mkEsdt value token (if 0 <? nonce then 1 else 0) (u64 nonce)] (ci_vm input)) input in
  let snapshot := h_world h0 in
  t <- try (TransferESDT dest sender token (u64 nonce) value (Some input)) ;;
  match t with
  | inr e => WithFault e ;;; ret 1
  | inl gas =>
      if AreInSameShard sender dest && e_isSC E dest then
        x <- try (exec_dest ed (set_ci_vm (set_vi_gas gas (ci_vm input)) input)) ;;
        match x with
        | inl _ => ret 0
        | inr _ => modify (set_h_world snapshot) ;;; ret 1
        end
      else ret 0
  end.

Definition big_op (f : gmap Z Z -> gmap Z Z * Z) : M Z := fun h =>
  let '(m, v) := f (h_big h) in (set_h_big m h, OOk v).

Section interp.
Context `{E : env} (ed : edf) (es : call_input -> M unit).

Definition interp {B} (p : prim B) : M B :=
  match p in prim B return M B with
  | QGet f => gets f
  | QUseGas g => UseGas g
  | QMemStore o d => mem_store o d
  | QFault e => WithFault e
  | QSignal m => SignalUserError m
  | QBreak v => SetRuntimeBreakpointValue v
  | QBigPut v => big_op (fun m => big_put m v)
  | QBigGet x => big_op (fun m => big_get m x)
  | QBigSet x v => modify (fun h => set_h_big (<[x := v]> (h_big h)) h)
  | QSetStorage k v => SetStorage k v
  | QSetTimeLock k v => SetProtectedStorage (CustomStorageKey TimeLockKeyPrefix k) v
  | QGetStorage k => GetStorage k
  | QGetStorageUnmetered k => GetStorageUnmetered k
  | QGetStorageFrom a k => GetStorageFromAddress a k
  | QFinish d => Finish d
  | QWriteLog t d => a <- gets sc_address ;; WriteLog a t d
  | QTransfer dest g v d => a <- gets sc_address ;; Transfer dest a g 0 v d DirectCall
  | QBalance a => GetBalanceBigInt a
  | QGetCode a => GetCode a
  | QAddAsync id c => AddAsyncContextCall id c
  | QAsyncCallback id cb => SetAsyncContextCallback id cb
  | QAsyncCall a d v => ExecuteAsyncCall a d v
  | QExecDest byC v g dest f args =>
      i <- gets (fun h => indirect_input h (if byC : bool then vi_caller (vm_in h) else sc_address h) v g dest f args) ;;
      exec_dest ed i
  | QExecSame v g dest f args =>
      i <- gets (fun h => indirect_input h (sc_address h) v g dest f args) ;; es i
  | QExecReadOnly g dest f args =>
      (* elrondei.go:2684-2686: SetReadOnly(true), the call, SetReadOnly(false) *)
      i <- gets (fun h => indirect_input h (sc_address h) (vi_value (vm_in h)) g dest f args) ;;
      SetReadOnly true ;;;
      x <- try (es i) ;;
      SetReadOnly false ;;;
      match x with inl _ => ret tt | inr e => fail e end
  | QESDTExecute dest token nonce v g f args => esdt_execute ed dest token nonce v g f args
  | QCreate v g code meta args =>
      (* elrondei.go:2855-2875 *)
      i <- gets (fun h => mkCreate (mkInput (sc_address h) args v DirectCall 0 (BoundGasLimit h g) 0 [] [] [] false) code meta) ;;
      CreateNewContract ed i
  end.

Fixpoint run_cmd (c : cmd) : M Z :=
  match c with
  | CRet r => ret r
  | CPanic => panic
  | CDo p k => x <- try (interp p) ;; run_cmd (k x)
  end.
End interp.
