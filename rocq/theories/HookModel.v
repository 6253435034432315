(** What crosses the pipe between the node and the virtual machine: the gateway
    (ipc/arwenpart/blockchainGateway.go), the node's repliers
    (ipc/nodepart/blockchainRepliers.go), the message structs
    (ipc/common/messagesBlockchain.go, messagesContracts.go, account.go,
    serializableMaps.go, serializableVMOutput.go) and the driver
    (ipc/nodepart/arwenDriver.go).  Byte slices have no nil; ContractCallInput,
    ESDigitalToken and LogEntry, which are passed whole, are byte strings. *)
From Verif Require Export IpcModel.
From stdpp Require Import gmap.
Local Open Scope Z_scope.

(** * Values *)

(** A Go result [(value, error)]: callers look at the value only if the error is
    nil; an error is its text. *)
Inductive eres (A : Type) : Type := Good (a : A) | Bad (text : bytes).
Arguments Good {A}. Arguments Bad {A}.

(** elrond-vm-common OutputTransfer, StorageUpdate, OutputAccount, VMOutput *)
Record gtransfer := mkGTransfer {
  gt_value : option Z; gt_limit : Z; gt_locked : Z; gt_data : bytes; gt_ctype : Z; gt_sender : bytes }.
Record gupdate := mkGUpdate { gu_offset : bytes; gu_data : bytes }.
Record gaccount := mkGAccount {
  ga_address : bytes; ga_nonce : Z; ga_balance : option Z; ga_delta : option Z;
  ga_updates : gmap bytes gupdate; ga_code : bytes; ga_meta : bytes; ga_gas : Z;
  ga_transfers : list gtransfer; ga_deployer : bytes }.
Record goutput := mkGOutput {
  go_data : list bytes; go_code : Z; go_msg : bytes; go_gas : Z; go_refund : option Z;
  go_accounts : gmap bytes gaccount; go_deleted : list bytes; go_touched : list bytes; go_logs : list bytes }.

(** the node's UserAccountHandler, as its getters show it *)
Record handler := mkHandler {
  uh_nonce : Z; uh_balance : Z; uh_codehash : bytes; uh_roothash : bytes; uh_address : bytes;
  uh_reward : Z; uh_owner : bytes; uh_username : bytes; uh_meta : bytes }.

(** serializableVMOutput.go:77-97 and 9-19 *)
Record stransfer := mkSTransfer {
  st_value : option Z; st_data : bytes; st_limit : Z; st_locked : Z; st_ctype : Z; st_sender : bytes }.
Record saccount := mkSAccount {
  sa_address : bytes; sa_nonce : Z; sa_balance : option Z; sa_delta : option Z;
  sa_updates : list gupdate; sa_code : bytes; sa_meta : bytes; sa_gas : Z;
  sa_transfers : list stransfer; sa_deployer : bytes }.
Record soutput := mkSOutput {
  so_data : list bytes; so_code : Z; so_msg : bytes; so_gas : Z; so_refund : option Z;
  so_accounts : list saccount; so_deleted : list bytes; so_touched : list bytes; so_logs : list bytes }.

(** account.go:10-20 *)
Record maccount := mkMAccount {
  ma_nonce : Z; ma_balance : option Z; ma_codehash : bytes; ma_roothash : bytes; ma_address : bytes;
  ma_reward : option Z; ma_owner : bytes; ma_username : bytes; ma_meta : bytes }.

(** * Conversions *)

(** The fields message structs have beyond the embedded Message. *)
Inductive fields : Type :=
| FNone
| FBytes (a : bytes)
| FBytes2 (a b : bytes)
| FNewAddress (a : bytes) (n : Z) (b : bytes)
| FToken (a b : bytes) (n : Z)
| FNum (n : Z)
| FFlag (b : bool)
| FFound (b : bool) (d : bytes)
| FList (l : list bytes)
| FState (s : list bytes * list bytes)
| FAccount (a : option maccount)
| FOption (d : option bytes)
| FOutput (o : soutput).

(** What is not in the repository.  [visit]: a [range] loop over a map visits its
    entries in any order.  [pack], [unpack]: how the marshalizer writes the
    fields of a struct and reads them back; [kept] are those it gives back.
    [errorf]: fmt.Errorf without operands, which keeps texts without a percent
    sign.  [text_of]: texts of the errors of a messenger. *)
Record outside := mkOutside {
  visit : forall A, gmap bytes A -> list (bytes * A);
  visit_all : forall A (m : gmap bytes A), Permutation (visit A m) (map_to_list m);
  pack : fields -> bytes;
  unpack : bytes -> option fields;
  kept : fields -> Prop;
  kept_back : forall f, kept f -> unpack (pack f) = Some f;
  errorf : bytes -> bytes;
  errorf_plain : forall t, ~ In Coq.Init.Byte.x25 t -> errorf t = t;
  text_of : ipc_err -> bytes }.

Section conversions.
Context (L : outside).

(** serializableVMOutput.go:110-121 *)
Definition NewSerializableTransfer (t : gtransfer) : stransfer :=
  mkSTransfer (gt_value t) (gt_data t) (gt_limit t) (gt_locked t) (gt_ctype t) (gt_sender t).
(** 97-128 *)
Definition NewSerializableOutputAccount (a : gaccount) : saccount :=
  mkSAccount (ga_address a) (ga_nonce a) (ga_balance a) (ga_delta a)
    (map snd (visit L _ (ga_updates a))) (ga_code a) (ga_meta a) (ga_gas a)
    (map NewSerializableTransfer (ga_transfers a)) (ga_deployer a).
(** 21-45; [None] is a nil pointer *)
Definition NewSerializableVMOutput (o : option goutput) : soutput :=
  match o with
  | None => mkSOutput [] 0 [] 0 None [] [] [] []
  | Some o =>
      mkSOutput (go_data o) (go_code o) (go_msg o) (go_gas o) (go_refund o)
        (map (fun p => NewSerializableOutputAccount (snd p)) (visit L _ (go_accounts o)))
        (go_deleted o) (go_touched o) (go_logs o)
  end.
(** 150-160 *)
Definition ConvertToTransfer (t : stransfer) : gtransfer :=
  mkGTransfer (st_value t) (st_limit t) (st_locked t) (st_data t) (st_ctype t) (st_sender t).
(** 130-163: later updates of one offset replace earlier ones *)
Definition ConvertToOutputAccount (a : saccount) : gaccount :=
  mkGAccount (sa_address a) (sa_nonce a) (sa_balance a) (sa_delta a)
    (fold_left (fun m u => <[gu_offset u := u]> m) (sa_updates a) ∅)
    (sa_code a) (sa_meta a) (sa_gas a) (map ConvertToTransfer (sa_transfers a)) (sa_deployer a).
(** 47-66 *)
Definition ConvertToVMOutput (o : soutput) : goutput :=
  mkGOutput (so_data o) (so_code o) (so_msg o) (so_gas o) (so_refund o)
    (fold_left (fun m a => <[sa_address a := ConvertToOutputAccount a]> m) (so_accounts o) ∅)
    (so_deleted o) (so_touched o) (so_logs o).

(** serializableMaps.go:8-20 and 22-32: keys and values *)
Definition NewSerializableMapStringBytes (m : gmap bytes bytes) : list bytes * list bytes :=
  let l := visit L _ m in (map fst l, map snd l).
Definition ConvertToMap (s : list bytes * list bytes) : gmap bytes bytes :=
  fold_left (fun m p => <[fst p := snd p]> m) (zip (fst s) (snd s)) ∅.

(** blockchainRepliers.go:142-152 and blockchainGateway.go (GetCode) *)
Definition account_message (h : handler) : maccount :=
  mkMAccount (uh_nonce h) (Some (uh_balance h)) (uh_codehash h) (uh_roothash h) (uh_address h)
    (Some (uh_reward h)) (uh_owner h) (uh_username h) (uh_meta h).
(** account.go:22-73: the getters of the message *)
Definition account_handler (a : maccount) : handler :=
  mkHandler (ma_nonce a) (default 0 (ma_balance a)) (ma_codehash a) (ma_roothash a) (ma_address a)
    (default 0 (ma_reward a)) (ma_owner a) (ma_username a) (ma_meta a).

(** * The hook *)

(** The methods of vmcommon.BlockchainHook; IsInterfaceNil is answered by the
    gateway itself. *)
Inductive hook_q : Type :=
| HNewAddress (creator : bytes) (nonce : Z) (vmType : bytes)
| HGetStorageData (account index : bytes)
| HGetBlockhash (nonce : Z)
| HLastNonce | HLastRound | HLastTimeStamp | HLastRandomSeed | HLastEpoch | HGetStateRootHash
| HCurrentNonce | HCurrentRound | HCurrentTimeStamp | HCurrentRandomSeed | HCurrentEpoch
| HProcessBuiltInFunction (input : bytes)
| HGetBuiltinFunctionNames
| HGetAllState (address : bytes)
| HGetUserAccount (address : bytes)
| HGetCode (account : handler)
| HGetShardOfAddress (address : bytes)
| HIsSmartContract (address : bytes)
| HIsPayable (address : bytes)
| HSaveCompiledCode (hash code : bytes)
| HGetCompiledCode (hash : bytes)
| HClearCompiledCodes
| HGetESDTToken (address token : bytes) (nonce : Z)
| HGetSnapshot
| HRevertToSnapshot (snapshot : Z).

Definition hook_ret (q : hook_q) : Type :=
  match q with
  | HNewAddress _ _ _ | HGetStorageData _ _ | HGetBlockhash _ => eres bytes
  | HLastNonce | HLastRound | HLastTimeStamp | HLastEpoch
  | HCurrentNonce | HCurrentRound | HCurrentTimeStamp | HCurrentEpoch
  | HGetShardOfAddress _ | HGetSnapshot => Z
  | HLastRandomSeed | HGetStateRootHash | HCurrentRandomSeed | HGetCode _ => bytes
  | HProcessBuiltInFunction _ => eres (option goutput)
  | HGetBuiltinFunctionNames => list bytes
  | HGetAllState _ => eres (gmap bytes bytes)
  | HGetUserAccount _ => eres (option handler)
  | HIsSmartContract _ => bool
  | HIsPayable _ => eres bool
  | HSaveCompiledCode _ _ | HClearCompiledCodes => unit
  | HGetCompiledCode _ => bool * bytes
  | HGetESDTToken _ _ _ => eres (option bytes)
  | HRevertToSnapshot _ => eres unit
  end.

(** * Messages *)

(** messages.go:207-222: SetError and GetError; no error is an empty text *)
Definition SetError {A} (r : eres A) : bytes := match r with Good _ => [] | Bad t => t end.
Definition GetError (c : content) : option bytes :=
  match g_error c with [] => None | t => Some (errorf L t) end.
(** a message made by its constructor *)
Definition message (kind : Z) (e : bytes) (f : fields) : content := mkContent (TOf kind) kind e (pack L f).

(** messagesBlockchain.go: kinds of request and response *)
Definition request_kind (q : hook_q) : Z :=
  match q with
  | HNewAddress _ _ _ => KBlockchainNewAddressRequest
  | HGetStorageData _ _ => KBlockchainGetStorageDataRequest
  | HGetBlockhash _ => KBlockchainGetBlockhashRequest
  | HLastNonce => KBlockchainLastNonceRequest
  | HLastRound => KBlockchainLastRoundRequest
  | HLastTimeStamp => KBlockchainLastTimeStampRequest
  | HLastRandomSeed => KBlockchainLastRandomSeedRequest
  | HLastEpoch => KBlockchainLastEpochRequest
  | HGetStateRootHash => KBlockchainGetStateRootHashRequest
  | HCurrentNonce => KBlockchainCurrentNonceRequest
  | HCurrentRound => KBlockchainCurrentRoundRequest
  | HCurrentTimeStamp => KBlockchainCurrentTimeStampRequest
  | HCurrentRandomSeed => KBlockchainCurrentRandomSeedRequest
  | HCurrentEpoch => KBlockchainCurrentEpochRequest
  | HProcessBuiltInFunction _ => KBlockchainProcessBuiltInFunctionRequest
  | HGetBuiltinFunctionNames => KBlockchainGetBuiltinFunctionNamesRequest
  | HGetAllState _ => KBlockchainGetAllStateRequest
  | HGetUserAccount _ => KBlockchainGetUserAccountRequest
  | HGetCode _ => KBlockchainGetCodeRequest
  | HGetShardOfAddress _ => KBlockchainGetShardOfAddressRequest
  | HIsSmartContract _ => KBlockchainIsSmartContractRequest
  | HIsPayable _ => KBlockchainIsPayableRequest
  | HSaveCompiledCode _ _ => KBlockchainSaveCompiledCodeRequest
  | HGetCompiledCode _ => KBlockchainGetCompiledCodeRequest
  | HClearCompiledCodes => KBlockchainClearCompiledCodesRequest
  | HGetESDTToken _ _ _ => KBlockchainGetESDTTokenRequest
  | HGetSnapshot => KBlockchainGetSnapshotRequest
  | HRevertToSnapshot _ => KBlockchainRevertToSnapshotRequest
  end.
(** the response of each request follows it in the list of kinds
    (messages.go:12-85); gateway and constructors name them one by one *)
Definition response_kind (q : hook_q) : Z :=
  match q with
  | HNewAddress _ _ _ => KBlockchainNewAddressResponse
  | HGetStorageData _ _ => KBlockchainGetStorageDataResponse
  | HGetBlockhash _ => KBlockchainGetBlockhashResponse
  | HLastNonce => KBlockchainLastNonceResponse
  | HLastRound => KBlockchainLastRoundResponse
  | HLastTimeStamp => KBlockchainLastTimeStampResponse
  | HLastRandomSeed => KBlockchainLastRandomSeedResponse
  | HLastEpoch => KBlockchainLastEpochResponse
  | HGetStateRootHash => KBlockchainGetStateRootHashResponse
  | HCurrentNonce => KBlockchainCurrentNonceResponse
  | HCurrentRound => KBlockchainCurrentRoundResponse
  | HCurrentTimeStamp => KBlockchainCurrentTimeStampResponse
  | HCurrentRandomSeed => KBlockchainCurrentRandomSeedResponse
  | HCurrentEpoch => KBlockchainCurrentEpochResponse
  | HProcessBuiltInFunction _ => KBlockchainProcessBuiltInFunctionResponse
  | HGetBuiltinFunctionNames => KBlockchainGetBuiltinFunctionNamesResponse
  | HGetAllState _ => KBlockchainGetAllStateResponse
  | HGetUserAccount _ => KBlockchainGetUserAccountResponse
  | HGetCode _ => KBlockchainGetCodeResponse
  | HGetShardOfAddress _ => KBlockchainGetShardOfAddressResponse
  | HIsSmartContract _ => KBlockchainIsSmartContractResponse
  | HIsPayable _ => KBlockchainIsPayableResponse
  | HSaveCompiledCode _ _ => KBlockchainSaveCompiledCodeResponse
  | HGetCompiledCode _ => KBlockchainGetCompiledCodeResponse
  | HClearCompiledCodes => KBlockchainClearCompiledCodesResponse
  | HGetESDTToken _ _ _ => KBlockchainGetESDTTokenResponse
  | HGetSnapshot => KBlockchainGetSnapshotResponse
  | HRevertToSnapshot _ => KBlockchainRevertToSnapshotResponse
  end.

(** * The gateway *)

(** blockchainGateway.go: the fields of the request built by each method *)
Definition request_fields (q : hook_q) : fields :=
  match q with
  | HNewAddress a n t => FNewAddress a n t
  | HGetStorageData a k => FBytes2 a k
  | HGetBlockhash n => FNum n
  | HProcessBuiltInFunction i => FBytes i
  | HGetAllState a | HGetUserAccount a | HGetShardOfAddress a | HIsSmartContract a | HIsPayable a => FBytes a
  | HGetCode h => FAccount (Some (account_message h))
  | HSaveCompiledCode h c => FBytes2 h c
  | HGetCompiledCode h => FBytes h
  | HGetESDTToken a t n => FToken a t n
  | HRevertToSnapshot n => FNum n
  | _ => FNone
  end.
Definition gateway_request (q : hook_q) : content := message (request_kind q) [] (request_fields q).

(** what each method returns when the messenger fails or the kind is wrong *)
Definition gateway_failed (q : hook_q) (t : bytes) : hook_ret q :=
  match q with
  | HNewAddress _ _ _ | HGetStorageData _ _ | HGetBlockhash _ => Bad t
  | HLastNonce | HLastRound | HLastTimeStamp | HLastEpoch
  | HCurrentNonce | HCurrentRound | HCurrentTimeStamp | HCurrentEpoch
  | HGetShardOfAddress _ | HGetSnapshot => 0
  | HLastRandomSeed | HGetStateRootHash | HCurrentRandomSeed | HGetCode _ => []
  | HProcessBuiltInFunction _ => Bad t
  | HGetBuiltinFunctionNames => []
  | HGetAllState _ => Bad t
  | HGetUserAccount _ => Bad t
  | HIsSmartContract _ => false
  | HIsPayable _ => Bad t
  | HSaveCompiledCode _ _ | HClearCompiledCodes => tt
  | HGetCompiledCode _ => (false, [])
  | HGetESDTToken _ _ _ => Bad t
  | HRevertToSnapshot _ => Bad t
  end.

Definition or_error {A} (e : option bytes) (a : A) : eres A := match e with Some t => Bad t | None => Good a end.

(** what each method takes out of the fields of the response; RevertToSnapshot
    does not look at the error in it (blockchainGateway.go, last function) *)
Definition gateway_result (q : hook_q) (e : option bytes) (f : fields) : option (hook_ret q) :=
  match q as q0 return option (hook_ret q0) with
  | HNewAddress _ _ _ | HGetStorageData _ _ | HGetBlockhash _ =>
      match f with FBytes d => Some (or_error e d) | _ => None end
  | HLastNonce | HLastRound | HLastTimeStamp | HLastEpoch
  | HCurrentNonce | HCurrentRound | HCurrentTimeStamp | HCurrentEpoch
  | HGetShardOfAddress _ | HGetSnapshot => match f with FNum n => Some n | _ => None end
  | HLastRandomSeed | HGetStateRootHash | HCurrentRandomSeed | HGetCode _ =>
      match f with FBytes d => Some d | _ => None end
  | HProcessBuiltInFunction _ =>
      match f with FOutput o => Some (or_error e (Some (ConvertToVMOutput o))) | _ => None end
  | HGetBuiltinFunctionNames => match f with FList l => Some l | _ => None end
  | HGetAllState _ => match f with FState s => Some (or_error e (ConvertToMap s)) | _ => None end
  | HGetUserAccount _ => match f with FAccount a => Some (or_error e (account_handler <$> a)) | _ => None end
  | HIsSmartContract _ => match f with FFlag b => Some b | _ => None end
  | HIsPayable _ => match f with FFlag b => Some (or_error e b) | _ => None end
  | HSaveCompiledCode _ _ | HClearCompiledCodes => Some tt
  | HGetCompiledCode _ => match f with FFound b d => Some (b, d) | _ => None end
  | HGetESDTToken _ _ _ => match f with FOption d => Some (or_error e d) | _ => None end
  | HRevertToSnapshot _ => Some (Good tt)
  end.

Definition ErrBadHookResponseFromNode : bytes := str "critical error: bad hook response from node".

(** Each gateway method, after SendHookCallRequest.  A response of the right kind
    whose fields are not those of its struct cannot arrive; it counts as a
    failure here. *)
Definition gateway_answer (q : hook_q) (r : ires content) : hook_ret q :=
  match r with
  | IErr e => gateway_failed q (text_of L e)
  | IOk c =>
      if g_kind c =? response_kind q then
        default (gateway_failed q ErrBadHookResponseFromNode) (unpack L (g_body c) ≫= gateway_result q (GetError c))
      else gateway_failed q ErrBadHookResponseFromNode
  end.

(** * The node *)

Section node.
Context {W : Type} (hook : forall q, W -> W * hook_ret q).

(** the method a request stands for, from its kind and fields
    (nodepart/part.go:37-66 and blockchainRepliers.go: each replier casts the
    request and takes its fields) *)
Definition requested (c : content) : option hook_q :=
  match unpack L (g_body c) with
  | None => None
  | Some f =>
    let k := g_kind c in
    if k =? KBlockchainNewAddressRequest then match f with FNewAddress a n t => Some (HNewAddress a n t) | _ => None end
    else if k =? KBlockchainGetStorageDataRequest then match f with FBytes2 a i => Some (HGetStorageData a i) | _ => None end
    else if k =? KBlockchainGetBlockhashRequest then match f with FNum n => Some (HGetBlockhash n) | _ => None end
    else if k =? KBlockchainLastNonceRequest then Some HLastNonce
    else if k =? KBlockchainLastRoundRequest then Some HLastRound
    else if k =? KBlockchainLastTimeStampRequest then Some HLastTimeStamp
    else if k =? KBlockchainLastRandomSeedRequest then Some HLastRandomSeed
    else if k =? KBlockchainLastEpochRequest then Some HLastEpoch
    else if k =? KBlockchainGetStateRootHashRequest then Some HGetStateRootHash
    else if k =? KBlockchainCurrentNonceRequest then Some HCurrentNonce
    else if k =? KBlockchainCurrentRoundRequest then Some HCurrentRound
    else if k =? KBlockchainCurrentTimeStampRequest then Some HCurrentTimeStamp
    else if k =? KBlockchainCurrentRandomSeedRequest then Some HCurrentRandomSeed
    else if k =? KBlockchainCurrentEpochRequest then Some HCurrentEpoch
    else if k =? KBlockchainProcessBuiltInFunctionRequest then match f with FBytes i => Some (HProcessBuiltInFunction i) | _ => None end
    else if k =? KBlockchainGetBuiltinFunctionNamesRequest then Some HGetBuiltinFunctionNames
    else if k =? KBlockchainGetAllStateRequest then match f with FBytes a => Some (HGetAllState a) | _ => None end
    else if k =? KBlockchainGetUserAccountRequest then match f with FBytes a => Some (HGetUserAccount a) | _ => None end
    else if k =? KBlockchainGetCodeRequest then match f with FAccount (Some a) => Some (HGetCode (account_handler a)) | _ => None end
    else if k =? KBlockchainGetShardOfAddressRequest then match f with FBytes a => Some (HGetShardOfAddress a) | _ => None end
    else if k =? KBlockchainIsSmartContractRequest then match f with FBytes a => Some (HIsSmartContract a) | _ => None end
    else if k =? KBlockchainIsPayableRequest then match f with FBytes a => Some (HIsPayable a) | _ => None end
    else if k =? KBlockchainSaveCompiledCodeRequest then match f with FBytes2 h c => Some (HSaveCompiledCode h c) | _ => None end
    else if k =? KBlockchainGetCompiledCodeRequest then match f with FBytes h => Some (HGetCompiledCode h) | _ => None end
    else if k =? KBlockchainClearCompiledCodesRequest then Some HClearCompiledCodes
    else if k =? KBlockchainGetESDTTokenRequest then match f with FToken a t n => Some (HGetESDTToken a t n) | _ => None end
    else if k =? KBlockchainGetSnapshotRequest then Some HGetSnapshot
    else if k =? KBlockchainRevertToSnapshotRequest then match f with FNum n => Some (HRevertToSnapshot n) | _ => None end
    else None
  end.

(** the value of a Go result whose error may be set: the zero value then *)
Definition value_or {A} (d : A) (r : eres A) : A := match r with Good a => a | Bad _ => d end.

(** blockchainRepliers.go and the constructors of messagesBlockchain.go: the
    fields of the response made from the method's result, and its error *)
Definition response_fields (q : hook_q) : hook_ret q -> fields :=
  match q as q0 return hook_ret q0 -> fields with
  | HNewAddress _ _ _ | HGetStorageData _ _ | HGetBlockhash _ => fun r => FBytes (value_or [] r)
  | HLastNonce | HLastRound | HLastTimeStamp | HLastEpoch
  | HCurrentNonce | HCurrentRound | HCurrentTimeStamp | HCurrentEpoch
  | HGetShardOfAddress _ | HGetSnapshot => fun n => FNum n
  | HLastRandomSeed | HGetStateRootHash | HCurrentRandomSeed | HGetCode _ => fun d => FBytes d
  | HProcessBuiltInFunction _ => fun r => FOutput (NewSerializableVMOutput (value_or None r))
  | HGetBuiltinFunctionNames => fun l => FList l
  | HGetAllState _ => fun r => FState (NewSerializableMapStringBytes (value_or ∅ r))
  | HGetUserAccount _ => fun r => FAccount (account_message <$> value_or None r)
  | HIsSmartContract _ => fun b => FFlag b
  | HIsPayable _ => fun r => FFlag (value_or false r)
  | HSaveCompiledCode _ _ | HClearCompiledCodes => fun _ => FNone
  | HGetCompiledCode _ => fun p => FFound (fst p) (snd p)
  | HGetESDTToken _ _ _ => fun r => FOption (value_or None r)
  | HRevertToSnapshot _ => fun _ => FNone
  end.
Definition response_error (q : hook_q) : hook_ret q -> bytes :=
  match q as q0 return hook_ret q0 -> bytes with
  | HNewAddress _ _ _ | HGetStorageData _ _ | HGetBlockhash _ => SetError
  | HProcessBuiltInFunction _ => SetError
  | HGetAllState _ => SetError
  | HGetUserAccount _ => SetError
  | HIsPayable _ => SetError
  | HGetESDTToken _ _ _ => SetError
  | HRevertToSnapshot _ => SetError
  | _ => fun _ => []
  end.
Definition node_response (q : hook_q) (a : hook_ret q) : content :=
  message (response_kind q) (response_error q a) (response_fields q a).

(** nodepart/part.go, replyToHookCallRequest, without the sending; a request
    without a replier gets an undefined message *)
Definition node_hook (w : W) (c : content) : W * content :=
  match requested c with
  | Some q => let '(w', a) := hook q w in (w', node_response q a)
  | None => (w, undefined_content)
  end.
End node.

(** * The virtual machine and the driver *)

(** RunSmartContractCall or Create of the host on Arwen's side, as seen from
    outside: questions to the hook, then a result. *)
Inductive machine : Type :=
| MDone (r : eres (option goutput))
| MAsk (q : hook_q) (k : hook_ret q -> machine).

(** messagesContracts.go:44-51 NewMessageContractResponse *)
Definition output_fields (r : eres (option goutput)) : fields := FOutput (NewSerializableVMOutput (value_or None r)).
Definition contract_response (r : eres (option goutput)) : content :=
  message KContractResponse (SetError r) (output_fields r).

(** arwenpart/part.go:102-112: the machine with the gateway for a hook *)
Fixpoint behind_gateway (m : machine) : talk :=
  match m with
  | MDone r => Say (contract_response r)
  | MAsk q k => Ask (gateway_request q) (fun r => behind_gateway (k (gateway_answer q r)))
  end.

(** nodepart/arwenDriver.go:250-286: what RunSmartContractCreate and
    RunSmartContractCall make of the response; [None] is a panic (another type
    of message).  The cast checks the Go type. *)
Definition driver_result (c : content) : option (eres (option goutput)) :=
  match g_type c with
  | TOf k =>
      if k =? KContractResponse then
        match unpack L (g_body c) with
        | Some (FOutput o) => Some (or_error (GetError c) (Some (ConvertToVMOutput o)))
        | _ => None
        end
      else None
  | _ => None
  end.
End conversions.
