(** The host: arwen/host/execution.go, asyncCall.go, breakpoints.go and the
    TransferESDT function of arwen/contexts/output.go.

    Definitions only.  The functions that run contract code take [run], which
    runs one exported function on the current instance and tells whether it
    returned normally, and [rd], the ExecuteOnDestContext used for the calls
    they make in turn; VmModel ties the knot. *)
From Verif Require Export CtxModel CallDataModel.

(** ExecuteOnDestContext returns an output (nil or not), the async info (nil or
    not) and an error (nil or not) at the same time *)
Definition ed_res : Type := option vm_output * option async_info * option err.
Definition edf : Type := call_input -> M ed_res.

Definition BuiltInFunctionESDTTransfer : bytes := str "ESDTTransfer".
Definition BuiltInFunctionESDTNFTTransfer : bytes := str "ESDTNFTTransfer".
Definition isESDTTransferName (f : bytes) : bool :=
  beq f BuiltInFunctionESDTTransfer || beq f BuiltInFunctionESDTNFTTransfer.

(** execution.go:424-427 isInitFunctionBeingCalled *)
Definition isInitName (f : bytes) : bool := beq f InitFunctionName || beq f InitFunctionNameEth.

(** * Built-in functions (execution.go:660-801, 918-994) *)

(** arguments[i], panicking out of range *)
Definition nth_arg (args : list bytes) (i : nat) : res bytes :=
  match args !! i with Some a => ROk a | None => RPanic end.

(** execution.go:975-994 fillWithESDTValue: the ESDT transfers of the new input *)
Definition fillWithESDTValue (full : call_input) : res (list esdt_transfer) :=
  if negb (isESDTTransferName (ci_fn full)) then ROk [] else
  let args := vi_args (ci_vm full) in
  name ← nth_arg args 0; a1 ← nth_arg args 1;
  if beq (ci_fn full) BuiltInFunctionESDTNFTTransfer then
    a2 ← nth_arg args 2;
    ROk [mkEsdt (be_decode a2) name 1 (u64 (be_decode a1))]
  else ROk [mkEsdt (be_decode a1) name 0 0].

(** execution.go:918-973 isSCExecutionAfterBuiltInFunc *)
Definition isSCExecutionAfterBuiltInFunc `{E : env} (i : call_input) (o : vm_output) : res (option call_input) :=
  if negb (bool_decide (o_code o = RcOk)) then ROk None else
  recipient ← (if beq (ci_fn i) BuiltInFunctionESDTNFTTransfer && beq (vi_caller (ci_vm i)) (ci_rcpt i)
               then nth_arg (vi_args (ci_vm i)) 3 else ROk (ci_rcpt i));
  if negb (AreInSameShard (vi_caller (ci_vm i)) recipient) then ROk None else
  if negb (e_isSC E recipient) then ROk None else
  match o_accounts o !! recipient with
  | None => ROk None
  | Some acc =>
      match oa_transfers acc with
      | [t] =>
          fa ← ParseData (ot_data t);
          let '(function, arguments) := fa in
          transfers ← fillWithESDTValue i;
          ROk (Some (mkCall (mkInput (vi_caller (ci_vm i)) arguments 0 (vi_ctype (ci_vm i))
                                     (vi_gasprice (ci_vm i)) (ot_gaslimit t) (ot_gaslocked t)
                                     transfers (vi_origtx (ci_vm i)) (vi_curtx (ci_vm i)) false)
                            recipient function false))
      | _ => ROk None
      end
  end.

(** execution.go:770-801 addOutputTransferToVMOutput *)
Definition addOutputTransferToVMOutput (function : bytes) (arguments : list bytes) (sender recipient : bytes)
    (ctype : call_type) (o : vm_output) : vm_output :=
  let t := mkTransfer 0 0 0 (makeCallData function arguments) ctype sender in
  let acc := default NewVMOutputAccount (o_accounts o !! recipient) in
  set_o_accounts (<[recipient := set_oa_transfers (oa_transfers acc ++ [t]) acc]> (o_accounts o)) o.

(** execution.go:745-768 addESDTTransferToVMOutputSCIntraShardCall *)
Definition addESDTTransferToVMOutputSCIntraShardCall `{E : env} (i : call_input) (o : vm_output) : vm_output :=
  if negb (bool_decide (o_code o = RcOk)) then o else
  if negb (AreInSameShard (ci_rcpt i) (vi_caller (ci_vm i))) then o else
  if negb (isESDTTransferName (ci_fn i)) then o else
  let args := vi_args (ci_vm i) in
  if beq (ci_fn i) BuiltInFunctionESDTNFTTransfer then
    match args with
    | [_; _; _; recipient] =>
        addOutputTransferToVMOutput (ci_fn i) args (vi_caller (ci_vm i)) recipient (vi_ctype (ci_vm i)) o
    | _ => o
    end
  else addOutputTransferToVMOutput (ci_fn i) args (vi_caller (ci_vm i)) (ci_rcpt i) (vi_ctype (ci_vm i)) o.

(** execution.go:729-733: the transfers are dropped when a contract runs after
    the built-in function *)
Definition dropTransfers (o : vm_output) : vm_output :=
  set_o_accounts (set_oa_transfers [] <$> o_accounts o) o.

(** execution.go:716-742 callBuiltinFunction *)
Definition callBuiltinFunction `{E : env} (i : call_input) : M (option call_input * vm_output) :=
  r <- try (ProcessBuiltInFunction i) ;;
  match r with
  | inr e => UseGas (vi_gas (ci_vm i)) ;;; fail e
  | inl o =>
      r <- try (lift (isSCExecutionAfterBuiltInFunc i o)) ;;
      match r with
      | inr e => UseGas (vi_gas (ci_vm i)) ;;; fail e
      | inl post =>
          let o := match post with Some _ => dropTransfers o | None => o end in
          TrackGasUsedByBuiltinFunction i o post ;;;
          ret (post, addESDTTransferToVMOutputSCIntraShardCall i o)
      end
  end.

(** execution.go:251-262 handleBuiltinFunctionCall (the returned output is the
    one before AddToActiveState adds the caller's deltas to it: nobody reads
    the deltas of the returned output) *)
Definition handleBuiltinFunctionCall `{E : env} (i : call_input) : M (option call_input * vm_output) :=
  '(post, o) <- callBuiltinFunction i ;;
  AddToActiveState o ;;;
  ret (post, o).

(** execution.go:696-700: gas carried by the transfers of an output *)
Definition subTransferGas (o : vm_output) (g : Z) : Z :=
  map_fold (fun _ x g => fold_left (fun g t => SubUint64 g (ot_gaslimit t)) (oa_transfers x) g) g (o_accounts o).

(** execution.go:660-714 ExecuteESDTTransfer *)
Definition ExecuteESDTTransfer `{E : env} (dest sender token : bytes) (nonce value : Z) (ctype : call_type) :
    M (vm_output * Z) :=
  gasPrice <- gets (fun h => vi_gasprice (r_input (h_rt h))) ;;
  gas <- GasLeft ;;
  let nft := 0 <? nonce in
  let args := if nft then [token; be_encode nonce; be_encode value; dest] else [token; be_encode value] in
  let i := mkCall (mkInput sender args 0 ctype gasPrice gas 0 [] [] [] false)
             (if nft then sender else dest)
             (if nft then BuiltInFunctionESDTNFTTransfer else BuiltInFunctionESDTTransfer) false in
  o <- ProcessBuiltInFunction i ;;
  fail_if (negb (bool_decide (o_code o = RcOk))) ErrExecutionFailed ;;;
  let gasConsumed := subTransferGas o (SubUint64 gas (o_gasrem o)) in
  (if bool_decide (ctype = AsynchronousCallBack) then ret tt else
   left <- GasLeft ;;
   fail_if (left <? gasConsumed) ErrNotEnoughGas ;;;
   UseGas gasConsumed) ;;;
  ret (o, gasConsumed).

(** output.go:305-388 TransferESDT *)
Definition TransferESDT `{E : env} (dest sender token : bytes) (nonce value : Z) (callInput : option call_input) : M Z :=
  let isSmartContract := e_isSC E dest in
  let sameShard := AreInSameShard sender dest in
  let isExecution := isSmartContract && bool_decide (is_Some callInput) in
  '(o, gasConsumedByTransfer) <- ExecuteESDTTransfer dest sender token nonce value
      (if isExecution then ESDTTransferAndExecute else DirectCall) ;;
  let provided := match callInput with Some c => vi_gas (ci_vm c) | None => 0 end in
  fail_if (isExecution && (provided <? gasConsumedByTransfer)) ErrNotEnoughGas ;;;
  let gasRemaining := if isExecution then provided - gasConsumedByTransfer else 0 in
  (if isExecution then
     left <- GasLeft ;;
     fail_if (left <? gasRemaining) ErrNotEnoughGas ;;;
     if sameShard then ret tt else UseGas gasRemaining
   else ret tt) ;;;
  GetOutputAccount dest ;;;
  let data :=
    if 0 <? nonce then
      let d := makeCallData BuiltInFunctionESDTNFTTransfer [token; be_encode nonce; be_encode value] in
      if sameShard then d ++ args_data [dest]
      else match o_accounts o !! dest with
           | Some x => match oa_transfers x with [t] => ot_data t | _ => d end
           | None => d
           end
    else makeCallData BuiltInFunctionESDTTransfer [token; be_encode value] in
  let data := match callInput with
              | Some c => data ++ args_data (ci_fn c :: vi_args (ci_vm c))
              | None => data end in
  let t := mkTransfer 0 (if sameShard then 0 else gasRemaining) 0 data DirectCall sender in
  upd_account dest (fun x => set_oa_transfers (oa_transfers x ++ [t]) x) ;;;
  modify (fun h => set_h_out (set_o_logs (o_logs (h_out h) ++ o_logs o) (h_out h)) h) ;;;
  ret gasRemaining.

(** * Asynchronous calls (asyncCall.go) *)

(** AsyncGeneratedCall as an AsyncCallInfoHandler: its GetGasLocked is 0
    (arwen/common.go:194-197) *)
Definition gen_handler (c : gen_call) : async_call :=
  mkAsync (gc_dest c) (gc_data c) (gc_limit c) 0 (gc_value c).

(** asyncCall.go:76-101 isESDTTransferOnReturnData... *)
Definition isESDTTransferCall (function : bytes) (args : list bytes) : bool :=
  (beq function BuiltInFunctionESDTTransfer && (length args =? 2)%nat)
  || (beq function BuiltInFunctionESDTNFTTransfer && (length args =? 4)%nat).
Definition isESDTTransferOnReturnData (o : vm_output) : option (bytes * list bytes) :=
  match o_retdata o with
  | [] => None
  | d :: _ => match ParseData d with
              | ROk (f, args) => if isESDTTransferCall f args then Some (f, args) else None
              | _ => None
              end
  end.

(** arwen/interface.go AsyncCallExecutionMode *)
Inductive async_mode := SyncCall | AsyncBuiltinFuncIntraShard | AsyncBuiltinFuncCrossShard
  | ESDTTransferOnCallBack | AsyncUnknown.
Global Instance async_mode_eq_dec : EqDecision async_mode.
Proof. solve_decision. Defined.

(** asyncCall.go:201-207 canExecuteSynchronously; also 127-132 *)
Definition hasCode `{E : env} (a : bytes) : M bool :=
  r <- try (GetCode a) ;;
  ret (match r with inl c => 0 <? blen c | inr _ => false end).

(** asyncCall.go:103-135 determineAsyncCallExecutionMode *)
Definition determineAsyncCallExecutionMode `{E : env} (c : async_call) : M async_mode :=
  '(function, args) <- lift (ParseData (ac_data c)) ;;
  f <- gets h_rt ;;
  let sameShard := AreInSameShard (r_addr f) (ac_dest c) in
  if e_isBuiltin E function then
    if sameShard then
      if isESDTTransferCall function args && bool_decide (vi_ctype (r_input f) = AsynchronousCall)
         && beq (vi_caller (r_input f)) (ac_dest c)
      then ret ESDTTransferOnCallBack else ret AsyncBuiltinFuncIntraShard
    else ret AsyncBuiltinFuncCrossShard
  else
  code <- hasCode (ac_dest c) ;;
  ret (if code then SyncCall else AsyncUnknown).

(** asyncCall.go:291-319 createDestinationContractCallInput *)
Definition createDestinationContractCallInput (c : async_call) : M call_input :=
  '(function, arguments) <- lift (ParseData (ac_data c)) ;;
  f <- gets h_rt ;;
  gas <- GasLeft ;;
  ret (mkCall (mkInput (r_addr f) arguments (be_decode (ac_value c)) AsynchronousCall
                       (vi_gasprice (r_input f)) gas (ac_locked c) []
                       (vi_origtx (r_input f)) (vi_curtx (r_input f)) false)
              (ac_dest c) function false).

(** asyncCall.go:321-346 computeCallValueFromLastOutputTransfer *)
Definition computeCallValueFromLastOutputTransfer `{E : env} (receiver : bytes) (o : vm_output) : Z :=
  if negb (e_v3 E) then 0 else
  match o_retdata o with
  | _ :: _ => 0
  | [] =>
      match o_accounts o !! receiver with
      | None => 0
      | Some x => match last (oa_transfers x) with
                  | Some t => if blen (ot_data t) =? 0 then ot_value t else 0
                  | None => 0
                  end
      end
  end.

(** asyncCall.go:445-457 computeDataLengthFromArguments *)
Definition computeDataLengthFromArguments (function : bytes) (args : list bytes) : Z :=
  i64 (fold_left (fun n a => AddUint64 n (blen a)) args
                 (AddUint64 (blen function) (Z.of_nat (length args)))).

(** asyncCall.go:348-422 createCallbackContractCallInput, with a non-nil
    asyncCallInfo *)
Definition createCallbackContractCallInput `{E : env} (c : async_call) (o : vm_output)
    (callbackInitiator callbackFunction : bytes) (destinationErr : option err) : M call_input :=
  f <- gets h_rt ;;
  let code := be_encode (rc_num (o_code o)) in
  let ok := bool_decide (destinationErr = None) && bool_decide (o_code o = RcOk) in
  let esdt := if ok then isESDTTransferOnReturnData o else None in
  let arguments := if ok then code :: o_retdata o else [code; o_msg o] in
  let gasLimit := u64 (o_gasrem o + ac_locked c) in
  let dataLength := computeDataLengthFromArguments callbackFunction arguments in
  let gasToUse := AddUint64 (e_cost E CAsyncCallStep) (MulUint64 (e_cost E DataCopyPerByte) (u64 dataLength)) in
  fail_if (gasLimit <=? gasToUse) ErrNotEnoughGas ;;;
  let args := match esdt with
              | Some (name, esdtArgs) => esdtArgs ++ [callbackFunction; code] ++ tail (o_retdata o)
              | None => arguments end in
  ret (mkCall (mkInput callbackInitiator args (computeCallValueFromLastOutputTransfer (r_addr f) o)
                       AsynchronousCallBack (vi_gasprice (r_input f)) (gasLimit - gasToUse) 0 []
                       (vi_origtx (r_input f)) (vi_curtx (r_input f)) (negb ok))
              (r_addr f)
              (match esdt with Some (name, _) => name | None => callbackFunction end) false).

(** asyncCall.go:137-160 executeSyncDestinationCall *)
Definition executeSyncDestinationCall (rd : edf) (c : async_call) : M (option vm_output * option err) :=
  r <- try (createDestinationContractCallInput c) ;;
  match r with
  | inr e => ret (None, Some e)
  | inl i => '(o, _, e) <- rd i ;; ret (o, e)
  end.

(** asyncCall.go:162-199 executeSyncCallbackCall; a nil destination output is
    dereferenced *)
Definition executeSyncCallbackCall `{E : env} (rd : edf) (c : async_call)
    (destOutput : option vm_output) (destErr : option err) : M (option vm_output * option err) :=
  match destOutput with
  | None => panic
  | Some o =>
      r <- try (createCallbackContractCallInput c o (ac_dest c) CallbackFunctionName destErr) ;;
      match r with
      | inr e => ret (None, Some e)
      | inl i =>
          RestoreGas (ac_locked c) ;;;
          '(o, _, e) <- rd i ;; ret (o, e)
      end
  end.

(** asyncCall.go:424-443 processCallbackVMOutput: always returns nil *)
Definition processCallbackVMOutput `{E : env} (callbackOutput : option vm_output) (callbackErr : option err) : M unit :=
  match callbackErr with
  | None => ret tt
  | Some e =>
      modify (fun h => set_h_rt (set_r_input (set_vi_gas 0 (r_input (h_rt h))) (h_rt h)) h) ;;;
      o <- match callbackOutput with Some o => ret o | None => CreateVMOutputInCaseOfError e end ;;
      SetReturnMessage (o_msg o) ;;;
      Finish (e_codestr E (o_code o)) ;;;
      hash <- gets (fun h => vi_curtx (r_input (h_rt h))) ;;
      Finish hash
  end.

(** asyncCall.go:209-233 sendAsyncCallToDestination *)
Definition sendAsyncCallToDestination `{E : env} (c : async_call) : M unit :=
  a <- gets (fun h => r_addr (h_rt h)) ;;
  r <- try (Transfer (ac_dest c) a (ac_limit c) (ac_locked c) (be_decode (ac_value c)) (ac_data c) AsynchronousCall) ;;
  g <- GasLeft ;;
  UseGas g ;;;
  match r with
  | inr e => FailExecution e ;;; fail e
  | inl _ => ret tt
  end.

(** asyncCall.go:236-265 sendCallbackToCurrentCaller *)
Definition sendCallbackToCurrentCaller `{E : env} : M unit :=
  f <- gets h_rt ;;
  o <- gets h_out ;;
  let retData := args_data (e_codestr E (o_code o) :: o_retdata o) in
  gas <- GasLeft ;;
  r <- try (Transfer (vi_caller (r_input f)) (r_addr f) gas 0 (vi_value (r_input f)) retData AsynchronousCallBack) ;;
  g <- GasLeft ;;
  UseGas g ;;;
  match r with
  | inr e => FailExecution e ;;; fail e
  | inl _ => ret tt
  end.

(** asyncCall.go:267-289 sendStorageCallbackToDestination *)
Definition sendStorageCallbackToDestination `{E : env} (callerAddress returnData : bytes) : M unit :=
  f <- gets h_rt ;;
  gas <- GasLeft ;;
  r <- try (Transfer callerAddress (r_addr f) gas 0 (vi_value (r_input f)) returnData AsynchronousCallBack) ;;
  match r with
  | inr e => g <- GasLeft ;; UseGas g ;;; FailExecution e ;;; fail e
  | inl _ => ret tt
  end.

(** asyncCall.go:16-74 handleAsyncCallBreakpoint *)
Definition handleAsyncCallBreakpoint `{E : env} (rd : edf) : M unit :=
  SetRuntimeBreakpointValue BreakpointNone ;;;
  ci <- gets (fun h => r_async (h_rt h)) ;;
  match ci with
  | None => panic (* nil asyncCallInfo *)
  | Some c =>
      mode <- determineAsyncCallExecutionMode c ;;
      match mode with
      | AsyncUnknown => sendAsyncCallToDestination c
      | AsyncBuiltinFuncCrossShard =>
          '(_, e) <- executeSyncDestinationCall rd c ;;
          match e with Some e => fail e | None => ret tt end
      | ESDTTransferOnCallBack =>
          PrependFinish (ac_data c) ;;; RestoreGas (ac_locked c)
      | SyncCall | AsyncBuiltinFuncIntraShard =>
          '(destOutput, destErr) <- executeSyncDestinationCall rd c ;;
          '(cbOutput, cbErr) <- executeSyncCallbackCall rd c destOutput destErr ;;
          processCallbackVMOutput cbOutput cbErr
      end
  end.

(** breakpoints.go:7-39 handleBreakpointIfAny, after an execution error *)
Definition handleBreakpoint `{E : env} (rd : edf) : M unit :=
  bp <- GetRuntimeBreakpointValue ;;
  if bp =? BreakpointNone then fail ErrExecutionFailed else
  if bp =? BreakpointAsyncCall then handleAsyncCallBreakpoint rd else
  if bp =? BreakpointExecutionFailed then fail ErrExecutionFailed else
  if bp =? BreakpointSignalError then fail ErrSignalError else
  if bp =? BreakpointOutOfGas then fail ErrNotEnoughGas else
  fail ErrUnhandledRuntimeBreakpoint.

(** [_, err = function(); if err != nil { err = host.handleBreakpointIfAny(err) }] *)
Definition callFunction `{E : env} (run : prog -> M bool) (rd : edf) (p : prog) : M unit :=
  ok <- run p ;; if ok : bool then ret tt else handleBreakpoint rd.

(** ** Async contexts *)

(** all calls, as (context identifier, position), the contexts in map order *)
Definition async_calls `{E : env} (m : gmap bytes async_ctx) : list (bytes * nat * gen_call) :=
  e_order E (map fst (map_to_list m)) ≫= (fun id =>
    match m !! id with
    | Some ctx => imap (fun i c => (id, i, c)) (ax_calls ctx)
    | None => []
    end).

(** assignment to a field of a call *)
Definition upd_call (id : bytes) (i : nat) (f : gen_call -> gen_call) (m : gmap bytes async_ctx) : gmap bytes async_ctx :=
  alter (fun ctx => set_ax_calls (alter f i (ax_calls ctx)) ctx) id m.

(** asyncCall.go:766-788: the first loop of setupAsyncCallsGas; returns the gas
    needed and the number of calls with no gas given *)
Fixpoint asyncGasNeeded (gasLeft : Z) (calls : list gen_call) (needed zeros : Z) : res (Z * Z) :=
  match calls with
  | [] => ROk (needed, zeros)
  | c :: cs =>
      let '(needed, err) := AddUint64WithErr needed (gc_provided c) in
      if err : bool then RErr ErrOverflow else
      if gasLeft <? needed then RErr ErrNotEnoughGas else
      asyncGasNeeded gasLeft cs needed (if gc_provided c =? 0 then zeros + 1 else zeros)
  end.

(** asyncCall.go:761-805 setupAsyncCallsGas on the contexts [m] *)
Definition setupAsyncCallsGas `{E : env} (gasLeft : Z) (m : gmap bytes async_ctx) : res (gmap bytes async_ctx) :=
  nz ← asyncGasNeeded gasLeft (map snd (async_calls m)) 0 0;
  let '(needed, zeros) := nz in
  let set f := (fun ctx => set_ax_calls (f <$> ax_calls ctx) ctx) <$> m in
  if zeros =? 0 then ROk (set (fun c => set_gc_limit (gc_provided c) c)) else
  if gasLeft <=? needed then RErr ErrNotEnoughGas else
  let share := (gasLeft - needed) `div` zeros in
  ROk (set (fun c => set_gc_limit (if gc_provided c =? 0 then share else gc_provided c) c)).

(** asyncCall.go:627-655 getPendingAsyncCalls *)
Definition getPendingAsyncCalls (i : async_info) : async_info :=
  set_ai_map (omap (fun ctx =>
    match filter (fun c => gc_status c = AsPending) (ax_calls ctx) with
    | [] => None
    | calls => Some (mkActx (ax_callback ctx) calls)
    end) (ai_map i)) i.

(** asyncCall.go:539-566 callbackAsync; returns the new status of the call *)
Definition callbackAsync `{E : env} (rd : edf) (set_status : async_status -> M unit) (c : gen_call)
    (o : vm_output) (executionErr : option err) : M unit :=
  let ok := bool_decide (o_code o = RcOk) in
  set_status (if ok then AsResolved else AsRejected) ;;;
  i <- createCallbackContractCallInput (gen_handler c) o (gc_dest c)
         (if ok then gc_success c else gc_error c) executionErr ;;
  '(cbOutput, _, cbErr) <- rd i ;;
  processCallbackVMOutput cbOutput cbErr.

(** asyncCall.go:524-534 processAsyncCall: the error of
    createDestinationContractCallInput is ignored (the nil input is then
    dereferenced); a nil async info is dereferenced *)
Definition processAsyncCall `{E : env} (rd : edf) (set_status : async_status -> M unit) (c : gen_call) : M unit :=
  r <- try (createDestinationContractCallInput (gen_handler c)) ;;
  match r with
  | inr _ => panic
  | inl i =>
      '(o, info, e) <- rd i ;;
      match info with
      | None => panic
      | Some info =>
          if bool_decide (ai_map (getPendingAsyncCalls info) = ∅)
          then match o with Some o => callbackAsync rd set_status c o e | None => panic end
          else match e with Some e => fail e | None => ret tt end
      end
  end.

(** asyncCall.go:571-591 savePendingAsyncCalls *)
Definition savePendingAsyncCalls `{E : env} (p : async_info) : M unit :=
  if bool_decide (ai_map p = ∅) then ret tt else
  hash <- gets (fun h => vi_origtx (r_input (h_rt h))) ;;
  SetProtectedStorage (CustomStorageKey AsyncDataPrefix hash) (e_marshal E p) ;;;
  ret tt.

Definition set_actx_map (f : gmap bytes async_ctx -> gmap bytes async_ctx) : M unit :=
  modify (fun h => let info := r_actx (h_rt h) in
                   set_h_rt (set_r_actx (set_ai_map (f (ai_map info)) info) (h_rt h)) h).

(** asyncCall.go:480-492: the calls that can be executed here *)
Fixpoint processAsyncCalls `{E : env} (rd : edf) (calls : list (bytes * nat * gen_call)) : M unit :=
  match calls with
  | [] => ret tt
  | (id, i, c) :: cs =>
      can <- hasCode (gc_dest c) ;;
      (if can : bool
       then processAsyncCall rd (fun s => set_actx_map (upd_call id i (set_gc_status s))) c
       else ret tt) ;;;
      processAsyncCalls rd cs
  end.

(** asyncCall.go:507-516: the other ones are sent *)
Fixpoint sendAsyncCalls `{E : env} (calls : list gen_call) : M unit :=
  match calls with
  | [] => ret tt
  | c :: cs =>
      can <- hasCode (gc_dest c) ;;
      (if can : bool then ret tt else sendAsyncCallToDestination (gen_handler c)) ;;;
      sendAsyncCalls cs
  end.

(** asyncCall.go:469-519 processAsyncInfo, on the async info of the running
    frame (which is what every caller passes); returns the pending calls *)
Definition processAsyncInfo `{E : env} (rd : edf) : M async_info :=
  info <- gets (fun h => r_actx (h_rt h)) ;;
  if bool_decide (ai_map info = ∅) then ret info else
  left <- GasLeft ;;
  m <- lift (setupAsyncCallsGas left (ai_map info)) ;;
  set_actx_map (fun _ => m) ;;;
  processAsyncCalls rd (async_calls m) ;;;
  pending <- gets (fun h => getPendingAsyncCalls (r_actx (h_rt h))) ;;
  if bool_decide (ai_map pending = ∅) then ret pending else
  savePendingAsyncCalls pending ;;;
  left <- GasLeft ;;
  m <- lift (setupAsyncCallsGas left (ai_map pending)) ;;
  sendAsyncCalls (map snd (async_calls m)) ;;;
  ret (set_ai_map m pending).

(** asyncCall.go:845-862 getCurrentAsyncInfo and 667-677: what the async cell of
    the transaction holds *)
Definition readAsyncCell `{E : env} : M (bytes * bytes) :=
  hash <- gets (fun h => vi_origtx (r_input (h_rt h))) ;;
  let key := CustomStorageKey AsyncDataPrefix hash in
  buff <- GetStorageUnmetered key ;;
  ret (key, buff).

(** the position of the first call to [dest] *)
Fixpoint find_dest (dest : bytes) (i : nat) (calls : list gen_call) : option (nat * gen_call) :=
  match calls with
  | [] => None
  | c :: cs => if beq dest (gc_dest c) then Some (i, c) else find_dest dest (S i) cs
  end.

(** asyncCall.go:682-695: search for the context of the callback; stops at the
    first match whose context identifier is not empty *)
Fixpoint find_context (m : gmap bytes async_ctx) (dest : bytes) (ids : list bytes) : option bytes :=
  match ids with
  | [] => None
  | id :: ids' =>
      match m !! id with
      | Some ctx => match find_dest dest 0 (ax_calls ctx) with
                    | Some _ => if 0 <? blen id then Some id else find_context m dest ids'
                    | None => find_context m dest ids' end
      | None => find_context m dest ids'
      end
  end.

(** asyncCall.go:663-754 processCallbackStack.  The shortened list of calls is a
    local variable in the source: only its emptiness matters. *)
Definition processCallbackStack `{E : env} : M unit :=
  '(key, buff) <- readAsyncCell ;;
  if blen buff =? 0 then ret tt else
  info <- lift (e_unmarshal E buff) ;;
  caller <- gets (fun h => vi_caller (r_input (h_rt h))) ;;
  let m := ai_map info in
  match find_context m caller (e_order E (map fst (map_to_list m))) with
  | None => fail ErrCallBackFuncNotExpected
  | Some id =>
      let calls := match m !! id with Some ctx => ax_calls ctx | None => [] end in
      let m := if (length calls - 1 =? 0)%nat then delete id m else m in
      if negb (bool_decide (m = ∅)) then ret tt else
      SetProtectedStorage key [] ;;;
      can <- hasCode (ai_caller info) ;;
      if negb can then sendStorageCallbackToDestination (ai_caller info) (ai_retdata info) else
      (* createCallbackContractCallInput(nil, ...) dereferences its nil argument *)
      GetVMOutput ;;; panic
  end.

(** asyncCall.go:807-843 getFunctionByCallType; [None] is the nil function *)
Fixpoint find_custom (m : gmap bytes async_ctx) (dest : bytes) (ids : list bytes) : option bytes :=
  match ids with
  | [] => None
  | id :: ids' =>
      match m !! id with
      | Some ctx => match find_dest dest 0 (ax_calls ctx) with
                    | Some (_, c) => Some (gc_success c)
                    | None => find_custom m dest ids' end
      | None => find_custom m dest ids'
      end
  end.
Definition getFunctionByCallType `{E : env} (ctype : call_type) : M (option prog) :=
  if negb (bool_decide (ctype = AsynchronousCallBack)) then p <- GetFunctionToCall ;; ret (Some p) else
  '(_, buff) <- readAsyncCell ;;
  m <- (if blen buff =? 0 then ret ∅ else info <- lift (e_unmarshal E buff) ;; ret (ai_map info)) ;;
  caller <- gets (fun h => vi_caller (r_input (h_rt h))) ;;
  let custom := find_custom m caller (e_order E (map fst (map_to_list m))) in
  match custom with
  | Some name => modify (fun h => set_h_rt (set_r_fn name (h_rt h)) h)
  | None => ret tt
  end ;;;
  r <- try GetFunctionToCall ;;
  match r, custom with
  | inl p, _ => ret (Some p)
  | inr _, Some _ => ret None
  | inr _, None => fail ErrNilCallbackFunction
  end.

(** * Running contracts (execution.go) *)

(** execution.go:803-814 checkFinalGasAfterExit *)
Definition checkFinalGasAfterExit `{E : env} : M unit :=
  if negb (e_v2 E) then ret tt else
  p <- GetPointsUsed ;;
  limit <- gets (fun h => mt_forexec (h_met h)) ;;
  fail_if (limit <? p) ErrNotEnoughGas.

(** execution.go:816-833 callInitFunction *)
Definition callInitFunction `{E : env} (run : prog -> M bool) (rd : edf) : M unit :=
  init <- GetInitFunction ;;
  match init with
  | None => ret tt
  | Some p => callFunction run rd p ;;; checkFinalGasAfterExit
  end.

(** execution.go:900-916 verifyAllowedFunctionCall *)
Definition verifyAllowedFunctionCall : M unit :=
  f <- gets h_rt ;;
  fail_if (isInitName (r_fn f)) ErrInitFuncCalledInRun ;;;
  fail_if (beq (r_fn f) CallbackFunctionName
           && negb (bool_decide (vi_ctype (r_input f) = AsynchronousCallBack))) ErrCallBackFuncCalledInRun.

(** execution.go:835-898 callSCMethod *)
Definition callSCMethod `{E : env} (run : prog -> M bool) (rd : edf) : M unit :=
  verifyAllowedFunctionCall ;;;
  ctype <- gets (fun h => vi_ctype (r_input (h_rt h))) ;;
  r <- try (getFunctionByCallType ctype) ;;
  match r with
  | inr e =>
      if bool_decide (ctype = AsynchronousCallBack) && err_is e ErrNilCallbackFunction
      then processCallbackStack else fail e
  | inl None => panic
  | inl (Some p) =>
      callFunction run rd p ;;;
      checkFinalGasAfterExit ;;;
      match ctype with
      | AsynchronousCall =>
          pending <- processAsyncInfo rd ;;
          if bool_decide (ai_map pending = ∅) then sendCallbackToCurrentCaller else ret tt
      | AsynchronousCallBack => processCallbackStack
      | _ => processAsyncInfo rd ;;; ret tt
      end
  end.

(** execution.go:641-656 callSCMethodIndirect *)
Definition callSCMethodIndirect `{E : env} (run : prog -> M bool) (rd : edf) : M unit :=
  r <- try GetFunctionToCall ;;
  match r with
  | inr e => if err_is e ErrNilCallbackFunction then ret tt else fail e
  | inl p => callFunction run rd p
  end.

(** execution.go:510-530 checkUpgradePermission *)
Definition checkUpgradePermission `{E : env} (w : world) (i : call_input) : res unit :=
  u ← GetUserAccount w (ci_rcpt i);
  match u with
  | None => RErr ErrNilContract
  | Some u =>
      if meta_upgradeable (ua_meta u) && beq (vi_caller (ci_vm i)) (ua_owner u)
      then ROk tt else RErr ErrUpgradeNotAllowed
  end.

(** replacing the error of [m] *)
Definition map_err {A} (m : M A) (f : err -> err) : M A :=
  r <- try m ;; match r with inl a => ret a | inr e => fail (f e) end.

(** [err = m; if err != nil { output.SetReturnCode(OutOfGas); return err }] *)
Definition orOutOfGas (m : M unit) : M unit :=
  r <- try m ;; match r with inl _ => ret tt | inr e => SetReturnCode RcOutOfGas ;;; fail e end.

(** runtime.go:288-291 MustVerifyNextContractCode *)
Definition MustVerifyNextContractCode : M unit := modify (set_h_verify true).

Definition GetGasForExecution : M Z := gets (fun h => mt_forexec (h_met h)).

(** the common part of execution.go:62-90 performCodeDeployment and 534-579
    executeUpgrade, up to DeployCode *)
Definition deployContract `{E : env} (run : prog -> M bool) (rd : edf) (d : deploy_input) : M unit :=
  orOutOfGas (DeductInitialGasForDirectDeployment d) ;;;
  MustVerifyNextContractCode ;;;
  g <- GetGasForExecution ;;
  map_err (StartWasmerInstance (di_code d) g true) (fun _ => ErrContractInvalid) ;;;
  callInitFunction run rd ;;;
  DeployCode d.

Definition failIfReturnCodeNotOk : M unit :=
  c <- gets (fun h => o_code (h_out h)) ;;
  fail_if (negb (bool_decide (c = RcOk))) ErrReturnCodeNotOk.

(** execution.go:534-579 executeUpgrade *)
Definition executeUpgrade `{E : env} (run : prog -> M bool) (rd : edf) (i : call_input) : M unit :=
  w <- gets h_world ;;
  lift (checkUpgradePermission w i) ;;;
  '(code, meta) <- ExtractCodeUpgradeFromArgs ;;
  deployContract run rd (mkDeploy code meta (ci_rcpt i) (vi_caller (ci_vm i))) ;;;
  failIfReturnCodeNotOk.

(** execution.go:595-639 execute *)
Definition execute `{E : env} (run : prog -> M bool) (rd : edf) (i : call_input) : M unit :=
  fn <- gets (fun h => r_fn (h_rt h)) ;;
  fail_if (isInitName fn && negb (ci_init i)) ErrInitFuncCalledInRun ;;;
  UseGas (vi_gas (ci_vm i)) ;;;
  if beq (ci_fn i) UpgradeFunctionName then executeUpgrade run rd i else
  contract <- GetSCCode ;;
  DeductInitialGasForExecution contract ;;;
  g <- GetGasForExecution ;;
  StartWasmerInstance contract g false ;;;
  callSCMethodIndirect run rd ;;;
  failIfReturnCodeNotOk.

(** execution.go:201-216 copyTxHashesFromContext (the previous hash is not modelled) *)
Definition copyTxHashesFromContext `{E : env} (current : vm_input) (i : call_input) : call_input :=
  if negb (e_esdt E) then i else
  let v := ci_vm i in
  let v := if 0 <? blen (vi_origtx current) then set_vi_origtx (vi_origtx current) v else v in
  let v := if 0 <? blen (vi_curtx current) then set_vi_curtx (vi_curtx current) v else v in
  set_ci_vm v i.

(** execution.go:311-348 finishExecuteOnDestContext *)
Definition finishExecuteOnDestContext `{E : env} (executeErr : option err) : M vm_output :=
  o <- match executeErr with
       | Some e => CreateVMOutputInCaseOfError e
       | None => GetVMOutput
       end ;;
  bigint_PopSetActiveState ;;;
  storage_PopSetActiveState ;;;
  (if bool_decide (o_code o = RcOk)
   then metering_PopMergeActiveState ;;; output_PopMergeActiveState
   else metering_PopSetActiveState ;;; output_PopSetActiveState) ;;;
  runtime_PopSetActiveState ;;;
  RestoreGas (o_gasrem o) ;;;
  ret o.

(** execution.go:264-309 executeOnDestContextNoBuiltinFunction: the pushes *)
Definition pushDest `{E : env} (i : call_input) : M call_input :=
  bigint_PushState ;;;
  bigint_InitState ;;;
  output_PushState ;;;
  CensorVMOutput ;;;
  current <- gets (fun h => r_input (h_rt h)) ;;
  let i := copyTxHashesFromContext current i in
  runtime_PushState ;;;
  runtime_InitStateFromContractCallInput i ;;;
  metering_PushState ;;;
  v <- metering_InitStateFromContractCallInput (ci_vm i) ;;
  let i := set_ci_vm v i in
  storage_PushState ;;;
  a <- gets (fun h => r_addr (h_rt h)) ;;
  storage_SetAddress a ;;;
  ret i.

(** ... the transfer, the execution and the async calls: the async info as of
    the end (nil when the execution failed), and the error *)
Definition destBody `{E : env} (run : prog -> M bool) (rd : edf) (i : call_input) :
    M (option async_info * option err) :=
  r <- try ((if negb (bool_decide (vi_ctype (ci_vm i) = AsynchronousCallBack)) || (vi_value (ci_vm i) =? 0)
             then TransferValueOnly (ci_rcpt i) (vi_caller (ci_vm i)) (vi_value (ci_vm i)) false
             else ret tt) ;;;
            execute run rd i) ;;
  match r with
  | inr e => ret (None, Some e)
  | inl _ =>
      r <- try (processAsyncInfo rd) ;;
      info <- gets (fun h => r_actx (h_rt h)) ;;
      ret (Some info, match r with inl _ => None | inr e => Some e end)
  end.

Definition executeOnDestContextNoBuiltinFunction `{E : env} (run : prog -> M bool) (rd : edf) (i : call_input) : M ed_res :=
  i <- pushDest i ;;
  deferring (destBody run rd i)
    (fun r =>
       let '(info, e) := match r with inl x => x | inr e => (None, Some e) end in
       o <- finishExecuteOnDestContext e ;;
       ret (Some o, info,
            match e with
            | Some e => Some e
            | None => if bool_decide (o_code o = RcOk) then None else Some ErrExecutionFailed
            end))
    (finishExecuteOnDestContext None ;;; ret tt).

(** execution.go:220-249 ExecuteOnDestContext *)
Definition ExecuteOnDestContext `{E : env} (run : prog -> M bool) (rd : edf) (i : call_input) : M ed_res :=
  blockchain_PushState ;;;
  r <- (if e_isBuiltin E (ci_fn i) then
          r <- try (handleBuiltinFunctionCall i) ;;
          match r with
          | inl (post, o) => ret (inl (post, Some o))
          | inr e => ret (inr e)
          end
        else ret (inl (Some i, None))) ;;
  match r with
  | inr e =>
      blockchain_PopSetActiveState ;;;
      o <- CreateVMOutputInCaseOfError e ;;
      ret (Some o, None, Some e)
  | inl (post, o) =>
      '(o, info, e) <- match post with
                       | Some i => executeOnDestContextNoBuiltinFunction run rd i
                       | None => ret (o, None, None)
                       end ;;
      match e with
      | Some _ => blockchain_PopSetActiveState
      | None => blockchain_PopDiscard
      end ;;;
      ret (o, info, e)
  end.

(** execution.go:396-422 finishExecuteOnSameContext *)
Definition finishExecuteOnSameContext `{E : env} (executeErr : option err) : M unit :=
  code <- gets (fun h => o_code (h_out h)) ;;
  if negb (bool_decide (code = RcOk)) || bool_decide (is_Some executeErr) then
    bigint_PopSetActiveState ;;;
    metering_PopSetActiveState ;;;
    output_PopSetActiveState ;;;
    runtime_PopSetActiveState ;;;
    blockchain_PopSetActiveState
  else
  o <- GetVMOutput ;;
  metering_PopMergeActiveState ;;;
  output_PopDiscard ;;;
  bigint_PopDiscard ;;;
  blockchain_PopDiscard ;;;
  runtime_PopSetActiveState ;;;
  RestoreGas (o_gasrem o).

(** execution.go:352-394 ExecuteOnSameContext; the async info it returns is
    ignored by its callers *)
Definition ExecuteOnSameContext `{E : env} (run : prog -> M bool) (rd : edf) (i : call_input) : M unit :=
  fail_if (e_isBuiltin E (ci_fn i)) ErrBuiltinCallOnSameContextDisallowed ;;;
  bigint_PushState ;;;
  output_PushState ;;;
  current <- gets (fun h => r_input (h_rt h)) ;;
  let i := copyTxHashesFromContext current i in
  runtime_PushState ;;;
  runtime_InitStateFromContractCallInput i ;;;
  metering_PushState ;;;
  v <- metering_InitStateFromContractCallInput (ci_vm i) ;;
  let i := set_ci_vm v i in
  blockchain_PushState ;;;
  deferring (TransferValueOnly (ci_rcpt i) (vi_caller (ci_vm i)) (vi_value (ci_vm i)) false ;;;
             execute run rd i)
    (fun r => match r with
              | inl _ => finishExecuteOnSameContext None
              | inr e => finishExecuteOnSameContext (Some e) ;;; fail e
              end)
    (finishExecuteOnSameContext None).

(** execution.go:445-508 CreateNewContract *)
Definition CreateNewContract `{E : env} (ed : edf) (i : create_input) : M bytes :=
  let d := mkDeploy (cc_code i) (cc_meta i) [] (vi_caller (cc_vm i)) in
  DeductInitialGasForIndirectDeployment d ;;;
  ro <- gets (fun h => r_ro (h_rt h)) ;;
  fail_if ro ErrInvalidCallOnReadOnlyMode ;;;
  a <- NewAddress (vi_caller (cc_vm i)) ;;
  exists_ <- gets (fun h => AccountExists h a) ;;
  fail_if exists_ ErrDeploymentOverExistingAccount ;;;
  DeployCode (mkDeploy (cc_code i) (cc_meta i) a (vi_caller (cc_vm i))) ;;;
  MustVerifyNextContractCode ;;;
  '(_, _, e) <- ed (mkCall (cc_vm i) a InitFunctionName true) ;;
  match e with
  | Some e => DeleteOutputAccount a ;;; fail e
  | None => IncreaseNonce (vi_caller (cc_vm i)) ;;; ret a
  end.

(** * Transactions (execution.go:17-199, arwen.go:252-379) *)

(** arwen.go:271-289 initContexts: the blockchain's snapshot stack and the
    runtime's instance stack are not cleared.  storage.go InitState does
    nothing; output.go:37-41 InitState clears the code updates. *)
Definition initContexts : M unit :=
  modify (fun h =>
    set_h_bigst [] (set_h_outst [] (set_h_metst [] (set_h_rtst [] (set_h_stost []
      (set_h_big ∅ (set_h_out newVMOutput (set_h_codeupd ∅ (set_h_met metering0
        (set_h_rt frame0 (set_h_verify false h))))))))))).

(** [if err != nil { return output.CreateVMOutputInCaseOfError(err) }] *)
Definition orErrorOutput `{E : env} (m : M vm_output) : M vm_output :=
  r <- try m ;;
  match r with inl o => ret o | inr e => CreateVMOutputInCaseOfError e end.

(** host.Clean(), deferred *)
Definition cleaning {A} (m : M A) : M A :=
  deferring m (fun r => CleanWasmerInstance ;;; match r with inl a => ret a | inr e => fail e end)
    CleanWasmerInstance.

(** execution.go:62-90 performCodeDeployment *)
Definition performCodeDeployment `{E : env} (run : prog -> M bool) (rd : edf) (d : deploy_input) : M vm_output :=
  deployContract run rd d ;;;
  o <- GetVMOutput ;;
  CleanWasmerInstance ;;;
  ret o.

(** execution.go:17-60 doRunSmartContractCreate *)
Definition doRunSmartContractCreate `{E : env} (run : prog -> M bool) (rd : edf) (i : create_input) : M vm_output :=
  initContexts ;;;
  cleaning (orErrorOutput (
    let v := cc_vm i in
    a <- NewAddress (vi_caller v) ;;
    modify (fun h => set_h_rt (set_r_addr a (set_r_input v (h_rt h))) h) ;;;
    metering_InitStateFromContractCallInput v ;;;
    AddTxValueToAccount a (vi_value v) ;;;
    storage_SetAddress a ;;;
    performCodeDeployment run rd (mkDeploy (cc_code i) (cc_meta i) a (vi_caller v)))).

(** execution.go:93-129 doRunSmartContractUpgrade *)
Definition doRunSmartContractUpgrade `{E : env} (run : prog -> M bool) (rd : edf) (i : call_input) : M vm_output :=
  initContexts ;;;
  cleaning (orErrorOutput (
    runtime_InitStateFromContractCallInput i ;;;
    metering_InitStateFromContractCallInput (ci_vm i) ;;;
    AddTxValueToAccount (ci_rcpt i) (vi_value (ci_vm i)) ;;;
    storage_SetAddress (ci_rcpt i) ;;;
    '(code, meta) <- ExtractCodeUpgradeFromArgs ;;
    performCodeDeployment run rd (mkDeploy code meta (ci_rcpt i) (vi_caller (ci_vm i))))).

(** execution.go:131-142 checkGasForGetCode, on the input as mutated by metering *)
Definition checkGasForGetCode `{E : env} (v : vm_input) : M unit :=
  fail_if (e_v2 E && (vi_gas v <? e_cost E GetCodeCost)) ErrNotEnoughGas.

(** execution.go:144-199 doRunSmartContractCall *)
Definition doRunSmartContractCall `{E : env} (run : prog -> M bool) (rd : edf) (i : call_input) : M vm_output :=
  initContexts ;;;
  cleaning (orErrorOutput (
    runtime_InitStateFromContractCallInput i ;;;
    v <- metering_InitStateFromContractCallInput (ci_vm i) ;;
    AddTxValueToAccount (ci_rcpt i) (vi_value (ci_vm i)) ;;;
    storage_SetAddress (ci_rcpt i) ;;;
    checkGasForGetCode v ;;;
    contract <- map_err GetSCCode (fun _ => ErrContractNotFound) ;;
    map_err (DeductInitialGasForExecution contract) (fun _ => ErrNotEnoughGas) ;;;
    g <- GetGasForExecution ;;
    map_err (StartWasmerInstance contract g false) (fun _ => ErrContractInvalid) ;;;
    callSCMethod run rd ;;;
    o <- GetVMOutput ;;
    CleanWasmerInstance ;;;
    ret o)).

(** arwen.go:345-379 RunSmartContractCall, inside TryCatch *)
Definition RunSmartContractCallIn `{E : env} (run : prog -> M bool) (rd : edf) (i : call_input) : M vm_output :=
  if beq (ci_fn i) UpgradeFunctionName then doRunSmartContractUpgrade run rd i
  else doRunSmartContractCall run rd i.
