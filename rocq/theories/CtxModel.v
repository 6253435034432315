(** The contexts of the virtual machine host: arwen/contexts/*.go.

    Definitions only; each cites the Go function it follows. *)
From Verif Require Export VmTypes.

(** * Common helpers *)

(** bytes.Equal *)
Definition beq (a b : bytes) : bool := bool_decide (a = b).

(** bytes.HasPrefix(s, p) *)
Fixpoint has_prefix (p s : bytes) : bool :=
  match p, s with
  | [], _ => true
  | x :: p', y :: s' => bool_decide (x = y) && has_prefix p' s'
  | _ :: _, [] => false
  end.

(** arwen/common.go:53-66, 91-100: constants. *)
Definition CallbackFunctionName : bytes := str "callBack".
Definition ProtectedStoragePrefix : bytes := str "ARWEN@".
Definition TimeLockKeyPrefix : bytes := str "ARWEN@TIMELOCK".
Definition AsyncDataPrefix : bytes := str "ARWEN@ASYNC".
Definition AddressLen : Z := 32.
Definition HashLen : Z := 32.
Definition BalanceLen : Z := 32.
Definition CodeMetadataLen : Z := 2.
Definition InitFunctionName : bytes := str "init".
Definition InitFunctionNameEth : bytes := str "solidity.ctor".
Definition UpgradeFunctionName : bytes := str "upgradeContract".

(** arwen/common.go:14-29 breakpoint values *)
Definition BreakpointNone : Z := 0.
Definition BreakpointExecutionFailed : Z := 1.
Definition BreakpointAsyncCall : Z := 2.
Definition BreakpointSignalError : Z := 3.
Definition BreakpointOutOfGas : Z := 4.

(** arwen/host/arwen.go MaximumWasmerInstanceCount *)
Definition maxWasmerInstances : nat := 10.

(** errors.Is(e, target) for the sentinels of arwen/errors.go:9-151: an error is
    itself, or (transitively) what it wraps with %w. *)
Definition err_wraps (e : err) : option err :=
  match e with
  | ErrBadLowerBounds | ErrBadUpperBounds => Some ErrBadBounds
  | ErrInvalidUpgradeArguments => Some ErrUpgradeFailed
  | ErrInitFuncCalledInRun | ErrCallBackFuncCalledInRun | ErrCallBackFuncNotExpected
  | ErrFuncNotFound | ErrInvalidFunctionName | ErrFunctionNonvoidSignature => Some ErrInvalidFunction
  | ErrContractNotFound | ErrMemoryDeclarationMissing => Some ErrContractInvalid
  | ErrMaxInstancesReached => Some ErrExecutionFailed
  | _ => None
  end.
Definition err_is (e target : err) : bool :=
  bool_decide (e = target) || bool_decide (err_wraps e = Some target).

(** conditional failure, [if b { return err }] *)
Definition fail_if (b : bool) (e : err) : M unit := if b then fail e else ret tt.

(** * Instances (runtime.go, wasmer) *)

(** the current instance; a nil instance dereferenced is a panic *)
Definition cur_inst : M (nat * inst) := fun h =>
  match h_cur h with
  | Some i => match h_insts h !! i with Some x => (h, OOk (i, x)) | None => (h, OPanic) end
  | None => (h, OPanic)
  end.

Definition upd_inst (f : inst -> inst) : M unit :=
  '(i, x) <- cur_inst ;; modify (fun h => set_h_insts (<[i := f x]> (h_insts h)) h).

(** runtime.go:671-676 GetPointsUsed *)
Definition points_of (h : host) : Z :=
  match h_cur h with
  | Some i => match h_insts h !! i with Some x => in_points x | None => 0 end
  | None => 0
  end.
Definition GetPointsUsed : M Z := gets points_of.

(** runtime.go:679-684 SetPointsUsed *)
Definition SetPointsUsed (p : Z) : M unit :=
  let p := if max_i64 <? p then max_i64 else p in
  upd_inst (set_in_points p).

(** runtime.go:564-567 SetRuntimeBreakpointValue *)
Definition SetRuntimeBreakpointValue (v : Z) : M unit := upd_inst (set_in_bp v).

(** runtime.go:570-572 GetRuntimeBreakpointValue *)
Definition GetRuntimeBreakpointValue : M Z := '(_, x) <- cur_inst ;; ret (in_bp x).

(** runtime.go:707-716 CleanWasmerInstance (no warm instances: useWarmInstance
    is false in this model) *)
Definition CleanWasmerInstance : M unit := fun h =>
  match h_cur h with
  | Some i => (set_h_cur None (set_h_insts (delete i (h_insts h)) h), OOk tt)
  | None => (h, OOk tt)
  end.

(** a new instance of module [m] (instanceBuilder.go): fresh identity, no
    points used, no breakpoint, the module's initial memory *)
Definition new_instance (m : wmodule) (gasLimit : Z) : M unit := fun h =>
  (set_h_trace (EvRun (r_addr (h_rt h)) (h_stoaddr h) :: h_trace h)
    (set_h_cur (Some (h_next h))
      (set_h_next (S (h_next h))
        (set_h_insts (<[h_next h := mkInst 0 gasLimit BreakpointNone (wm_mem m) m]> (h_insts h)) h))),
   OOk tt).

(** * Output accounts (output.go) *)

(** output.go:57-65 NewVMOutputAccount *)
Definition NewVMOutputAccount : out_account := mkAcc 0 None 0 ∅ [] [] None [] 0.

(** output.go:42-54 newVMOutput *)
Definition newVMOutput : vm_output := mkOut [] RcOk [] 0 (Some 0) ∅ [].

Definition accounts (h : host) : gmap bytes out_account := o_accounts (h_out h).
Definition set_accounts (v : gmap bytes out_account) (h : host) : host :=
  set_h_out (set_o_accounts v (h_out h)) h.

(** output.go:139-149 GetOutputAccount: creates a missing account; the boolean
    says whether it was created *)
Definition GetOutputAccount (a : bytes) : M (out_account * bool) := fun h =>
  match accounts h !! a with
  | Some x => (h, OOk (x, false))
  | None => (set_accounts (<[a := NewVMOutputAccount]> (accounts h)) h, OOk (NewVMOutputAccount, true))
  end.

(** assignment through the pointer returned by GetOutputAccount *)
Definition upd_account (a : bytes) (f : out_account -> out_account) : M unit :=
  modify (fun h => set_accounts (alter f a (accounts h)) h).

(** the balance changes of an account in the active and the saved outputs, for
    the ghost trace *)
Definition changes_of (a : bytes) (h : host) : list Z :=
  map (fun o => oa_delta (default NewVMOutputAccount (o_accounts o !! a))) (h_out h :: h_outst h).
(** output.go:157-160 DeleteOutputAccount *)
Definition DeleteOutputAccount (a : bytes) : M unit :=
  modify (fun h => set_h_codeupd (h_codeupd h ∖ {[a]})
    (set_h_trace (EvDelete a (changes_of a h) :: h_trace h)
      (set_accounts (delete a (accounts h)) h))).

(** output.go:163-170 GetRefund, SetRefund; a nil GasRefund is dereferenced *)
Definition GetRefund : M Z :=
  r <- gets (fun h => o_refund (h_out h)) ;;
  match r with Some z => ret (u64 (i64 z)) | None => panic end.
Definition SetRefund (g : Z) : M unit :=
  modify (fun h => set_h_out (set_o_refund (Some (i64 g)) (h_out h)) h).

(** output.go:182-195, 208-215: return code, message and data *)
Definition SetReturnCode (c : return_code) : M unit :=
  modify (fun h => set_h_out (set_o_code c (h_out h)) h).
Definition SetReturnMessage (m : bytes) : M unit :=
  modify (fun h => set_h_out (set_o_msg m (h_out h)) h).
Definition Finish (d : bytes) : M unit :=
  modify (fun h => set_h_out (set_o_retdata (o_retdata (h_out h) ++ [d]) (h_out h)) h).
Definition PrependFinish (d : bytes) : M unit :=
  modify (fun h => set_h_out (set_o_retdata (d :: o_retdata (h_out h)) (h_out h)) h).

(** output.go:218-240 WriteLog *)
Definition WriteLog (a : bytes) (topics : list bytes) (data : bytes) : M unit :=
  ro <- gets (fun h => r_ro (h_rt h)) ;;
  if ro then ret tt else
  let e := match topics with [] => mkLog a [] [] data | t :: ts => mkLog a t ts data end in
  modify (fun h => set_h_out (set_o_logs (o_logs (h_out h) ++ [e]) (h_out h)) h).

(** runtime.go:532-552 FailExecution (with a non-nil error) *)
Definition FailExecution `{E : env} (e : err) : M unit :=
  SetReturnCode RcExecutionFailed ;;;
  SetReturnMessage (e_errmsg E e) ;;;
  SetRuntimeBreakpointValue BreakpointExecutionFailed.

(** runtime.go:555-561 SignalUserError *)
Definition SignalUserError (message : bytes) : M unit :=
  SetReturnCode RcUserError ;;;
  SetReturnMessage message ;;;
  SetRuntimeBreakpointValue BreakpointSignalError.

(** output.go:596-606 mergeStorageUpdates and 554-594 mergeOutputAccounts: the
    right account into the left one *)
Definition mergeOutputAccounts (l r : out_account) : out_account :=
  mkAcc
    (if oa_nonce l <? oa_nonce r then oa_nonce r else oa_nonce l)
    (match oa_balance r with Some b => Some b | None => oa_balance l end)
    (oa_delta r)
    (oa_storage r ∪ oa_storage l)
    (if 0 <? blen (oa_code r) then oa_code r else oa_code l)
    (if 0 <? blen (oa_meta r) then oa_meta r else oa_meta l)
    (match oa_deployer r with Some d => Some d | None => oa_deployer l end)
    (if (length (oa_transfers l) <? length (oa_transfers r))%nat
     then oa_transfers l ++ drop (length (oa_transfers l)) (oa_transfers r)
     else oa_transfers l)
    (oa_gasused r).

(** output.go:528-552 mergeVMOutputs.  The map of accounts is merged entry by
    entry (each entry of the right map is merged into the entry of the same
    address of the left map, in Go's map order, which does not matter because
    the entries are independent); a missing left entry is an empty
    OutputAccount.

    In the source a right BalanceDelta that is nil leaves the left one as it
    is; the only outputs with nil deltas come from built-in functions and are
    merged by AddToActiveState, which is modelled separately. *)
Definition mergeAccount (l r : option out_account) : option out_account :=
  match r with
  | None => l
  | Some r => Some (mergeOutputAccounts (default NewVMOutputAccount l) r)
  end.
Definition mergeVMOutputs (l r : vm_output) : vm_output :=
  mkOut
    (o_retdata l ++ o_retdata r)
    (o_code r) (o_msg r) (o_gasrem r)
    (Some (default 0 (o_refund r)))
    (merge mergeAccount (o_accounts l) (o_accounts r))
    (o_logs l ++ o_logs r).

(** output.go:506-526 AddToActiveState: the right output's deltas are first
    increased by the left ones and its transfers appended to the left ones,
    then the outputs are merged. *)
Definition addLeft (l r : option out_account) : option out_account :=
  match l, r with
  | Some l, Some r => Some (set_oa_delta (oa_delta r + oa_delta l) r)
  | _, r => r
  end.
Definition addTransfers (l r : option out_account) : option out_account :=
  match l, r with
  | Some l, Some r => Some (set_oa_transfers (oa_transfers l ++ oa_transfers r) l)
  | l, _ => l
  end.
Definition AddToActiveState (right : vm_output) : M unit :=
  modify (fun h =>
    let left := h_out h in
    let right' := set_o_refund (match o_refund right with
                                | Some z => Some (z + default 0 (o_refund left))
                                | None => None end)
                   (set_o_accounts (merge addLeft (o_accounts left) (o_accounts right)) right) in
    let left' := set_o_accounts (merge addTransfers (o_accounts left) (o_accounts right)) left in
    set_h_out (mergeVMOutputs left' right') h).

(** output.go:68-114 PushState, PopSetActiveState, PopMergeActiveState,
    PopDiscard *)
Definition output_PushState : M unit :=
  modify (fun h => set_h_outst (mergeVMOutputs newVMOutput (h_out h) :: h_outst h) h).
Definition output_PopSetActiveState : M unit := modify (fun h =>
  match h_outst h with [] => h | p :: s => set_h_outst s (set_h_out p h) end).
Definition output_PopMergeActiveState : M unit := modify (fun h =>
  match h_outst h with
  | [] => h
  | p :: s => set_h_outst s (set_h_out (mergeVMOutputs newVMOutput (mergeVMOutputs p (h_out h))) h)
  end).
Definition output_PopDiscard : M unit := modify (fun h =>
  match h_outst h with [] => h | _ :: s => set_h_outst s h end).

(** output.go:125-134 CensorVMOutput *)
Definition CensorVMOutput : M unit := modify (fun h =>
  set_h_out (mkOut [] RcOk [] 0 (Some 0) (o_accounts (h_out h)) []) h).

(** output.go:458-467 removeNonUpdatedCode *)
Definition removeNonUpdatedCode : M unit := modify (fun h =>
  set_accounts (map_imap (fun a x =>
    Some (if bool_decide (a ∈ h_codeupd h) then x
          else set_oa_deployer None (set_oa_meta [] (set_oa_code [] x)))) (accounts h)) h).

(** output.go:417-425 DeployCode *)
Definition DeployCode (d : deploy_input) : M unit :=
  GetOutputAccount (di_addr d) ;;;
  upd_account (di_addr d) (fun x =>
    set_oa_deployer (Some (di_deployer d)) (set_oa_meta (di_meta d) (set_oa_code (di_code d) x))) ;;;
  modify (fun h => set_h_codeupd ({[di_addr d]} ∪ h_codeupd h) h).

(** output.go:396-399 AddTxValueToAccount *)
Definition AddTxValueToAccount (a : bytes) (v : Z) : M unit :=
  GetOutputAccount a ;;;
  upd_account a (fun x => set_oa_delta (oa_delta x + v) x).

(** * Blockchain (blockchain.go and the hook) *)

(** the hook's GetUserAccount: a missing account is an error, or nil *)
Definition GetUserAccount `{E : env} (w : world) (a : bytes) : res (option user_account) :=
  match w_accounts w !! a with
  | Some u => ROk (Some u)
  | None => if e_missing_err E then RErr ErrHook else ROk None
  end.

(** the hook's GetStorageData: empty when there is no account or no cell *)
Definition GetStorageData (w : world) (a k : bytes) : bytes :=
  match w_accounts w !! a with
  | Some u => default [] (ua_storage u !! k)
  | None => []
  end.

(** blockchain.go:53-61 AccountExists *)
Definition AccountExists (h : host) (a : bytes) : bool :=
  bool_decide (is_Some (w_accounts (h_world h) !! a)).

(** blockchain.go:71-96 GetBalanceBigInt *)
Definition GetBalanceBigInt (a : bytes) : M Z :=
  '(x, isNew) <- GetOutputAccount a ;;
  w <- gets h_world ;;
  if negb isNew then
    match oa_balance x with
    | Some b => ret (b + oa_delta x)
    | None =>
        match w_accounts w !! a with
        | None => ret 0
        | Some u => upd_account a (set_oa_balance (Some (ua_balance u))) ;;; ret (ua_balance u + oa_delta x)
        end
    end
  else
    match w_accounts w !! a with
    | None => ret 0
    | Some u => upd_account a (set_oa_balance (Some (ua_balance u))) ;;; ret (ua_balance u)
    end.

(** blockchain.go:99-116 GetNonce *)
Definition GetNonce `{E : env} (a : bytes) : M Z :=
  '(x, isNew) <- GetOutputAccount a ;;
  if negb (isNew || ((oa_nonce x =? 0) && e_v3 E)) then ret (oa_nonce x) else
  w <- gets h_world ;;
  u <- lift (GetUserAccount w a) ;;
  match u with
  | None => ret 0
  | Some u => upd_account a (set_oa_nonce (ua_nonce u)) ;;; ret (ua_nonce u)
  end.

(** blockchain.go:119-123 IncreaseNonce *)
Definition IncreaseNonce `{E : env} (a : bytes) : M unit :=
  r <- try (GetNonce a) ;;
  let nonce := match r with inl n => n | inr _ => 0 end in
  GetOutputAccount a ;;;
  upd_account a (set_oa_nonce (u64 (nonce + 1))).

(** blockchain.go:37-50 NewAddress *)
Definition NewAddress `{E : env} (creator : bytes) : M bytes :=
  nonce <- GetNonce creator ;;
  let isIndirectDeployment := e_isSC E creator && e_v3 E in
  let nonce := if negb isIndirectDeployment && (0 <? nonce) then nonce - 1 else nonce in
  lift (e_newAddress E creator nonce).

(** blockchain.go:131-142 GetCodeHash *)
Definition GetCodeHash (h : host) (a : bytes) : bytes :=
  match w_accounts (h_world h) !! a with Some u => ua_codehash u | None => [] end.

(** blockchain.go:145-168 GetCode *)
Definition GetCode `{E : env} (a : bytes) : M bytes :=
  '(x, isNew) <- GetOutputAccount a ;;
  if negb isNew && (0 <? blen (oa_code x)) then ret (oa_code x) else
  w <- gets h_world ;;
  u <- lift (GetUserAccount w a) ;;
  match u with
  | None => fail ErrInvalidAccount
  | Some u =>
      if blen (ua_code u) =? 0 then fail ErrContractNotFound else
      upd_account a (set_oa_code (ua_code u)) ;;; ret (ua_code u)
  end.

(** blockchain.go:252-262 GetOwnerAddress *)
Definition GetOwnerAddress `{E : env} (h : host) : res bytes :=
  match GetUserAccount (h_world h) (r_addr (h_rt h)) with
  | ROk (Some u) => ROk (ua_owner u)
  | ROk None => ROk []
  | RErr e => RErr e
  | RPanic => RPanic
  end.

(** the hook's ProcessBuiltInFunction *)
Definition ProcessBuiltInFunction `{E : env} (input : call_input) : M vm_output := fun h =>
  match e_builtin E (h_world h) input with
  | (w, ROk o) => (set_h_world w h, OOk o)
  | (w, RErr e) => (set_h_world w h, OErr e)
  | (w, RPanic) => (set_h_world w h, OPanic)
  end.

(** blockchain.go:307-334: the snapshot stack.  PopSetActiveState returns to
    the state at the corresponding PushState. *)
Definition blockchain_PushState : M unit :=
  modify (fun h => set_h_bcst (h_world h :: h_bcst h) h).
Definition blockchain_PopSetActiveState : M unit := modify (fun h =>
  match h_bcst h with [] => h | w :: s => set_h_bcst s (set_h_world w h) end).
Definition blockchain_PopDiscard : M unit := modify (fun h =>
  match h_bcst h with [] => h | _ :: s => set_h_bcst s h end).

(** arwen/host/arwen.go:410-416 AreInSameShard *)
Definition AreInSameShard `{E : env} (a b : bytes) : bool := e_shard E a =? e_shard E b.

(** * Transfers (output.go) *)

(** output.go:390-393 hasSufficientBalance *)
Definition hasSufficientBalance (a : bytes) (v : Z) : M bool :=
  b <- GetBalanceBigInt a ;; ret (v <=? b).

(** output.go:243-277 TransferValueOnly *)
Definition TransferValueOnly `{E : env} (dest sender : bytes) (value : Z) (checkPayable : bool) : M unit :=
  fail_if (value <? 0) ErrTransferNegativeValue ;;;
  enough <- hasSufficientBalance sender value ;;
  fail_if (negb enough) ErrTransferInsufficientFunds ;;;
  w <- gets h_world ;;
  payable <- lift (e_isPayable E w dest) ;;
  ctype <- gets (fun h => vi_ctype (r_input (h_rt h))) ;;
  let isAsyncCall := e_v3 E && bool_decide (ctype = AsynchronousCall) in
  let checkPayable := checkPayable || negb (e_esdt E) in
  fail_if (checkPayable && negb payable && (0 <? value) && negb isAsyncCall) ErrAccountNotPayable ;;;
  GetOutputAccount sender ;;;
  GetOutputAccount dest ;;;
  upd_account sender (fun x => set_oa_delta (oa_delta x - value) x) ;;;
  upd_account dest (fun x => set_oa_delta (oa_delta x + value) x) ;;;
  modify (fun h => set_h_trace
    (EvMove (r_addr (h_rt h)) (r_addr <$> head (h_rtst h)) sender dest value :: h_trace h) h).

(** output.go:282-302 Transfer *)
Definition Transfer `{E : env} (dest sender : bytes) (gasLimit gasLocked value : Z)
    (input : bytes) (ctype : call_type) : M unit :=
  let checkPayable := (0 <? gasLimit) && negb (bool_decide (ctype = AsynchronousCallBack)) in
  TransferValueOnly dest sender value checkPayable ;;;
  GetOutputAccount dest ;;;
  upd_account dest (fun x => set_oa_transfers
    (oa_transfers x ++ [mkTransfer value gasLimit gasLocked input ctype sender]) x).

(** * Metering (metering.go) *)

(** metering.go:313-316 UseGas *)
Definition UseGas (g : Z) : M unit :=
  p <- GetPointsUsed ;; SetPointsUsed (AddUint64 p g).

(** metering.go:319-325 RestoreGas *)
Definition RestoreGas (g : Z) : M unit :=
  p <- GetPointsUsed ;;
  if g <=? p then SetPointsUsed (SubUint64 p g) else ret tt.

(** metering.go:328-331 FreeGas *)
Definition FreeGas (g : Z) : M unit :=
  r <- GetRefund ;; SetRefund (AddUint64 r g).

(** metering.go:334-343 GasLeft *)
Definition gas_left (h : host) : Z :=
  let provided := mt_forexec (h_met h) in
  let used := points_of h in
  if provided <? used then 0 else provided - used.
Definition GasLeft : M Z := gets gas_left.

(** helpers.go:184-198 WithFaultAndHost for a non-nil error (every API fails
    the execution: runtime.go:651-668) *)
Definition WithFault `{E : env} (e : err) : M unit :=
  g <- GasLeft ;; UseGas g ;;; FailExecution e.

(** metering.go:52-58 InitState *)
Definition metering0 : metering := mkMet 0 0 0 ∅.

(** metering.go:285-295 unlockGasIfAsyncCallback: the input it leaves behind *)
Definition unlockGasIfAsyncCallback (i : vm_input) : vm_input :=
  if bool_decide (vi_ctype i = AsynchronousCallBack)
  then set_vi_locked 0 (set_vi_gas (AddUint64 (vi_gas i) (vi_locked i)) i)
  else i.

(** metering.go:62-67 InitStateFromContractCallInput; returns the input as
    mutated through the pointer *)
Definition metering_InitStateFromContractCallInput (i : vm_input) : M vm_input :=
  let i' := unlockGasIfAsyncCallback i in
  modify (set_h_met (mkMet (vi_gas i') 0 (vi_gas i') ∅)) ;;; ret i'.

(** metering.go:70-106 PushState, PopSetActiveState *)
Definition metering_PushState : M unit :=
  modify (fun h => set_h_metst (h_met h :: h_metst h) h).
Definition metering_PopSetActiveState : M unit := modify (fun h =>
  match h_metst h with [] => h | p :: s => set_h_metst s (set_h_met p h) end).

(** metering.go:136-140 addToGasUsedByAccounts (+= wraps) *)
Definition addGasUsed (active prev : option Z) : option Z :=
  match prev with None => active | Some g => Some (u64 (default 0 active + g)) end.
(** metering.go:110-124 PopMergeActiveState *)
Definition metering_PopMergeActiveState : M unit := modify (fun h =>
  match h_metst h with
  | [] => h
  | p :: s => set_h_metst s (set_h_met
      (mkMet (mt_provided p) (mt_initcost p) (mt_forexec p)
             (merge addGasUsed (mt_used (h_met h)) (mt_used p))) h)
  end).

(** metering.go:347-359 GasSpentByContract *)
Definition GasSpentByContract `{E : env} (h : host) : Z :=
  AddUint64 (if e_v2 E then mt_initcost (h_met h) else 0) (points_of h).

(** metering.go:254-262 getGasTransferredByAccount *)
Definition getGasTransferredByAccount (x : out_account) : Z :=
  fold_left (fun g t => AddUint64 (AddUint64 g (ot_gaslimit t)) (ot_gaslocked t)) (oa_transfers x) 0.

(** metering.go:236-252 getGasUsedByAllOtherAccounts (a saturating sum of
    non-negative numbers does not depend on the map order) *)
Definition getGasUsedByAllOtherAccounts (h : host) : Z :=
  map_fold (fun a x g =>
    let used := if beq a (r_addr (h_rt h)) then 0 else default 0 (mt_used (h_met h) !! a) in
    AddUint64 (AddUint64 g used) (getGasTransferredByAccount x)) 0 (accounts h).

(** metering.go:223-234 getCurrentTotalUsedGas *)
Definition getCurrentTotalUsedGas (accs : gmap bytes out_account) : Z :=
  map_fold (fun a x g =>
    AddUint64 (AddUint64 g (oa_gasused x)) (getGasTransferredByAccount x)) 0 accs.

(** metering.go:167-183 updateSCGasUsed *)
Definition updateSCGasUsed `{E : env} : M unit :=
  a <- gets (fun h => r_addr (h_rt h)) ;;
  '(x, _) <- GetOutputAccount a ;;
  modify (fun h =>
    let gasUsed := SubUint64 (SubUint64 (GasSpentByContract h) (getGasTransferredByAccount x))
                             (getGasUsedByAllOtherAccounts h) in
    set_h_met (set_mt_used (<[a := gasUsed]> (mt_used (h_met h))) (h_met h)) h).

(** metering.go:264-277 setGasUsedToOutputAccounts *)
Definition setGasUsedToOutputAccounts : M unit :=
  modify (fun h => set_accounts (map_imap (fun a x =>
    Some (set_oa_gasused (default 0 (mt_used (h_met h) !! a)) x)) (accounts h)) h) ;;;
  missing <- gets (fun h => negb (bool_decide (dom (mt_used (h_met h)) ⊆ dom (accounts h)))) ;;
  fail_if missing ErrGeneric.

(** metering.go:206-221 checkGas *)
Definition checkGas `{E : env} : M unit :=
  if negb (e_v2 E) then ret tt else
  bad <- gets (fun h => negb (AddUint64 (getCurrentTotalUsedGas (accounts h)) (o_gasrem (h_out h))
                              =? mt_provided (h_met h))) ;;
  fail_if bad ErrInputAndOutputGasDoesNotMatch.

(** metering.go:143-156 UpdateGasStateOnSuccess *)
Definition UpdateGasStateOnSuccess `{E : env} : M unit :=
  updateSCGasUsed ;;; setGasUsedToOutputAccounts ;;; checkGas.

(** metering.go:159-165 UpdateGasStateOnFailure *)
Definition UpdateGasStateOnFailure : M unit :=
  a <- gets (fun h => r_addr (h_rt h)) ;;
  GetOutputAccount a ;;;
  provided <- gets (fun h => mt_provided (h_met h)) ;;
  upd_account a (fun x => set_oa_gasused (AddUint64 (oa_gasused x) provided) x).

(** metering.go:187-204 TrackGasUsedByBuiltinFunction *)
Definition TrackGasUsedByBuiltinFunction (input : call_input) (out : vm_output)
    (post : option call_input) : M unit :=
  let gasUsed := SubUint64 (vi_gas (ci_vm input)) (o_gasrem out) in
  let gasUsed := match post with
                 | Some p => SubUint64 gasUsed (vi_gas (ci_vm p))
                 | None => gasUsed end in
  UseGas gasUsed.

(** metering.go:384-392 BoundGasLimit *)
Definition BoundGasLimit (h : host) (value : Z) : Z :=
  let limit := u64 value in
  if gas_left h <? limit then gas_left h else limit.

(** metering.go:404-410 UseGasBounded *)
Definition UseGasBounded (g : Z) : M unit :=
  left <- GasLeft ;; fail_if (left <=? g) ErrNotEnoughGas ;;; UseGas g.

(** metering.go:396-400 UseGasForAsyncStep *)
Definition UseGasForAsyncStep `{E : env} : M unit := UseGasBounded (e_cost E CAsyncCallStep).

(** metering.go:413-434 ComputeGasLockedForAsync *)
Definition ComputeGasLockedForAsync `{E : env} (h : host) : Z :=
  let costPerByte := if e_aot E then e_cost E AoTPreparePerByte else e_cost E CompilePerByte in
  let compilationGasLock := if e_dyn E then MulUint64 (h_codesize h) costPerByte else 0 in
  let executionGasLock := AddUint64 (e_cost E CAsyncCallStep) (e_cost E CAsyncCallbackGasLock) in
  AddUint64 compilationGasLock executionGasLock.

(** metering.go:481-498 deductInitialGas *)
Definition deductInitialGas (code : bytes) (baseCost costPerByte : Z) : M unit :=
  gas <- gets (fun h => vi_gas (r_input (h_rt h))) ;;
  let initialCost := AddUint64 baseCost (MulUint64 (blen code) costPerByte) in
  fail_if (gas <? initialCost) ErrNotEnoughGas ;;;
  modify (fun h => set_h_met (set_mt_initcost initialCost (set_mt_forexec (gas - initialCost) (h_met h))) h).

(** metering.go:448-461 DeductInitialGasForExecution *)
Definition DeductInitialGasForExecution `{E : env} (contract : bytes) : M unit :=
  if e_aot E then deductInitialGas contract (e_cost E GetCodeCost) (e_cost E AoTPreparePerByte)
  else deductInitialGas contract 0 (e_cost E CompilePerByte).

(** metering.go:464-470 DeductInitialGasForDirectDeployment *)
Definition DeductInitialGasForDirectDeployment `{E : env} (d : deploy_input) : M unit :=
  deductInitialGas (di_code d) (e_cost E CCreateContract) (e_cost E CompilePerByte).

(** metering.go:473-479 DeductInitialGasForIndirectDeployment *)
Definition DeductInitialGasForIndirectDeployment `{E : env} (d : deploy_input) : M unit :=
  deductInitialGas (di_code d) 0 (e_cost E CompilePerByte).

(** * Final outputs (output.go) *)

(** output.go:469-503 resolveReturnCodeFromError *)
Definition resolveReturnCodeFromError (e : err) : return_code :=
  if err_is e ErrSignalError then RcUserError else
  if err_is e ErrFuncNotFound then RcFunctionNotFound else
  if err_is e ErrFunctionNonvoidSignature then RcFunctionWrongSignature else
  if err_is e ErrInvalidFunction then RcUserError else
  if err_is e ErrNotEnoughGas then RcOutOfGas else
  if err_is e ErrContractNotFound then RcContractNotFound else
  if err_is e ErrContractInvalid then RcContractInvalid else
  if err_is e ErrUpgradeFailed then RcUpgradeFailed else
  if err_is e ErrTransferInsufficientFunds then RcOutOfFunds else
  RcExecutionFailed.

(** output.go:428-456 CreateVMOutputInCaseOfError *)
Definition CreateVMOutputInCaseOfError `{E : env} (e : err) : M vm_output :=
  msg <- gets (fun h => o_msg (h_out h)) ;;
  let message := if err_is e ErrSignalError then msg
                 else if 0 <? blen msg then msg else e_errmsg E e in
  let o := mkOut [] (resolveReturnCodeFromError e) message 0 (Some 0) ∅ [] in
  UpdateGasStateOnFailure ;;; ret o.

(** output.go:402-414 GetVMOutput *)
Definition GetVMOutput `{E : env} : M vm_output :=
  removeNonUpdatedCode ;;;
  g <- GasLeft ;;
  modify (fun h => set_h_out (set_o_gasrem g (h_out h)) h) ;;;
  r <- try UpdateGasStateOnSuccess ;;
  match r with
  | inl _ => gets h_out
  | inr e => CreateVMOutputInCaseOfError e
  end.

(** * Storage (storage.go) *)

(** arwen/contexts storage status, arwen/interface.go StorageStatus *)
Inductive storage_status := StorageUnchanged | StorageModified | StorageAdded | StorageDeleted.
Global Instance storage_status_eq_dec : EqDecision storage_status.
Proof. solve_decision. Defined.

(** storage.go:192-194 isElrondReservedKey, 188-190 isArwenProtectedKey *)
Definition isElrondReservedKey `{E : env} (key : bytes) : bool := has_prefix (e_protected E) key.
Definition isArwenProtectedKey (key : bytes) : bool := has_prefix ProtectedStoragePrefix key.

(** storage.go:156-171 getStorageFromAddressUnmetered: reads are cached in the
    account's storage updates *)
Definition getStorageFromAddressUnmetered (a key : bytes) : M bytes :=
  '(x, _) <- GetOutputAccount a ;;
  match oa_storage x !! key with
  | Some v => ret v
  | None =>
      w <- gets h_world ;;
      let v := GetStorageData w a key in
      upd_account a (fun x => set_oa_storage (<[key := v]> (oa_storage x)) x) ;;;
      ret v
  end.

(** storage.go:174-176 GetStorageUnmetered *)
Definition GetStorageUnmetered (key : bytes) : M bytes :=
  a <- gets h_stoaddr ;; getStorageFromAddressUnmetered a key.

(** the charge for the part of a key longer than 32 bytes
    (storage.go:98-102, 118-122, 220-224) *)
Definition useExtraKeyGas `{E : env} (key : bytes) : M unit :=
  let extraBytes := blen key - AddressLen in
  if 0 <? extraBytes then UseGas (MulUint64 (e_cost E DataCopyPerByte) extraBytes) else ret tt.

(** storage.go:95-112 GetStorage *)
Definition GetStorage `{E : env} (key : bytes) : M bytes :=
  useExtraKeyGas key ;;;
  v <- GetStorageUnmetered key ;;
  UseGas (MulUint64 (e_cost E DataCopyPerByte) (blen v)) ;;;
  ret v.

(** elrond-vm-common CodeMetadataFromBytes (not in /repo): a two-byte field;
    bit 0 of byte 0 Upgradeable, bit 2 of byte 0 Readable, bit 1 of byte 1
    Payable; any other length has no bit set. *)
Definition meta_bit (m : bytes) (i : nat) (bit : Z) : bool :=
  if (length m =? 2)%nat
  then match m !! i with Some b => Z.testbit (bz b) bit | None => false end
  else false.
Definition meta_upgradeable (m : bytes) : bool := meta_bit m 0 0.
Definition meta_readable (m : bytes) : bool := meta_bit m 0 2.
Definition meta_payable (m : bytes) : bool := meta_bit m 1 1.

(** storage.go:115-154 GetStorageFromAddress *)
Definition GetStorageFromAddress `{E : env} (a key : bytes) : M bytes :=
  useExtraKeyGas key ;;;
  own <- gets (fun h => beq a (h_stoaddr h)) ;;
  w <- gets h_world ;;
  let allowed := own || match w_accounts w !! a with
                        | Some u => meta_readable (ua_meta u)
                        | None => false end in
  if negb allowed then ret [] else
  v <- (if isElrondReservedKey key then ret (GetStorageData w a key)
        else getStorageFromAddressUnmetered a key) ;;
  UseGas (MulUint64 (e_cost E DataCopyPerByte) (blen v)) ;;;
  ret v.

(** storage.go:204-292 SetStorage *)
Definition SetStorage `{E : env} (key value : bytes) : M storage_status :=
  ro <- gets (fun h => r_ro (h_rt h)) ;;
  if ro then ret StorageUnchanged else
  fail_if (isElrondReservedKey key) ErrStoreElrondReservedKey ;;;
  prot <- gets h_stoprot ;;
  fail_if (isArwenProtectedKey key && prot) ErrCannotWriteProtectedKey ;;;
  useExtraKeyGas key ;;;
  let length := blen value in
  a <- gets h_stoaddr ;;
  oldValue <- GetStorageUnmetered key ;;
  let lengthOldValue := blen oldValue in
  if beq oldValue value then
    UseGas (MulUint64 (e_cost E DataCopyPerByte) length) ;;; ret StorageUnchanged
  else
  upd_account a (fun x => set_oa_storage (<[key := value]> (oa_storage x)) x) ;;;
  if beq oldValue [] then
    UseGas (MulUint64 (e_cost E StorePerByte) length) ;;; ret StorageAdded
  else if beq value [] then
    FreeGas (MulUint64 (e_cost E ReleasePerByte) lengthOldValue) ;;; ret StorageDeleted
  else
  let newValueExtraLength := SubInt length lengthOldValue in
  (if 0 <? newValueExtraLength then
     UseGas (AddUint64 (MulUint64 (e_cost E PersistPerByte) lengthOldValue)
                       (MulUint64 (e_cost E StorePerByte) newValueExtraLength))
   else ret tt) ;;;
  (if newValueExtraLength <? 0 then
     UseGas (MulUint64 (e_cost E PersistPerByte) length) ;;;
     FreeGas (MulUint64 (e_cost E ReleasePerByte) (- newValueExtraLength))
   else ret tt) ;;;
  ret StorageModified.

(** storage.go:196-201 SetProtectedStorage (the deferred re-enabling also runs
    when SetStorage fails or panics) *)
Definition SetProtectedStorage `{E : env} (key value : bytes) : M storage_status :=
  modify (set_h_stoprot false) ;;;
  deferring (SetStorage key value)
    (fun r => modify (set_h_stoprot true) ;;;
              match r with inl s => ret s | inr e => fail e end)
    (modify (set_h_stoprot true)).

(** storage.go:50-65, 83-86 *)
Definition storage_PushState : M unit :=
  modify (fun h => set_h_stost (h_stoaddr h :: h_stost h) h).
Definition storage_PopSetActiveState : M unit := modify (fun h =>
  match h_stost h with [] => h | a :: s => set_h_stost s (set_h_stoaddr a h) end).
Definition storage_SetAddress (a : bytes) : M unit :=
  modify (fun h => set_h_trace (EvOwner a :: h_trace h) (set_h_stoaddr a h)).

(** * Big integers (bigint.go) *)

(** bigint.go:30-54 PushState, PopSetActiveState, PopDiscard; InitState 25-27 *)
Definition bigint_PushState : M unit := modify (fun h => set_h_bigst (h_big h :: h_bigst h) h).
Definition bigint_PopSetActiveState : M unit := modify (fun h =>
  match h_bigst h with [] => h | b :: s => set_h_bigst s (set_h_big b h) end).
Definition bigint_PopDiscard : M unit := modify (fun h =>
  match h_bigst h with [] => h | _ :: s => set_h_bigst s h end).
Definition bigint_InitState : M unit := modify (set_h_big ∅).

(** bigint.go:72-84 Put: the first free handle from int32(len(values)) upwards
    (int32, wrapping).  There is a free handle among any size+1 consecutive
    ones; [fuel] is the size. *)
Fixpoint put_handle (m : gmap Z Z) (fuel : nat) (handle : Z) : Z :=
  match fuel with
  | O => handle
  | S n => if bool_decide (is_Some (m !! handle)) then put_handle m n (i32 (handle + 1)) else handle
  end.
Definition big_put (m : gmap Z Z) (value : Z) : gmap Z Z * Z :=
  let handle := put_handle m (size m) (i32 (Z.of_nat (size m))) in
  (<[handle := value]> m, handle).

(** bigint.go:87-93 GetOne: a handle that is not there yet is given value 0 *)
Definition big_get (m : gmap Z Z) (handle : Z) : gmap Z Z * Z :=
  match m !! handle with
  | Some v => (m, v)
  | None => (<[handle := 0]> m, 0)
  end.

(** * Runtime (runtime.go) *)

(** runtime.go:237-246 GetSCCode *)
Definition GetSCCode `{E : env} : M bytes :=
  a <- gets (fun h => r_addr (h_rt h)) ;;
  code <- GetCode a ;;
  modify (set_h_codesize (blen code)) ;;;
  ret code.

(** contexts/validator.go:84-103 verifyValidFunctionName and
    reservedFunctions.go:14-46: the reserved names are the active built-in
    functions, the API names and "upgradeContract" *)
Definition isReservedName `{E : env} (name : bytes) : bool :=
  e_isBuiltin E name || e_apiname E name || beq name UpgradeFunctionName.
Definition isASCIIString (s : bytes) : bool := forallb (fun b => bz b <=? 127) s.
Definition verifyValidFunctionName `{E : env} (name : bytes) : res unit :=
  if blen name =? 0 then RErr ErrInvalidFunctionName else
  if 256 <=? blen name then RErr ErrInvalidFunctionName else
  if negb (isASCIIString name) then RErr ErrInvalidFunctionName else
  if isReservedName name then RErr ErrInvalidFunctionName else
  ROk tt.

(** contexts/validator.go:50-82 verifyVoidFunction, getInputArity, getOutputArity *)
Definition verifyVoidFunction (m : wmodule) (name : bytes) : res unit :=
  match wm_void m name with
  | None => RErr ErrFuncNotFound
  | Some (i, o) => if (i =? 0) && (o =? 0) then ROk tt else RErr ErrFunctionNonvoidSignature
  end.

(** contexts/validator.go:34-48 verifyFunctions, over the exports in some order *)
Fixpoint verifyFunctionsIn `{E : env} (m : wmodule) (names : list bytes) : res unit :=
  match names with
  | [] => ROk tt
  | n :: ns =>
      match verifyValidFunctionName n with
      | ROk _ => match verifyVoidFunction m n with
                 | ROk _ => verifyFunctionsIn m ns
                 | r => r end
      | r => r
      end
  end.
Definition verifyFunctions `{E : env} (m : wmodule) : res unit :=
  verifyFunctionsIn m (e_order E (map fst (wm_exports m))).

(** runtime.go:605-648 checkBackwardCompatibility *)
Definition esdtImports : list bytes := map str
  ["transferESDTExecute"; "transferESDTNFTExecute"; "transferValueExecute"; "getESDTBalance";
   "getESDTTokenData"; "getESDTTokenType"; "getESDTTokenNonce"; "getCurrentESDTNFTNonce";
   "getESDTNFTNameLength"; "getESDTNFTAttributeLength"; "getESDTNFTURILength";
   "bigIntGetESDTExternalBalance"]%string.
Definition checkBackwardCompatibility `{E : env} (m : wmodule) : res unit :=
  if e_esdt E then ROk tt else
  if existsb (fun n => bool_decide (n ∈ wm_imports m)) esdtImports
  then RErr ErrContractInvalid else ROk tt.

(** the three checks of runtime.go:575-603 *)
Definition verifyModule `{E : env} (m : wmodule) : res unit :=
  if negb (wm_hasmem m) then RErr ErrMemoryDeclarationMissing else
  match verifyFunctions m with
  | ROk _ => checkBackwardCompatibility m
  | r => r
  end.

(** runtime.go:575-603 VerifyContractCode *)
Definition VerifyContractCode `{E : env} : M unit :=
  v <- gets h_verify ;;
  if negb v then ret tt else
  modify (set_h_verify false) ;;;
  '(_, x) <- cur_inst ;;
  lift (verifyModule (in_mod x)).

(** runtime.go:144-182 makeInstanceFromCompiledCode; [h_cache] maps a code hash
    to the code whose compilation is saved under it (blockchain.go
    GetCompiledCode, SaveCompiledCode), and instantiating a saved compilation
    gives what compiling its source gives *)
Definition makeInstanceFromCompiledCode `{E : env} (codeHash : bytes) (gasLimit : Z) (newCode : bool) : M bool :=
  if negb (e_aot E) then ret false else
  if newCode || (blen codeHash =? 0) then ret false else
  c <- gets (fun h => h_cache h !! codeHash) ;;
  match c with
  | None => ret false
  | Some code =>
      match e_compile E code with
      | None => ret false
      | Some m => new_instance m gasLimit ;;; modify (set_h_verify false) ;;; ret true
      end
  end.

(** runtime.go:184-234 makeInstanceFromContractByteCode *)
Definition makeInstanceFromContractByteCode `{E : env} (contract codeHash : bytes) (gasLimit : Z) (newCode : bool) : M unit :=
  match e_compile E contract with
  | None => modify (set_h_cur None) ;;; fail ErrWasmer
  | Some m =>
      new_instance m gasLimit ;;;
      let codeHash := if newCode || (blen codeHash =? 0) then e_sha256 E contract else codeHash in
      modify (fun h => set_h_cache (<[codeHash := contract]> (h_cache h)) h) ;;;
      if newCode then
        r <- try VerifyContractCode ;;
        match r with inl _ => ret tt | inr e => CleanWasmerInstance ;;; fail e end
      else ret tt
  end.

(** runtime.go:122-142 StartWasmerInstance *)
Definition StartWasmerInstance `{E : env} (contract : bytes) (gasLimit : Z) (newCode : bool) : M unit :=
  n <- gets (fun h => length (h_ist h)) ;;
  if (maxWasmerInstances <=? n)%nat then modify (set_h_cur None) ;;; fail ErrMaxInstancesReached else
  codeHash <- gets (fun h => GetCodeHash h (r_addr (h_rt h))) ;;
  used <- makeInstanceFromCompiledCode codeHash gasLimit newCode ;;
  if used : bool then ret tt else
  makeInstanceFromContractByteCode contract codeHash gasLimit newCode.

(** runtime.go:81-94 InitState *)
Definition input0 : vm_input := mkInput [] [] 0 DirectCall 0 0 0 [] [] [] false.
Definition frame0 : frame := mkFrame input0 [] [] false None (mkAinfo [] [] ∅).

(** runtime.go:298-313 InitStateFromContractCallInput; readOnly and
    asyncCallInfo keep their values *)
Definition runtime_InitStateFromContractCallInput (i : call_input) : M unit :=
  modify (fun h => set_h_rt (mkFrame (ci_vm i) (ci_rcpt i) (ci_fn i) (r_ro (h_rt h)) (r_async (h_rt h))
                              (mkAinfo (vi_caller (ci_vm i)) [] ∅)) h).

(** runtime.go:323-340 PushState with pushInstance 379-381 *)
Definition runtime_PushState : M unit :=
  modify (fun h => set_h_ist (h_cur h :: h_ist h) (set_h_rtst (h_rt h :: h_rtst h) h)).

(** runtime.go:385-406 popInstance *)
Definition popInstance : M unit := fun h =>
  match h_ist h with
  | [] => (h, OOk tt)
  | prev :: s =>
      if bool_decide (prev = h_cur h) then (set_h_ist s h, OOk tt)
      else (CleanWasmerInstance ;;; modify (set_h_cur prev)) (set_h_ist s h)
  end.

(** runtime.go:344-360 PopSetActiveState *)
Definition runtime_PopSetActiveState : M unit := fun h =>
  match h_rtst h with
  | [] => (h, OOk tt)
  | f :: s => popInstance (set_h_rtst s (set_h_rt f h))
  end.

(** runtime.go:517-529 ExtractCodeUpgradeFromArgs *)
Definition ExtractCodeUpgradeFromArgs : M (bytes * bytes) :=
  args <- gets (fun h => vi_args (r_input (h_rt h))) ;;
  match args with
  | code :: meta :: rest =>
      modify (fun h => set_h_rt (set_r_input (set_vi_args rest (r_input (h_rt h))) (h_rt h)) h) ;;;
      ret (code, meta)
  | _ => fail ErrInvalidUpgradeArguments
  end.

(** an export by name *)
Definition export (m : wmodule) (name : bytes) : option prog :=
  snd <$> find (fun p => beq (fst p) name) (wm_exports m).

(** runtime.go:730-744 GetFunctionToCall *)
Definition GetFunctionToCall : M prog :=
  '(_, x) <- cur_inst ;;
  fn <- gets (fun h => r_fn (h_rt h)) ;;
  match export (in_mod x) fn with
  | Some p => ret p
  | None => if beq fn CallbackFunctionName then fail ErrNilCallbackFunction else fail ErrFuncNotFound
  end.

(** runtime.go:747-754 GetInitFunction *)
Definition GetInitFunction : M (option prog) :=
  '(_, x) <- cur_inst ;; ret (export (in_mod x) InitFunctionName).

(** runtime.go:833-836 HasCallbackMethod *)
Definition HasCallbackMethod : M bool :=
  '(_, x) <- cur_inst ;; ret (bool_decide (is_Some (export (in_mod x) CallbackFunctionName))).

(** runtime.go:757-789 ExecuteAsyncCall *)
Definition ExecuteAsyncCall `{E : env} (address data value : bytes) : M unit :=
  UseGasForAsyncStep ;;;
  hasCb <- HasCallbackMethod ;;
  gasToLock <- (if hasCb || negb (e_dyn E) then
                  g <- gets ComputeGasLockedForAsync ;; UseGasBounded g ;;; ret g
                else ret 0) ;;
  left <- GasLeft ;;
  modify (fun h => set_h_rt (set_r_async (Some (mkAsync address data left gasToLock value)) (h_rt h)) h) ;;;
  SetRuntimeBreakpointValue BreakpointAsyncCall.

(** runtime.go:797-810 AddAsyncContextCall *)
Definition AddAsyncContextCall (id : bytes) (c : gen_call) : M unit :=
  modify (fun h =>
    let info := r_actx (h_rt h) in
    let ctx := default (mkActx [] []) (ai_map info !! id) in
    set_h_rt (set_r_actx (set_ai_map
      (<[id := set_ax_calls (ax_calls ctx ++ [c]) ctx]> (ai_map info)) info) (h_rt h)) h).

(** runtime.go:818-825 GetAsyncContext and the assignment of the callback by
    elrondei.go:1329-1358 setAsyncContextCallback *)
Definition SetAsyncContextCallback (id callback : bytes) : M unit :=
  c <- gets (fun h => ai_map (r_actx (h_rt h)) !! id) ;;
  match c with
  | None => fail ErrAsyncContextDoesNotExist
  | Some ctx =>
      modify (fun h => set_h_rt (set_r_actx (set_ai_map
        (<[id := set_ax_callback callback ctx]> (ai_map (r_actx (h_rt h)))) (r_actx (h_rt h))) (h_rt h)) h)
  end.

(** runtime.go:844-932 MemLoad and MemStore on the current instance's memory *)
Definition mem_load (h : host) (offset len : Z) : res bytes :=
  match h_cur h with
  | Some i => match h_insts h !! i with
              | Some x => MemLoad (in_mem x) offset len
              | None => RPanic end
  | None => RPanic
  end.
Definition mem_store (offset : Z) (data : bytes) : M unit :=
  '(_, x) <- cur_inst ;;
  let '(m, r) := MemStore (in_mem x) offset data in
  upd_inst (set_in_mem m) ;;; lift r.
