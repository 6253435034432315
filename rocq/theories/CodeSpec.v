(** Vocabulary for C37: what a failing transaction returns. *)
From Verif Require Import VmTypes CtxModel.

(** nothing but a return code and a message *)
Record only_an_error (o : vm_output) : Prop := mkOnlyError {
  oe_accounts : o_accounts o = ∅;
  oe_logs : o_logs o = [];
  oe_data : o_retdata o = [];
  oe_gas : o_gasrem o = 0;
  oe_refund : o_refund o = Some 0
}.
(** the return codes of the error classes *)
Definition error_class (c : return_code) : Prop :=
  c = RcOutOfGas \/ c = RcOutOfFunds \/ c = RcUserError \/ c = RcFunctionNotFound \/ c = RcFunctionWrongSignature \/
  c = RcContractNotFound \/ c = RcContractInvalid \/ c = RcUpgradeFailed \/ c = RcExecutionFailed.

(** the node's built-in functions report failures as errors *)
Definition honest_builtins `{E : env} : Prop := forall w i w' o, e_builtin E w i = (w', ROk o) -> o_code o = RcOk.

(** ** When an error of each class must come

    The world before the transaction, seen by its recipient. *)
Definition code_at (w : world) (a code : bytes) : Prop :=
  code <> [] /\ exists u, w_accounts w !! a = Some u /\ ua_code u = code.
Definition no_code_at (w : world) (a : bytes) : Prop :=
  forall u, w_accounts w !! a = Some u -> ua_code u = [].
(** the gas that starting [code] costs, in exact arithmetic *)
Definition start_cost `{E : env} (code : bytes) : Z :=
  if e_aot E then e_cost E GetCodeCost + Z.of_nat (length code) * e_cost E AoTPreparePerByte
  else Z.of_nat (length code) * e_cost E CompilePerByte.
(** the gas that finding the code takes *)
Definition lookup_cost `{E : env} : Z := if e_v2 E then e_cost E GetCodeCost else 0.
(** nothing else than [code] is saved as compiled under the code hash of [a] *)
Definition cache_agrees (h : host) (a code : bytes) : Prop :=
  forall u c, w_accounts (h_world h) !! a = Some u -> h_cache h !! ua_codehash u = Some c -> c = code.
(** a transaction that calls a function of a contract *)
Definition plain_call (i : call_input) : Prop :=
  ci_fn i <> UpgradeFunctionName /\ vi_ctype (ci_vm i) <> AsynchronousCallBack /\ 0 <= vi_gas (ci_vm i) < max_u64.

(** the recipient of [i] has [code], compiling to [m] (or not at all), and the
    gas pays for starting it *)
Record startable `{E : env} (i : call_input) (h : host) (code : bytes) (m : option wmodule) : Prop := mkStartable {
  st_plain : plain_call i;
  st_code : code_at (h_world h) (ci_rcpt i) code;
  st_size : Z.of_nat (length code) <= max_i64;
  st_cache : cache_agrees h (ci_rcpt i) code;
  st_depth : h_ist h = [];
  st_lookup : lookup_cost <= vi_gas (ci_vm i);
  st_start : start_cost code <= vi_gas (ci_vm i);
  st_compiles : e_compile E code = m
}.
(** functions that transactions may not call *)
Definition forbidden_name (f : bytes) : Prop := f = InitFunctionName \/ f = InitFunctionNameEth \/ f = CallbackFunctionName.
(** the contract [m] of [code] about to run the function of [i], with nothing spent yet *)
Record at_function `{E : env} (i : call_input) (code : bytes) (m : wmodule) (h : host) : Prop := mkAtFunction {
  af_fn : r_fn (h_rt h) = ci_fn i;
  af_addr : r_addr (h_rt h) = ci_rcpt i;
  af_input : r_input (h_rt h) = ci_vm i;
  af_inst : exists j, h_cur h = Some j /\
    h_insts h !! j = Some (mkInst 0 (vi_gas (ci_vm i) - start_cost code) BreakpointNone (wm_mem m) m)
}.
(** how the running instance of [h] was stopped *)
Definition stopped_by (h : host) (bp : Z) : Prop :=
  exists j x, h_cur h = Some j /\ h_insts h !! j = Some x /\ in_bp x = bp.
(** the error class of a stopped execution *)
Definition stop_code (bp : Z) (c : return_code) : Prop :=
  (bp = BreakpointNone \/ bp = BreakpointExecutionFailed) /\ c = RcExecutionFailed \/
  bp = BreakpointSignalError /\ c = RcUserError \/
  bp = BreakpointOutOfGas /\ c = RcOutOfGas.
