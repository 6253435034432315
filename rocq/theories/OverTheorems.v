(** C98: work that costs more than the gas given for it fails. *)
From Verif Require Import VmModel CallSpec GasSpec OverSpec ExOver OverProofs.

(** The function called by a transaction, or by an asynchronous call from another
    shard, has spent no more than it may when the call succeeds.  What is missing:
    calls between contracts in the same context, for which it is false, see
    C98_same_refuted; callbacks, for which the function is chosen from the
    storage; the calls in their own context, which are checked by the sum of the
    gas (C30). *)
Theorem C98_called_partial : forall `{E : env} run rd h h',
  e_v2 E = true -> vi_ctype (r_input (h_rt h)) <> AsynchronousCallBack ->
  callSCMethod run rd h = (h', OOk tt) ->
  exists p h1, exports_now h (r_fn (h_rt h)) p /\ ran_within run rd p h h1.
Proof. exact @over_call. Qed.
Print Assumptions C98_called_partial.

(** The same of the init function of a contract that is deployed. *)
Theorem C98_deployed_partial : forall `{E : env} run rd h h',
  e_v2 E = true -> callInitFunction run rd h = (h', OOk tt) ->
  h' = h \/ exists p, exports_now h InitFunctionName p /\ ran_within run rd p h h'.
Proof. exact @over_init. Qed.
Print Assumptions C98_deployed_partial.

(** "v" cannot be called with 40 gas, neither by a transaction nor by a contract
    in its own context; called in the same context with 40 gas it succeeds, is
    charged more than that and its value is stored: the instance stops at the next
    instruction, and after the last one nobody looks.  The transaction pays less
    than with enough gas for the call: what is over is taken from the gas that
    the caller has spent. *)
Theorem C98_same_refuted : exists (E E' : env) h h' direct dest same v s k x,
  env_ok E /\ no_stacks h /\ env_ok E' /\ no_stacks h' /\ vi_gas (ci_vm direct) = 40 /\
  let d := RunSmartContractCall (E := E) 12 direct h in
  let n := RunSmartContractCall (E := E) 12 dest h in
  let r := RunSmartContractCall (E := E) 12 same h in
  let r' := RunSmartContractCall (E := E') 12 same h' in
  ended d = Some (RcOutOfGas, []) /\ ended n = Some (RcExecutionFailed, []) /\
  ended r = ended r' /\ ended r = Some (RcOk, [str "ok"]) /\
  left_under r s k = Some x /\ left_under r' s k = Some x /\
  40 < charged_to r v /\ charged_to r v = charged_to r' v /\
  charged_to r s < charged_to r' s /\ left_over r' < left_over r.
Proof.
  exists (overEnv 40), (overEnv 1000), (overHost 40), (overHost 1000), (direct 40), (txS "dest" 0 50000),
    (txS "same" 0 50000), (addr "v"), (addr "s"), (str "k"), (str "abcdefghijklmnopqrstuvwxyz").
  split; [apply exEnv_ok|]. split; [constructor; reflexivity|].
  split; [apply exEnv_ok|]. split; [constructor; reflexivity|]. vm_compute. tauto.
Qed.
Print Assumptions C98_same_refuted.

(** a transaction with enough gas, and one with too little *)
Example C98_ex :
  ended (RunSmartContractCall (E := overEnv 40) 12 (direct 1000) (overHost 40)) = Some (RcOk, []) /\
  ended (RunSmartContractCall (E := overEnv 40) 12 (direct 40) (overHost 40)) = Some (RcOutOfGas, []).
Proof. vm_compute. tauto. Qed.
