(** Gas that leaves with an asynchronous call (C32). *)
From Verif Require Import VmModel GasSpec DeploySpec CallSpec InvSpec AsyncSpec AsyncProofs TxProofs ForwardSpec ForwardProofs ExAsync.

(** ** C32, asynchronous calls to contracts that are not here.  The contract running
    in [h] asks for the call of [a]; the state in which it stops is [h1], the state
    in which the call has been sent is [h2].  The limit and the lock that are
    attached, together with the price of the step, are the gas that it had left:
    no more can be attached, and none of it is left afterwards.  What is missing:
    transfers with gas, where it is not so (see C32_refuted), and code with a size
    that does not fit a machine word. *)
Theorem C32_async_partial : forall `{E : env}, env_ok E -> forall (rd : edf) a d v f args h h1 h2,
  metered h -> in_u64 (h_codesize h) ->
  call_data d f args -> e_isBuiltin E f = false -> code_now h a = [] ->
  ExecuteAsyncCall a d v h = (h1, OOk tt) -> handleAsyncCallBreakpoint rd h1 = (h2, OOk tt) ->
  exists limit lock,
    limit + lock + e_cost E CAsyncCallStep = left_of h /\ 0 < limit /\ left_of h2 = 0 /\
    forall b, oa_transfers (account_of h2 b) = oa_transfers (account_of h b) ++
      (if bool_decide (b = a) then [mkTransfer (be_decode v) limit lock d AsynchronousCall (r_addr (h_rt h))] else []).
Proof. exact @async_forward. Qed.
Print Assumptions C32_async_partial.
Example C32_async_ex :
  let h := set_h_codesize 32 (set_h_insts {[0%nat := mkInst 0 100000 BreakpointNone (mkMem [] 1) (mod_of [(str "callBack", PRet)])]} (cHost ex_t)) in
  let r := ExecuteAsyncCall (E := cEnv ex_t) (addr "x") (str "yes@05") [zb 3] h in
  let q := handleAsyncCallBreakpoint (E := cEnv ex_t) (vmDest (E := cEnv ex_t) 12) (fst r) in
  metered h /\ call_data (str "yes@05") (str "yes") [[zb 5]] /\ code_now h (addr "x") = [] /\ snd r = OOk tt /\ snd q = OOk tt /\
  left_of h = 100000 /\ oa_transfers (account_of (fst q) (addr "x")) = [mkTransfer 3 99965 34 (str "yes@05") AsynchronousCall (addr "s")].
Proof.
  cbv zeta. split.
  - split; [eexists _, _; split; reflexivity|]. split; [|vm_compute; split; discriminate].
    intros c x. cbn. rewrite lookup_singleton_Some. intros [_ <-]. cbn. lia.
  - split; [apply parse_iff; vm_compute; reflexivity|]. vm_compute. tauto.
Qed.

(** ** C32, whole transactions, since the epoch at which the final gas check was
    activated: all outgoing transfers of a successful transaction together do not
    have more gas attached than it was handed minus what it has left. *)
Theorem C32_call_partial : forall `{E : env} n i h h' o,
  h_stoprot h = true -> no_stacks h -> e_v2 E = true -> gas_input (ci_vm i) -> handed (ci_vm i) < max_u64 ->
  RunSmartContractCall n i h = (h', OOk o) ->
  error_output o \/ (gas_typed o -> attached o + o_gasrem o <= handed (ci_vm i)).
Proof. exact @call_attached. Qed.
Print Assumptions C32_call_partial.
Theorem C32_create_partial : forall `{E : env} n i h h' o,
  h_stoprot h = true -> no_stacks h -> e_v2 E = true -> gas_input (cc_vm i) -> handed (cc_vm i) < max_u64 ->
  RunSmartContractCreate n i h = (h', OOk o) ->
  error_output o \/ (gas_typed o -> attached o + o_gasrem o <= handed (cc_vm i)).
Proof. exact @create_attached. Qed.
Print Assumptions C32_create_partial.
Example C32_call_ex :
  let r := cTx [("s", [("far", call_async "x" 3 "yes@05" PRet)])]%string "far" 0 10000 in
  match snd r with OOk o => Some (o_code o, attached o, o_gasrem o, oa_gasused <$> o_accounts o !! addr "s") | _ => None end
    = Some (RcOk, 9960, 0, Some 40).
Proof. vm_compute. reflexivity. Qed.
