(** Gas: C30 (the part about successes), C31, C32, C33, C34, C35, C36. *)
From Verif Require Import VmModel CallSpec InvSpec GasSpec GasProofs GasApiProofs TxProofs GasOutProofs GasAsyncProofs ExGas.

(** ** C30, the outputs of successful transactions: the gas remaining, used and
    forwarded sums up to the gas provided.  [e_v2]: since the epoch at which the
    check was activated.  Whatever the output, [error_output] says it is an
    error without gas (see C37 for the converse). *)
Theorem C30_call_partial : forall `{E : env} n i h h' o,
  h_stoprot h = true -> no_stacks h -> e_v2 E = true -> gas_input (ci_vm i) -> handed (ci_vm i) < max_u64 ->
  RunSmartContractCall n i h = (h', OOk o) ->
  error_output o \/ (gas_typed o -> o_gasrem o + accounts_gas (o_accounts o) = handed (ci_vm i)).
Proof. exact @call_sum. Qed.
Print Assumptions C30_call_partial.
Theorem C30_create_partial : forall `{E : env} n i h h' o,
  h_stoprot h = true -> no_stacks h -> e_v2 E = true -> gas_input (cc_vm i) -> handed (cc_vm i) < max_u64 ->
  RunSmartContractCreate n i h = (h', OOk o) ->
  error_output o \/ (gas_typed o -> o_gasrem o + accounts_gas (o_accounts o) = handed (cc_vm i)).
Proof. exact @create_sum. Qed.
Print Assumptions C30_create_partial.

(** "s" works, pays "u" and calls "t"; "t" sends gas to another shard *)
Definition send_gas (gas : Z) (k : prog) : prog :=
  with_call "x" 0 (str "f") (api1 (A_transferValueExecute 0 32 gas 64 1 0 0 0) k).
Definition ex_g : list (string * list (string * prog)) :=
  [("s", [("f", PWork 100 (transfer "u" 1 (call_dest 2000 "t" 2 "work" PRet)))]);
   ("t", [("work", PWork 300 (send_gas 50 PRet))])]%string.
Example C30_ex :
  gas_seen (cTx ex_g "f" 0 10000) = Some (RcOk, [], 9532, Some 0) /\
  gas_of "s" (cTx ex_g "f" 0 10000) = Some (134, []) /\
  gas_of "t" (cTx ex_g "f" 0 10000) = Some (284, []) /\
  gas_of "x" (cTx ex_g "f" 0 10000) = Some (0, [(50, 0)]) /\ 9532 + 134 + 284 + 50 = 10000.
Proof. vm_compute. tauto. Qed.

(** ** C31: an API call, whatever nested calls it makes, changes neither the
    budget of the frame nor increases what is left of it.  The exceptions are
    the calls that deploy contracts, see C31_refuted.  The gas budget is at most
    2^63-1, the largest counter the interpreter can set. *)
Theorem C31_api_partial : forall `{E : env}, frugal_builtins -> forall n c h h' r,
  ~ is_deploy c -> host_ok h -> metered h -> vmApi n c h = (h', r) -> r <> OFuel -> r <> OPanic ->
  metered h' /\ budget h' = budget h /\ spent h <= spent h' /\ left_of h' <= left_of h.
Proof. exact @api_down. Qed.
Print Assumptions C31_api_partial.
Example C31_ex :
  let h := cHost ex_g in
  let r := vmApi (E := cEnv ex_g) 12 (A_executeOnDestContext 2000 0 32 64 4 0 0 0)
             (fst (cRun ex_g (with_call "t" 2 (str "work") PRet))) in
  host_ok h /\ metered h /\ @frugal_builtins (cEnv ex_g) /\ left_of h = 100000 /\ snd r = OOk 0 /\ left_of (fst r) = 99665.
Proof.
  split; [split; [reflexivity|intros i [= <-]; vm_compute; lia]|]. split; [apply cHost_metered|]. split; [apply exEnv_frugal|].
  vm_compute. tauto.
Qed.

(** C31 fails for createContract: the initial cost of the new contract's code
    replaces the one paid for the caller's own code.  "s", 128 bytes of code,
    deploys 32 bytes and has more gas afterwards than before. *)
Theorem C31_refuted :
  exists (E : env) i h, env_ok E /\ no_stacks h /\ h_stoprot h = true /\
    (* the gas left that the contract sees, before and after the deployment *)
    gas_seen (RunSmartContractCall 12 i h) = Some (RcOk, [9871; 9932], 9931, Some 0).
Proof.
  exists (bigEnv [("f", gas_mark (deploy 100 "n" 0 (gas_mark PRet)))] [("n", [("init", PRet)])])%string, (txS "f" 0 10000),
    (host0 (bigWorld [("n", [("init", PRet)])]))%string.
  split; [apply exEnv_ok|]. split; [constructor; reflexivity|]. split; [reflexivity|]. vm_compute. reflexivity.
Qed.
Print Assumptions C31_refuted.

(** ** C32 fails: transferValueExecute to another shard does not use the gas that
    it attaches.  Of 10000 units "s" uses 1034 and attaches 500: the output has
    the gas remaining that it would have without attaching any. *)
Definition ex_a : list (string * list (string * prog)) :=
  [("s", [("f", gas_mark (PWork 1000 (send_gas 500 (gas_mark PRet))));
          ("g", gas_mark (PWork 1000 (send_gas 0 (gas_mark PRet))))])]%string.
Theorem C32_refuted :
  exists (E : env) i h, env_ok E /\ no_stacks h /\ h_stoprot h = true /\
    let r := RunSmartContractCall 12 i h in
    gas_seen r = Some (RcOk, [9967; 8963], 8962, Some 0) /\ gas_of "x" r = Some (0, [(500, 0)]).
Proof.
  exists (cEnv ex_a), (txS "f" 0 10000), (host0 (cWorld ex_a)). split; [apply exEnv_ok|]. split; [constructor; reflexivity|].
  split; [reflexivity|]. vm_compute. tauto.
Qed.
Print Assumptions C32_refuted.
Example C32_ex : gas_seen (cTx ex_a "g" 0 10000) = Some (RcOk, [9967; 8963], 8962, Some 0) /\
  gas_of "x" (cTx ex_a "g" 0 10000) = Some (0, [(0, 0)]).
Proof. vm_compute. tauto. Qed.

(** ** C33: a nested call is handed at most the gas that is left: an API call
    behaves the same with runners that do anything else on other inputs. *)
Theorem C33_handed_partial : forall `{E : env} (ed1 ed2 : edf) (es1 es2 : call_input -> M unit),
  (forall i h, affordable i h -> ed1 i h = ed2 i h) -> (forall i h, affordable i h -> es1 i h = es2 i h) ->
  forall c h, ~ is_deploy c -> run_cmd ed1 es1 (api c) h = run_cmd ed2 es2 (api c) h.
Proof. exact @afford_api. Qed.
Print Assumptions C33_handed_partial.
(** a gas limit of -1, with 100000 units left (minus the 1 of the API call):
    the callee gets them all; a runner that fails for anything it could not
    afford changes nothing *)
Example C33_handed_ex :
  let h := fst (cRun ex_g (with_call "t" 2 (str "work") PRet)) in
  let c := A_executeOnDestContext (-1) 0 32 64 4 0 0 0 in
  let ed i h := if (0 <=? handed (ci_vm i)) && (handed (ci_vm i) <=? left_of h) && (vi_locked (ci_vm i) =? 0)
                then vmDest (E := cEnv ex_g) 11 i h else (h, OErr ErrGeneric) in
  ~ is_deploy c /\ (forall i h, affordable i h -> vmDest (E := cEnv ex_g) 11 i h = ed i h) /\
  snd (run_cmd (E := cEnv ex_g) ed (fun _ => fail ErrGeneric) (api (E := cEnv ex_g) c) h) = OOk 0.
Proof.
  cbv zeta. split; [intros []|]. split; [|vm_compute; reflexivity].
  intros i h [[H1 H2] H3]. rewrite (proj2 (Z.leb_le _ _) H1), (proj2 (Z.leb_le _ _) H2), (proj2 (Z.eqb_eq _ _) H3).
  cbn [andb]. exact eq_refl.
Qed.

(** What was handed is deducted, the unused part (0 on failure) is given back,
    and the caller's budget stays.  What is missing: a call that failed before
    any contract code was started may have cost nothing instead of all that it
    was handed (see C33_refuted), and built-in functions. *)
Theorem C33_dest_partial : forall `{E : env} n i h h' oo info e,
  host_ok h -> in_frame h -> counters_ok h ->
  e_isBuiltin E (ci_fn i) = false -> gas_input (ci_vm i) -> spent h + handed (ci_vm i) <= max_i64 ->
  vmDest n i h = (h', OOk (oo, info, e)) ->
  exists o, oo = Some o /\ call_gas h h' (handed (ci_vm i)) (o_gasrem o) (bool_decide (e <> None)).
Proof. exact @dest_gas. Qed.
Print Assumptions C33_dest_partial.
Theorem C33_same_partial : forall `{E : env} n i h h' r,
  host_ok h -> in_frame h -> counters_ok h ->
  e_isBuiltin E (ci_fn i) = false -> gas_input (ci_vm i) -> spent h + handed (ci_vm i) <= max_i64 ->
  vmSame n i h = (h', r) -> r <> OFuel -> r <> OPanic ->
  exists back, call_gas h h' (handed (ci_vm i)) back (match r with OOk _ => false | _ => true end) /\
    (r <> OOk tt -> back = 0).
Proof. exact @same_gas. Qed.
Print Assumptions C33_same_partial.
Definition ex_f : list (string * list (string * prog)) :=
  [("s", []); ("t", [("work", PWork 300 PRet); ("fail", PWork 300 PTrap)])]%string.
Example C33_ex :
  let d f := vmDest (E := cEnv ex_f) 12 (call_of (addr "s") (addr "t") f [] 2 1000) (cHost ex_f) in
  host_ok (cHost ex_f) /\ metered (cHost ex_f) /\
  (match snd (d "work"%string) with OOk (Some o, _, None) => Some (o_gasrem o) | _ => None end, spent (fst (d "work"%string))) = (Some 668, 332) /\
  (match snd (d "fail"%string) with OOk (Some o, _, Some _) => Some (o_gasrem o) | _ => None end, spent (fst (d "fail"%string))) = (Some 0, 1000) /\
  spent (fst (vmSame (E := cEnv ex_f) 12 (call_of (addr "s") (addr "t") "work" [] 0 1000) (cHost ex_f))) = 332.
Proof.
  split; [split; [reflexivity|intros i [= <-]; vm_compute; lia]|]. split; [apply cHost_metered|]. vm_compute. tauto.
Qed.

(** C33 fails for calls that fail before the callee is started: a call with a
    value that the caller does not have is handed 1000 units of gas, fails, and
    costs only what the API call itself costs. *)
Theorem C33_refuted :
  exists (E : env) i h, env_ok E /\ host_ok h /\ metered h /\ handed (ci_vm i) = 1000 /\
    let r := vmDest 12 i h in
    match snd r with OOk (_, _, Some _) => true | _ => false end = true /\ spent (fst r) = spent h.
Proof.
  exists (cEnv ex_f), (call_of (addr "s") (addr "t") "work" [] 101 1000), (cHost ex_f). split; [apply exEnv_ok|].
  split; [split; [reflexivity|intros i [= <-]; vm_compute; lia]|]. split; [apply cHost_metered|]. vm_compute. tauto.
Qed.
Print Assumptions C33_refuted.

(** ** C34: an accepted asynchronous call found more gas than the cost of the step
    plus the lock, and both are deducted.  What is missing: the code size in the
    formula is that of the contract loaded last, which need not be the calling
    contract, see C34_refuted. *)
Theorem C34_partial : forall `{E : env}, env_ok E -> forall a d v h h', metered h -> in_u64 (h_codesize h) ->
  ExecuteAsyncCall a d v h = (h', OOk tt) ->
  let cb := has_callback h \/ e_dyn E = false in
  exists lock,
    (cb -> lock = callback_lock (h_codesize h)) /\ (~ cb -> lock = 0) /\
    e_cost E CAsyncCallStep + lock < left_of h /\
    left_of h' = left_of h - e_cost E CAsyncCallStep - lock /\
    r_async (h_rt h') = Some (mkAsync a d (left_of h') lock v).
Proof. exact @async_gas. Qed.
Print Assumptions C34_partial.

Definition ex_s : list (string * prog) :=
  [("f", call_async "x" 0 "f" PRet); ("g", call_dest 1000 "t" 0 "f" (call_async "x" 0 "f" PRet)); ("callBack", PRet)]%string.
Definition ex_t : list (string * list (string * prog)) := [("t", [("f", PRet)])]%string.
Example C34_ex :
  let h := set_h_codesize 32 (set_h_insts {[0%nat := mkInst 0 100000 BreakpointNone (mkMem [] 1) (mod_of [(str "callBack", PRet)])]} (cHost [])) in
  let r := ExecuteAsyncCall (E := cEnv []) (addr "x") (str "f") [] h in
  metered h /\ @callback_lock (cEnv []) 32 = 34 /\ snd r = OOk tt /\ left_of h - left_of (fst r) = 1 + 34 /\
  snd (ExecuteAsyncCall (E := cEnv []) (addr "x") (str "f") [] (set_h_met (mkMet 35 0 35 ∅) h)) = OErr ErrNotEnoughGas /\
  snd (ExecuteAsyncCall (E := cEnv []) (addr "x") (str "f") [] (set_h_met (mkMet 36 0 36 ∅) h)) = OOk tt.
Proof.
  cbv zeta. split.
  - split; [eexists _, _; split; reflexivity|]. split; [|vm_compute; split; discriminate].
    intros c x. cbn. rewrite lookup_singleton_Some. intros [_ <-]. cbn. lia.
  - vm_compute. tauto.
Qed.

(** C34 fails after a nested call: the 128 bytes of "s" need a lock of 130, which
    is what it locks when it makes the asynchronous call right away; after a call
    of "t" (32 bytes) it locks 34. *)
Theorem C34_refuted :
  exists (E : env) i h, env_ok E /\ no_stacks h /\ h_stoprot h = true /\
    (ua_code <$> w_accounts (h_world h) !! ci_rcpt i) = Some big_code /\ @callback_lock E (blen big_code) = 130 /\
    gas_of "x" (RunSmartContractCall 12 i h) = Some (0, [(9866 - 64, 34)]).
Proof.
  exists (bigEnv ex_s ex_t), (txS "g" 0 10000), (host0 (bigWorld ex_t)). split; [apply exEnv_ok|]. split; [constructor; reflexivity|].
  split; [reflexivity|]. vm_compute. tauto.
Qed.
Print Assumptions C34_refuted.
Example C34_direct_ex : gas_of "x" (bigTx ex_s ex_t "f" 10000) = Some (0, [(9867 - 128, 130)]).
Proof. vm_compute. reflexivity. Qed.

(** ** C35, callbacks that run in the same shard: the callback is handed all the
    gas that the call left plus the lock, minus the price of passing the results
    on; nothing of it is still locked, so [handed] is its gas. *)
Theorem C35_local_partial : forall `{E : env}, env_ok E -> forall c o a f e h h' i,
  0 <= o_gasrem o -> 0 <= ac_locked c -> o_gasrem o + ac_locked c < 2 ^ 64 ->
  createCallbackContractCallInput c o a f e h = (h', OOk i) ->
  exists price, e_cost E CAsyncCallStep <= price /\ h' = h /\ vi_ctype (ci_vm i) = AsynchronousCallBack /\
    ci_rcpt i = r_addr (h_rt h) /\ vi_locked (ci_vm i) = 0 /\
    vi_gas (ci_vm i) + price = o_gasrem o + ac_locked c /\ 0 < vi_gas (ci_vm i).
Proof. exact @callback_input. Qed.
Print Assumptions C35_local_partial.
Example C35_ex :
  let r := createCallbackContractCallInput (E := cEnv []) (mkAsync (addr "t") [] 100 34 []) (set_o_gasrem 66 newVMOutput)
             (addr "t") (str "callBack") None (cHost []) in
  match snd r with OOk i => (vi_gas (ci_vm i), handed (ci_vm i)) | _ => (0, 0) end = (90, 90).
Proof. vm_compute. reflexivity. Qed.

(** C35 fails for callbacks that arrive as transactions from another shard: the
    locked gas is added for the final check of the gas but not for the
    execution.  A callback that does nothing, with 1000 units of gas and a code of
    32 bytes, fails when in addition any gas was locked for it. *)
Definition ex_c : list (string * list (string * prog)) := [("s", [("callBack", PRet)])]%string.
Definition callback_tx (locked : Z) : call_input :=
  mkCall (mkInput (addr "x") [[]] 0 AsynchronousCallBack 0 1000 locked [] (str "tx0") (str "tx0") false)
    (addr "s") (str "callBack") false.
Theorem C35_refuted :
  exists (E : env) i h, env_ok E /\ no_stacks h /\ h_stoprot h = true /\
    vi_ctype (ci_vm i) = AsynchronousCallBack /\ vi_gas (ci_vm i) = 1000 /\ vi_locked (ci_vm i) = 500 /\
    gas_seen (RunSmartContractCall 12 i h) = Some (RcExecutionFailed, [], 0, Some 0) /\
    gas_seen (RunSmartContractCall 12 (set_ci_vm (set_vi_locked 0 (ci_vm i)) i) h) = Some (RcOk, [], 968, Some 0).
Proof.
  exists (cEnv ex_c), (callback_tx 500), (host0 (cWorld ex_c)). split; [apply exEnv_ok|]. split; [constructor; reflexivity|].
  split; [reflexivity|]. vm_compute. tauto.
Qed.
Print Assumptions C35_refuted.

(** ** C36 fails: after a successful nested call the refund is the callee's, no
    matter what had been credited to the caller before. *)
Theorem C36_overwritten : forall `{E : env} n i h h' o info,
  host_ok h -> e_isBuiltin E (ci_fn i) = false ->
  vmDest n i h = (h', OOk (Some o, info, None)) -> o_refund (h_out h') = Some (default 0 (o_refund o)).
Proof. exact @dest_refund. Qed.
Print Assumptions C36_overwritten.
Definition ex_r : list (string * list (string * prog)) :=
  [("s", [("f", store_kv "k" "" PRet); ("g", store_kv "k" "" (call_dest 1000 "t" 0 "f" PRet))]); ("t", [("f", PRet)])]%string.
(** "s" clears a value of 10 bytes; the second time it calls "t" afterwards *)
Theorem C36_refuted :
  exists (E : env) h, env_ok E /\ no_stacks h /\ h_stoprot h = true /\
    gas_seen (RunSmartContractCall 12 (txS "f" 0 10000) h) = Some (RcOk, [], 9967, Some 10) /\
    gas_seen (RunSmartContractCall 12 (txS "g" 0 10000) h) = Some (RcOk, [], 9934, Some 0).
Proof.
  exists (cEnv ex_r), (host0 (mkWorld (<[addr "s" := sc_user (addr "s") 100 {[str "k" := str "long value"]}]> (w_accounts (cWorld ex_r))) ∅)).
  split; [apply exEnv_ok|]. split; [constructor; reflexivity|]. split; [reflexivity|]. vm_compute. tauto.
Qed.
Print Assumptions C36_refuted.
