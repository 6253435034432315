(** C37: what failing transactions return; the direct part of C41. *)
From Verif Require Import VmModel CallSpec GasSpec CodeSpec ClassProofs InitProofs ExCalls.

(** ** C37: a transaction that does not succeed returns nothing but a return code
    of one of the error classes, and a message.  The node's built-in functions
    are assumed to report failures as errors; see C37_refuted. *)
Theorem C37_call : forall `{E : env} n i h h' o, honest_builtins -> host_ok h ->
  RunSmartContractCall n i h = (h', OOk o) -> o_code o <> RcOk -> only_an_error o /\ error_class (o_code o).
Proof. exact @bad_call. Qed.
Print Assumptions C37_call.
Theorem C37_create : forall `{E : env} n i h h' o, honest_builtins -> host_ok h ->
  RunSmartContractCreate n i h = (h', OOk o) -> o_code o <> RcOk -> only_an_error o /\ error_class (o_code o).
Proof. exact @bad_create. Qed.
Print Assumptions C37_create.

(** The classes that the transaction and the world decide. *)
Theorem C37_out_of_gas : forall `{E : env} n i h, env_ok E -> plain_call i ->
  vi_gas (ci_vm i) < lookup_cost \/
  (exists code, code_at (h_world h) (ci_rcpt i) code /\ Z.of_nat (length code) <= max_i64 /\ vi_gas (ci_vm i) < start_cost code) ->
  exists h' o, RunSmartContractCall n i h = (h', OOk o) /\ o_code o = RcOutOfGas.
Proof. exact @no_gas. Qed.
Print Assumptions C37_out_of_gas.
Theorem C37_contract_not_found : forall `{E : env} n i h, plain_call i -> lookup_cost <= vi_gas (ci_vm i) ->
  no_code_at (h_world h) (ci_rcpt i) ->
  exists h' o, RunSmartContractCall n i h = (h', OOk o) /\ o_code o = RcContractNotFound.
Proof. exact @no_code. Qed.
Print Assumptions C37_contract_not_found.
Theorem C37_contract_invalid : forall `{E : env} n i h code, env_ok E -> startable i h code None ->
  exists h' o, RunSmartContractCall n i h = (h', OOk o) /\ o_code o = RcContractInvalid.
Proof. exact @no_module. Qed.
Print Assumptions C37_contract_invalid.
Theorem C37_function_not_found : forall `{E : env} n i h code m, env_ok E -> startable i h code (Some m) ->
  ~ forbidden_name (ci_fn i) -> export m (ci_fn i) = None ->
  exists h' o, RunSmartContractCall n i h = (h', OOk o) /\ o_code o = RcFunctionNotFound.
Proof. exact @no_function. Qed.
Print Assumptions C37_function_not_found.
(** The classes that the contract decides: the function starts, with the whole
    gas left after the code was paid for, and if it is stopped, then the reason
    gives the code. *)
Theorem C37_stopped : forall `{E : env} n i h code m p, env_ok E -> startable i h code (Some m) ->
  ~ forbidden_name (ci_fn i) -> export m (ci_fn i) = Some p ->
  exists h1, at_function i code m h1 /\ forall h2 bp c,
    vmRun n p h1 = (h2, OOk false) -> stopped_by h2 bp -> stop_code bp c ->
    exists h' o, RunSmartContractCall n i h = (h', OOk o) /\ o_code o = c.
Proof. exact @stops. Qed.
Print Assumptions C37_stopped.

Definition seen (r : host * outc vm_output) : option (return_code * bytes * Z * nat) :=
  match snd r with OOk o => Some (o_code o, o_msg o, o_gasrem o, size (o_accounts o)) | _ => None end.
(** "s" stores, pays and then signals an error, traps or runs out of gas *)
Definition ex_f : list (string * list (string * prog)) :=
  [("s", [("signal", store_kv "k" "v" (transfer "u" 1 (PWrite 0 (str "no") (api1 (A_signalError 0 2) PRet))));
          ("trap", store_kv "k" "v" PTrap); ("work", store_kv "k" "v" (PWork 100000 PRet)); ("good", store_kv "k" "v" PRet)])]%string.
Example C37_ex :
  seen (cTx ex_f "good" 0 1000) = Some (RcOk, [], 966, 1%nat) /\
  seen (cTx ex_f "signal" 0 1000) = Some (RcUserError, str "no", 0, 0%nat) /\
  seen (cTx ex_f "trap" 0 1000) = Some (RcExecutionFailed, str "error", 0, 0%nat) /\
  seen (cTx ex_f "work" 0 1000) = Some (RcOutOfGas, str "error", 0, 0%nat) /\
  seen (cTx ex_f "none" 0 1000) = Some (RcFunctionNotFound, str "error", 0, 0%nat) /\
  seen (cTx ex_f "good" 0 20) = Some (RcOutOfGas, str "error", 0, 0%nat) /\
  seen (RunSmartContractCall (E := cEnv ex_f) 12 (call_of (addr "u") (addr "t") "f" [] 0 1000) (host0 (cWorld ex_f)))
    = Some (RcContractNotFound, str "error", 0, 0%nat).
Proof. vm_compute. tauto. Qed.
Lemma ex_startable f gas : 32 <= gas < max_u64 -> str f <> UpgradeFunctionName ->
  @startable (cEnv ex_f) (txS f 0 gas) (host0 (cWorld ex_f)) (addr "s") (e_compile (cEnv ex_f) (addr "s")).
Proof.
  intros Hg Hf. constructor; try reflexivity.
  - split; [exact Hf|]. split; [discriminate|]. exact (conj (Z.le_trans 0 32 _ ltac:(discriminate) (proj1 Hg)) (proj2 Hg)).
  - split; [discriminate|]. eexists. split; [vm_compute; reflexivity|reflexivity].
  - discriminate.
  - intros u c _ Hc. discriminate Hc.
  - exact (Z.le_trans 1 32 _ ltac:(discriminate) (proj1 Hg)).
  - exact (proj1 Hg).
Qed.

(** Without the assumption: a built-in function that returns a code other than
    Ok together with a nil error makes a "failed" output which keeps the storage
    change, the transfer and the return data of the caller. *)
Definition ex_b : list (string * list (string * prog)) :=
  [("s", [("f", store_kv "k" "v" (transfer "u" 1 (finish_with "d" (call_dest 100 "s" 0 "builtin" PRet))))])]%string.
Definition bad_builtin : env :=
  exEnvWith (fun w i => (w, ROk (mkOut [] RcUserError [] (SubUint64 (vi_gas (ci_vm i)) 1) (Some 0) ∅ []))) (contracts ex_b).
Theorem C37_refuted : exists (E : env) i h, env_ok E /\ no_stacks h /\ h_stoprot h = true /\
  match snd (RunSmartContractCall 12 i h) with
  | OOk o => o_code o <> RcOk /\ size (o_accounts o) = 2%nat /\ o_retdata o = [str "d"] /\ 0 < o_gasrem o
  | _ => False
  end.
Proof.
  exists bad_builtin, (txS "f" 0 1000), (host0 (cWorld ex_b)). split; [apply exEnvWith_ok|]. split; [repeat split|].
  split; [reflexivity|]. vm_compute. repeat split; discriminate || reflexivity.
Qed.
Print Assumptions C37_refuted.

(** ** C30, the outputs of failing transactions: no gas remains. *)
Theorem C30_failed : forall `{E : env} n i h h' o, honest_builtins -> host_ok h ->
  RunSmartContractCall n i h = (h', OOk o) -> o_code o <> RcOk -> o_gasrem o = 0 /\ o_accounts o = ∅.
Proof. intros E n i h h' o Hb Hh Hr Hc. destruct (bad_call n i h h' o Hb Hh Hr Hc) as [[H1 _ _ H2 _] _]. exact (conj H2 H1). Qed.
Print Assumptions C30_failed.

(** ** C41, the direct part: a transaction naming the constructor or the callback
    function is refused, whatever the contract exports. *)
Theorem C41_direct_partial : forall `{E : env} n i h code m, env_ok E -> startable i h code (Some m) ->
  forbidden_name (ci_fn i) -> exists h' o, RunSmartContractCall n i h = (h', OOk o) /\ o_code o = RcUserError.
Proof. exact @no_entry. Qed.
Print Assumptions C41_direct_partial.
Definition ex_i : list (string * list (string * prog)) :=
  [("s", [("init", store_kv "k" "v" PRet); ("callBack", store_kv "k" "w" PRet); ("viaInit", call_dest 200 "s" 0 "init" PRet);
          ("viaCallBack", call_dest 200 "s" 0 "callBack" PRet)])]%string.
Example C41_ex :
  seen (cTx ex_i "init" 0 1000) = Some (RcUserError, str "error", 0, 0%nat) /\
  seen (cTx ex_i "callBack" 0 1000) = Some (RcUserError, str "error", 0, 0%nat).
Proof. vm_compute. tauto. Qed.
(** A nested call of the constructor other than that of a deployment ([ci_init],
    Go's AllowInitFunction, which only CreateNewContract sets) is refused and no
    contract is started. *)
Theorem C41_nested_partial : forall `{E : env} n i h h' r, h_stoprot h = true ->
  ci_fn i = InitFunctionName \/ ci_fn i = InitFunctionNameEth -> ci_init i = false -> e_isBuiltin E (ci_fn i) = false ->
  vmDest n i h = (h', r) -> r <> OPanic -> r <> OFuel ->
  (exists o e, r = OOk (Some o, None, Some e)) /\ nothing_ran h h'.
Proof. exact @dest_init. Qed.
Print Assumptions C41_nested_partial.
Theorem C41_nested_same_partial : forall `{E : env} n i h h' r,
  ci_fn i = InitFunctionName \/ ci_fn i = InitFunctionNameEth -> ci_init i = false ->
  vmSame n i h = (h', r) -> r <> OPanic -> r <> OFuel -> (exists e, r = OErr e) /\ nothing_ran h h'.
Proof. exact @same_init. Qed.
Print Assumptions C41_nested_same_partial.
Example C41_nested_ex :
  match cTx ex_i "viaInit" 0 1000 with
  | (h, OOk o) => (o_code o, (a ← o_accounts o !! addr "s"; oa_storage a !! str "k"), length (List.filter is_run (h_trace h))) = (RcExecutionFailed, None, 1%nat)
  | _ => False
  end.
Proof. vm_compute. reflexivity. Qed.
(** C41 fails for nested calls: another contract (here the contract itself) runs
    "callBack" as an ordinary call. *)
Theorem C41_refuted : exists (E : env) i h, env_ok E /\ no_stacks h /\ h_stoprot h = true /\
  vi_ctype (ci_vm i) = DirectCall /\ ci_fn i = str "viaCallBack" /\
  match snd (RunSmartContractCall 12 i h) with
  | OOk o => o_code o = RcOk /\ (a ← o_accounts o !! addr "s"; oa_storage a !! str "k") = Some (str "w")
  | _ => False
  end.
Proof.
  exists (cEnv ex_i), (txS "viaCallBack" 0 1000), (host0 (cWorld ex_i)). split; [apply exEnv_ok|]. split; [repeat split|].
  vm_compute. tauto.
Qed.
Print Assumptions C41_refuted.
