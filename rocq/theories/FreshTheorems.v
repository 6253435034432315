(** C58: earlier transactions leave nothing behind that matters. *)
From Verif Require Import VmModel FreshSpec FreshProofs FreshTxProofs ExEnv ExCalls ExFresh.

(** Two hosts with any pasts that read the same node run the same call with the
    same result, the same effects on the node and the same events. *)
Theorem C58_call : forall `{E : env} n i h1 h2, history h1 -> history h2 -> same_node h1 h2 ->
  ci_fn i <> UpgradeFunctionName -> same_run (RunSmartContractCall n i) h1 h2.
Proof. exact @fresh_call. Qed.
Print Assumptions C58_call.

(** The same of deployments and upgrades.  Missing: they read the size of the
    code last looked up, which may have been that of an earlier transaction, so
    it is required to be the same. *)
Theorem C58_create_partial : forall `{E : env} n i h1 h2, history h1 -> history h2 -> same_node h1 h2 ->
  h_codesize h1 = h_codesize h2 -> same_run (RunSmartContractCreate n i) h1 h2.
Proof. exact @fresh_create. Qed.
Print Assumptions C58_create_partial.

Theorem C58_upgrade_partial : forall `{E : env} n i h1 h2, history h1 -> history h2 -> same_node h1 h2 ->
  ci_fn i = UpgradeFunctionName -> h_codesize h1 = h_codesize h2 -> same_run (RunSmartContractCall n i) h1 h2.
Proof. exact @fresh_upgrade. Qed.
Print Assumptions C58_upgrade_partial.

(** Two pasts, both of two successful calls of the same two contracts, in either
    order; the same deployment or upgrade, whose constructor makes an
    asynchronous call, then hands on different amounts of gas. *)
Theorem C58_deploy_refuted : exists (E : env) n h1 h2, env_ok E /\ history h1 /\ history h2 /\ same_node h1 h2 /\
  (exists i, snd (RunSmartContractCreate n i h1) <> snd (RunSmartContractCreate n i h2)) /\
  (exists i, ci_fn i = UpgradeFunctionName /\ snd (RunSmartContractCall n i h1) <> snd (RunSmartContractCall n i h2)).
Proof.
  exists fEnv, 12%nat, host_st, host_ts. split; [apply exEnv_ok|]. split; [exact history_st|]. split; [exact history_ts|].
  split; [exact same_st_ts|]. split.
  - exists f_create. intros H. apply (f_equal gas_to_x) in H. vm_compute in H. discriminate H.
  - exists f_upgrade. split; [reflexivity|]. intros H. apply (f_equal gas_to_x) in H. vm_compute in H. discriminate H.
Qed.
Print Assumptions C58_deploy_refuted.

(** two pasts that left different numbers of instances and snapshots *)
Example C58_call_ex : history (E := fEnv) host_panic /\ history (E := fEnv) host_st /\ same_node host_panic host_st /\
  (h_next host_panic, length (h_bcst host_panic), h_codesize host_panic) <> (h_next host_st, length (h_bcst host_st), h_codesize host_st) /\
  match snd (RunSmartContractCall (E := fEnv) 12 (fCall "s" "f") host_panic) with OOk o => o_retdata o | _ => [] end = [str "s"].
Proof.
  split; [exact history_panic|]. split; [exact history_st|]. split; [exact same_panic_st|]. split; vm_compute; [discriminate|reflexivity].
Qed.
Example C58_deploy_ex : history (E := fEnv) host_panic /\ history (E := fEnv) host_ts /\ same_node host_panic host_ts /\
  h_codesize host_panic = h_codesize host_ts /\ h_next host_panic <> h_next host_ts /\
  gas_to_x (snd (RunSmartContractCreate (E := fEnv) 12 f_create host_panic)) = [(4928, 34)].
Proof.
  split; [exact history_panic|]. split; [exact history_ts|]. split; [exact same_panic_ts|].
  split; [vm_compute; reflexivity|]. split; vm_compute; [discriminate|reflexivity].
Qed.
