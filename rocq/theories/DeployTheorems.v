(** C39, C42, C43, C54: deployments and upgrades. *)
From Verif Require Import VmModel CallSpec OutSpec GasSpec CodeSpec DeploySpec ExDeploy
  DeployProofs StartProofs NonceProofs FrozenProofs KeptProofs.

(** * C39: only well-formed contracts are instantiated from new code

    Proved for direct deployments, direct upgrades and upgrades by contracts,
    which are also the upgrades by asynchronous calls: code starts to run only
    when it is deployable, and the transaction or call succeeds only then.  What
    is missing: deployments by contracts, for which the claim is false, see
    C39_create_refuted. *)
Theorem C39_deploy_partial : forall `{E : env} n i h h' o,
  env_ok E -> RunSmartContractCreate n i h = (h', OOk o) -> o_code o = RcOk -> deployable (cc_code i).
Proof. intros E n i h h' o HE. apply create_deployable, HE. Qed.
Print Assumptions C39_deploy_partial.

Theorem C39_deploy_starts_partial : forall `{E : env} rd i h,
  env_ok E -> starts_only_in (new_code_runs (cc_code i)) (fun run => doRunSmartContractCreate run rd i) h.
Proof. intros E rd i h HE. exact (create_starts HE rd i h). Qed.
Print Assumptions C39_deploy_starts_partial.

Theorem C39_upgrade_partial : forall `{E : env} n i h h' o,
  env_ok E -> ci_fn i = str "upgradeContract" -> RunSmartContractCall n i h = (h', OOk o) -> o_code o = RcOk ->
  exists code, vi_args (ci_vm i) !! 0%nat = Some code /\ deployable code.
Proof. intros E n i h h' o HE. apply upgrade_deployable, HE. Qed.
Print Assumptions C39_upgrade_partial.

Theorem C39_upgrade_starts_partial : forall `{E : env} rd i h,
  env_ok E -> ci_fn i = str "upgradeContract" ->
  starts_only_in (fun hs => exists code, vi_args (ci_vm i) !! 0%nat = Some code /\ new_code_runs code hs)
    (fun run => RunSmartContractCallIn run rd i) h.
Proof. intros E rd i h HE Hf. exact (upgrade_starts HE rd i h Hf). Qed.
Print Assumptions C39_upgrade_starts_partial.

Theorem C39_nested_upgrade_partial : forall `{E : env} n i h h' o info,
  env_ok E -> host_ok h -> e_isBuiltin E (ci_fn i) = false -> ci_fn i = str "upgradeContract" ->
  vmDest n i h = (h', OOk (o, info, None)) ->
  exists code, vi_args (ci_vm i) !! 0%nat = Some code /\ deployable code.
Proof. intros E n i h h' o info HE Hok Hb Hf H. exact (proj2 (dest_upgrade_ok HE n i h h' o info Hok Hb Hf H)). Qed.
Print Assumptions C39_nested_upgrade_partial.

Theorem C39_same_upgrade_partial : forall `{E : env} n i h h',
  env_ok E -> ci_fn i = str "upgradeContract" -> vmSame n i h = (h', OOk tt) ->
  exists code, vi_args (ci_vm i) !! 0%nat = Some code /\ deployable code.
Proof. intros E n i h h' HE Hf H. exact (proj2 (same_upgrade_ok HE n i h h' Hf H)). Qed.
Print Assumptions C39_same_upgrade_partial.

(** A contract without memory that exports the name of a built-in function and
    a function with an argument is refused as a direct deployment, but deployed
    when another contract creates it. *)
Theorem C39_create_refuted :
  exists (E : env) i h code,
    env_ok E /\ no_stacks h /\ ~ deployable code /\
    new_code (first_of "s") (RunSmartContractCall 12 i h) = Some (RcOk, Some (code, [Byte.x01; Byte.x00])) /\
    new_code (first_of "u") (RunSmartContractCreate 12 (mkCreate (input_of (addr "u") [] 0 50000) code [Byte.x01; Byte.x00]) h)
      = Some (RcContractInvalid, None).
Proof.
  exists vEnv, (txS "f" 0 50000), (host0 (cWorld ex_v)), (addr "c").
  split; [apply exEnv_ok|]. split; [constructor; reflexivity|]. split.
  - intros (m & Hm & Hw & _). assert (Hb : Some m = Some bad_module) by (rewrite <- Hm; reflexivity). injection Hb as ->. discriminate Hw.
  - vm_compute. tauto.
Qed.
Print Assumptions C39_create_refuted.

(** deployments and upgrades that succeed *)
Example C39_ex :
  deployable (E := vEnv) (addr "d") /\
  new_code (first_of "u") (RunSmartContractCreate (E := vEnv) 12 (create_of "d") (host0 (cWorld ex_v)))
    = Some (RcOk, Some (addr "d", [Byte.x01; Byte.x00])) /\
  new_code (addr "t") (RunSmartContractCall (E := cEnv ex_w) 12
      (call_of (addr "o") (addr "t") "upgradeContract" (upgrade_args "n") 0 50000) wHost) = Some (RcOk, Some (addr "n", [Byte.x01; Byte.x00])) /\
  new_code (addr "t") (wRun (tx_of "u" "o" "f") wHost) = Some (RcOk, Some (addr "n", [Byte.x01; Byte.x00])).
Proof.
  split; [|vm_compute; tauto]. eexists. split; [reflexivity|]. split; [reflexivity|].
  intros name p [H|[H|[]]]; injection H as <- <-; (split; [|reflexivity]); repeat split;
    try discriminate; try (cbn; lia); repeat constructor.
Qed.

(** * C42: only the owner can upgrade an upgradeable contract

    [may_upgrade w a by_]: [a] exists in [w], is upgradeable and is owned by
    [by_].  Nested calls of upgradeContract succeed only with this permission for
    the caller named in the call, start code only then, and are otherwise
    refused without any effect.  What is missing: the caller named in the call
    need not be the contract that makes it, see C42_by_caller_refuted; and that
    the account is a contract is not checked (C42_not_a_contract_refuted). *)
Theorem C42_permitted_partial : forall `{E : env} n i h h' o info,
  env_ok E -> host_ok h -> e_isBuiltin E (ci_fn i) = false -> ci_fn i = str "upgradeContract" ->
  vmDest n i h = (h', OOk (o, info, None)) -> may_upgrade (h_world h) (ci_rcpt i) (vi_caller (ci_vm i)).
Proof. intros E n i h h' o info HE Hok Hb Hf H. exact (proj1 (dest_upgrade_ok HE n i h h' o info Hok Hb Hf H)). Qed.
Print Assumptions C42_permitted_partial.

Theorem C42_permitted_same_partial : forall `{E : env} n i h h',
  env_ok E -> ci_fn i = str "upgradeContract" -> vmSame n i h = (h', OOk tt) ->
  may_upgrade (h_world h) (ci_rcpt i) (vi_caller (ci_vm i)).
Proof. intros E n i h h' HE Hf H. exact (proj1 (same_upgrade_ok HE n i h h' Hf H)). Qed.
Print Assumptions C42_permitted_same_partial.

(** code starts to run in such a call only with permission, and it is the code
    given as the first argument *)
Theorem C42_starts_partial : forall `{E : env} rd i h,
  env_ok E -> e_isBuiltin E (ci_fn i) = false -> ci_fn i = str "upgradeContract" ->
  starts_only_in (fun hs => may_upgrade (h_world h) (ci_rcpt i) (vi_caller (ci_vm i)) /\
      exists code, vi_args (ci_vm i) !! 0%nat = Some code /\ new_code_runs code hs)
    (fun run => ExecuteOnDestContext run rd i) h.
Proof. intros E rd i h HE Hb Hf. exact (dest_upgrade_starts HE rd i h Hb Hf). Qed.
Print Assumptions C42_starts_partial.

Theorem C42_starts_same_partial : forall `{E : env} rd i h,
  env_ok E -> ci_fn i = str "upgradeContract" ->
  starts_only_in (fun hs => may_upgrade (h_world h) (ci_rcpt i) (vi_caller (ci_vm i)) /\
      exists code, vi_args (ci_vm i) !! 0%nat = Some code /\ new_code_runs code hs)
    (fun run => ExecuteOnSameContext run rd i) h.
Proof. intros E rd i h HE Hf. exact (same_upgrade_starts HE rd i h Hf). Qed.
Print Assumptions C42_starts_same_partial.

(** without permission: an error, no code runs, nothing changes *)
Theorem C42_refused : forall `{E : env} n i h h' r,
  host_ok h -> e_isBuiltin E (ci_fn i) = false -> ci_fn i = str "upgradeContract" ->
  ~ may_upgrade (h_world h) (ci_rcpt i) (vi_caller (ci_vm i)) ->
  vmDest n i h = (h', r) -> r <> OPanic -> r <> OFuel ->
  (exists o e, r = OOk (Some o, None, Some e)) /\ nothing_ran h h' /\
  h_codeupd h' = h_codeupd h /\ h_world h' = h_world h /\ same_output (h_out h) (h_out h').
Proof. exact @dest_refused. Qed.
Print Assumptions C42_refused.

(** A contract that is not upgradeable keeps its code: no transaction, whatever
    contracts it runs, reports other code, metadata or deployer for it; except
    that the node may send an upgrade transaction to the contract itself (the
    node checks the permission for these). *)
Theorem C42_frozen : forall `{E : env} a n i h h' o,
  builtins_keep_owner a ->
  Forall (not_upgradeable a) (h_world h :: h_bcst h) ->
  (ci_fn i <> str "upgradeContract" \/ ci_rcpt i <> a) ->
  RunSmartContractCall n i h = (h', OOk o) -> keeps_code o a.
Proof. intros E a n i h h' o Hb. exact (frozen_call a Hb n i h h' o). Qed.
Print Assumptions C42_frozen.

Theorem C42_frozen_create : forall `{E : env} a n i h h' o,
  builtins_keep_owner a ->
  Forall (not_upgradeable a) (h_world h :: h_bcst h) ->
  (forall nonce, e_newAddress E (vi_caller (cc_vm i)) nonce <> ROk a) ->
  RunSmartContractCreate n i h = (h', OOk o) -> keeps_code o a.
Proof. intros E a n i h h' o Hb. exact (frozen_create a Hb n i h h' o). Qed.
Print Assumptions C42_frozen_create.

(** Contract "s", which does not own "t", replaces the code of "t" when the
    owner "o" calls it: executeOnDestContextByCaller makes the call in the name
    of the caller.  When a user calls "s", or when "s" calls in its own name, the
    upgrade is refused. *)
Theorem C42_by_caller_refuted :
  exists (E : env) i h,
    env_ok E /\ no_stacks h /\ ci_fn i <> str "upgradeContract" /\ ci_rcpt i = addr "s" /\
    ~ may_upgrade (h_world h) (addr "t") (addr "s") /\
    new_code (addr "t") (RunSmartContractCall 12 i h) = Some (RcOk, Some (addr "n", [Byte.x01; Byte.x00])).
Proof.
  exists (cEnv ex_w), (tx_of "o" "s" "g"), wHost. split; [apply exEnv_ok|]. split; [constructor; reflexivity|].
  split; [discriminate|]. split; [reflexivity|]. split; [|vm_compute; tauto].
  intros (u & Hu & _ & Ho). vm_compute in Hu. injection Hu as <-. discriminate Ho.
Qed.
Print Assumptions C42_by_caller_refuted.

(** an account without code is "upgraded" by its owner *)
Definition noCode : world :=
  mkWorld (<[addr "t" := mkUser 0 100 [] [] (map zb [5; 2]) (addr "o") ∅]> (w_accounts (cWorld ex_w))) ∅.
Theorem C42_not_a_contract_refuted :
  exists (E : env) i h,
    env_ok E /\ no_stacks h /\ no_code_at (h_world h) (addr "t") /\ ci_fn i <> str "upgradeContract" /\
    new_code (addr "t") (RunSmartContractCall 12 i h) = Some (RcOk, Some (addr "n", [Byte.x01; Byte.x00])).
Proof.
  exists (cEnv ex_w), (tx_of "u" "o" "f"), (host0 noCode). split; [apply exEnv_ok|]. split; [constructor; reflexivity|].
  split; [|split; [discriminate|vm_compute; tauto]].
  intros u Hu. cbn [host0 h_world noCode w_accounts] in Hu. rewrite lookup_insert in Hu. injection Hu as <-. reflexivity.
Qed.
Print Assumptions C42_not_a_contract_refuted.

(** permitted and refused; a contract that is not upgradeable *)
Definition fixed : world :=
  mkWorld (<[addr "t" := mkUser 0 100 (addr "t") (addr "t") (map zb [4; 2]) (addr "o") ∅]> (w_accounts (cWorld ex_w))) ∅.
Example C42_ex :
  may_upgrade (h_world wHost) (addr "t") (addr "o") /\ ~ may_upgrade (h_world wHost) (addr "t") (addr "s") /\
  host_ok wHost /\
  new_code (addr "t") (wRun (tx_of "u" "o" "f") wHost) = Some (RcOk, Some (addr "n", [Byte.x01; Byte.x00])) /\
  new_code (addr "t") (wRun (tx_of "u" "s" "f") wHost) = Some (RcExecutionFailed, None) /\
  Forall (not_upgradeable (addr "t")) (fixed :: []) /\ builtins_keep_owner (E := cEnv ex_w) (addr "t") /\
  new_code (addr "t") (wRun (tx_of "u" "o" "f") (host0 fixed)) = Some (RcExecutionFailed, None) /\
  new_code (addr "t") (wRun (tx_of "u" "s" "h") (host0 fixed)) = Some (RcOk, Some ([], [])).
Proof.
  split; [|split; [|split; [|split; [|split; [|split; [|split]]]]]].
  - eexists. split; [vm_compute; reflexivity|]. split; [|reflexivity]. do 2 eexists. split; reflexivity.
  - intros (u & Hu & _ & Ho). vm_compute in Hu. injection Hu as <-. discriminate Ho.
  - split; [reflexivity|]. intros i [=].
  - vm_compute. tauto.
  - vm_compute. tauto.
  - constructor; [|constructor]. eexists. split; [cbn [fixed w_accounts]; apply lookup_insert|].
    intros (b & c & Hbc & Ho). cbn in Hbc. injection Hbc as <- <-. vm_compute in Ho. discriminate Ho.
  - intros w i u Hu. exists u. split; [exact Hu|]. split; reflexivity.
  - vm_compute. tauto.
Qed.

(** * C43: the code that runs for an address is the code it has

    Proved for transactions and nested calls when compiled code is not cached,
    or when the cache holds nothing wrong under the hash that the node has for
    the address.  What is missing: the second part is not kept by executions,
    see C43_stale_refuted and C43_poisoned_refuted. *)
Theorem C43_call_partial : forall `{E : env} rd i h,
  ci_fn i <> str "upgradeContract" ->
  (forall code, code_at (h_world h) (ci_rcpt i) code -> cache_fine h (ci_rcpt i) code) ->
  starts_only_in (fun hs => r_addr (h_rt hs) = ci_rcpt i /\
      code_now hs (ci_rcpt i) = default [] (ua_code <$> w_accounts (h_world h) !! ci_rcpt i) /\
      exists m, e_compile E (code_now hs (ci_rcpt i)) = Some m /\ running_module hs = Some m)
    (fun run => RunSmartContractCallIn run rd i) h.
Proof.
  intros E rd i h Hf Hc. apply call_now; [exact Hf|]. unfold cache_fine in Hc.
  destruct (e_aot E); [right|left; reflexivity]. intros code Hat. destruct (Hc code Hat) as [Ha|Ha]; [discriminate Ha|exact Ha].
Qed.
Print Assumptions C43_call_partial.

Theorem C43_dest_partial : forall `{E : env} rd i h,
  e_isBuiltin E (ci_fn i) = false -> ci_fn i <> str "upgradeContract" -> cache_fine h (ci_rcpt i) (code_now h (ci_rcpt i)) ->
  starts_only_in (current_code_runs (ci_rcpt i) h) (fun run => ExecuteOnDestContext run rd i) h.
Proof. intros E rd i h Hb Hf Hc. exact (dest_now rd i h Hb Hf Hc). Qed.
Print Assumptions C43_dest_partial.

Theorem C43_same_partial : forall `{E : env} rd i h,
  ci_fn i <> str "upgradeContract" -> cache_fine h (ci_rcpt i) (code_now h (ci_rcpt i)) ->
  starts_only_in (current_code_runs (ci_rcpt i) h) (fun run => ExecuteOnSameContext run rd i) h.
Proof. intros E rd i h Hf Hc. exact (same_now rd i h Hf Hc). Qed.
Print Assumptions C43_same_partial.

(** The cache stays right when an instance is started for new code, or for an
    address whose hash in the node's state is empty or that of the code. *)
Theorem C43_cache_partial : forall `{E : env} code gas (isNew : bool) h h' r,
  cache_ok h ->
  (isNew = true \/ GetCodeHash h (r_addr (h_rt h)) = [] \/ GetCodeHash h (r_addr (h_rt h)) = e_sha256 E code) ->
  StartWasmerInstance code gas isNew h = (h', r) -> cache_ok h'.
Proof. exact @Start_cache. Qed.
Print Assumptions C43_cache_partial.

(** With a cache, a transaction that upgrades "t" and then calls it runs the old
    code of "t" when that is in the cache, and the new code when it is not:
    the result of a transaction depends on the content of a correct cache. *)
Theorem C43_stale_refuted :
  exists (E : env) i h1 h2,
    env_ok E /\ no_stacks h1 /\ no_stacks h2 /\ cache_ok h1 /\ cache_ok h2 /\
    (h_world h1 = h_world h2 /\ h2 = set_h_cache (h_cache h2) h1) /\
    answer (RunSmartContractCall 12 i h1) = Some (RcOk, [str "new"]) /\
    answer (RunSmartContractCall 12 i h2) = Some (RcOk, [str "old"]).
Proof.
  exists aotEnv, (tx_of "u" "o" "g"), wHost, cached.
  split; [apply exEnvFull_ok; reflexivity|]. split; [constructor; reflexivity|]. split; [constructor; reflexivity|].
  split; [intros k c Hk; cbn in Hk; rewrite lookup_empty in Hk; discriminate Hk|].
  split.
  { intros k c Hk. change (({[addr "t" := addr "t"]} : gmap bytes bytes) !! k = Some c) in Hk. apply lookup_singleton_Some in Hk as [<- <-]. reflexivity. }
  split; [split; reflexivity|]. vm_compute. tauto.
Qed.
Print Assumptions C43_stale_refuted.

(** With a cache that is empty at first, a transaction that upgrades "t", calls
    it and then fails leaves the new code in the cache under the hash of the old
    code: although the upgrade is reverted, the next transaction that calls "t"
    runs the new code. *)
Theorem C43_poisoned_refuted :
  exists (E : env) i j h,
    env_ok E /\ no_stacks h /\ cache_ok h /\
    let r := RunSmartContractCall 12 i h in
    answer r = Some (RcExecutionFailed, []) /\
    ua_code <$> w_accounts (h_world (fst r)) !! addr "t" = Some (addr "t") /\
    ~ cache_ok (fst r) /\
    answer (RunSmartContractCall 12 j h) = Some (RcOk, [str "old"]) /\
    answer (RunSmartContractCall 12 j (fst r)) = Some (RcOk, [str "new"]).
Proof.
  exists aotEnv, (tx_of "u" "o" "h"), (tx_of "u" "s" "h"), wHost.
  split; [apply exEnvFull_ok; reflexivity|]. split; [constructor; reflexivity|].
  split; [intros k c Hk; cbn in Hk; rewrite lookup_empty in Hk; discriminate Hk|].
  cbv zeta. split; [vm_compute; reflexivity|]. split; [vm_compute; reflexivity|]. split; [|vm_compute; tauto].
  intros Hok. specialize (Hok (addr "t") (addr "n")). vm_compute in Hok. specialize (Hok eq_refl). discriminate Hok.
Qed.
Print Assumptions C43_poisoned_refuted.

(** Compiled code is saved before it is verified: new code that compiles is in
    the cache after the attempt to start it, whatever the verification says. *)
Theorem C43_saved_unverified : forall `{E : env} code gas m h h' r,
  e_compile E code = Some m -> (length (h_ist h) < maxWasmerInstances)%nat ->
  StartWasmerInstance code gas true h = (h', r) -> h_cache h' !! e_sha256 E code = Some code.
Proof. exact @Start_kept. Qed.
Print Assumptions C43_saved_unverified.

(** a refused deployment leaves its code in the cache *)
Example C43_saved_ex :
  ~ deployable (E := vEnv) (addr "c") /\
  let r := RunSmartContractCreate (E := vEnv) 12 (create_of "c") (host0 (cWorld ex_v)) in
  new_code (first_of "u") r = Some (RcContractInvalid, None) /\
  h_cache (host0 (cWorld ex_v)) !! e_sha256 vEnv (addr "c") = None /\
  h_cache (fst r) !! e_sha256 vEnv (addr "c") = Some (addr "c").
Proof.
  split; [|vm_compute; tauto].
  intros (m & Hm & Hw & _). assert (Hb : Some m = Some bad_module) by (rewrite <- Hm; reflexivity). injection Hb as ->. discriminate Hw.
Qed.

(** without a cache; with a correct one and no upgrade in between *)
Example C43_ex :
  answer (wRun (tx_of "u" "o" "g") wHost) = Some (RcOk, [str "new"]) /\
  answer (wRun (tx_of "u" "s" "h") wHost) = Some (RcOk, [str "old"]) /\
  answer (aRun (tx_of "u" "s" "h") cached) = Some (RcOk, [str "old"]) /\
  cache_fine (E := aotEnv) cached (addr "t") (code_now cached (addr "t")).
Proof.
  split; [|split; [|split]]; [vm_compute; reflexivity..|]. right. intros u c Hu _ Hc.
  vm_compute in Hu. injection Hu as <-. vm_compute in Hc. injection Hc as <-. reflexivity.
Qed.

(** * C54: nonces of creators

    A successful deployment by a contract derives the address from the
    creator's nonce before the construction, and leaves the creator's nonce one
    higher than after the construction.  What is missing: the construction may
    itself deploy from the same nonce (C54_reentrant_refuted), failed deployments
    do not raise the nonce (C54_failed_refuted), and before version 3 of the
    virtual machine two deployments in a row get the same address
    (C54_before_v3_refuted). *)
Theorem C54_nonce_partial : forall `{E : env} n i h h' a,
  e_v3 E = true -> e_isSC E (vi_caller (cc_vm i)) = true ->
  CreateNewContract (vmDest n) i h = (h', OOk a) ->
  let c := vi_caller (cc_vm i) in
  e_newAddress E c (nonce_now h c) = ROk a /\
  exists h1 h2 o info, vmDest n (mkCall (cc_vm i) a (str "init") true) h1 = (h2, OOk (o, info, None)) /\
    nonce_now h1 c = nonce_now h c /\ (0 <= nonce_now h2 c < max_u64 -> nonce_now h' c = nonce_now h2 c + 1).
Proof. intros E n i h h' a V Hs H. exact (create_nonce _ V _ i h h' a eq_refl Hs H). Qed.
Print Assumptions C54_nonce_partial.

(** Contract "s" deploys "b", whose constructor calls "s", which deploys "c":
    both deployments succeed, with the same address. *)
Theorem C54_reentrant_refuted :
  exists (E : env) i h,
    env_ok E /\ e_v3 E = true /\ no_stacks h /\
    answer (RunSmartContractCall 12 i h) = Some (RcOk, [first_of "s"; first_of "s"]).
Proof.
  exists (cEnv ex_a), (txS "f" 0 90000), (host0 (cWorld ex_a)). split; [apply exEnv_ok|]. split; [reflexivity|].
  split; [constructor; reflexivity|]. vm_compute. reflexivity.
Qed.
Print Assumptions C54_reentrant_refuted.

(** before version 3: contract "s" deploys "c" and then "d" to the same address *)
Theorem C54_before_v3_refuted :
  exists (E : env) i h,
    env_ok E /\ e_v3 E = false /\ no_stacks h /\
    answer (RunSmartContractCall 12 i h) = Some (RcOk, [first_of "s"; first_of "s"]).
Proof.
  exists (without_v3 (cEnv ex_a)), (txS "two" 0 90000), (host0 (cWorld ex_a)). split; [apply exEnv_ok|]. split; [reflexivity|].
  split; [constructor; reflexivity|]. vm_compute. reflexivity.
Qed.
Print Assumptions C54_before_v3_refuted.

(** the constructor of "e" runs and fails, "s" goes on without a new address: the nonce of "s" is as before *)
Theorem C54_failed_refuted :
  exists (E : env) p h,
    env_ok E /\ host_ok h /\ r_addr (h_rt h) = addr "s" /\
    let r := vmRun 12 p h in
    (match snd r with OOk b => Some b | _ => None end) = Some true /\ o_retdata (h_out (fst r)) = [] /\
    existsb (fun e => match e with EvRun a _ => beq a (first_of "s") | _ => false end) (h_trace (fst r)) = true /\
    nonce_now (fst r) (addr "s") = nonce_now h (addr "s").
Proof.
  exists (cEnv ex_a), (deploy_report 9000 "e" PRet), (cHost ex_a). split; [apply exEnv_ok|].
  split; [split; [reflexivity|intros i [= <-]; vm_compute; lia]|]. split; [reflexivity|]. vm_compute. tauto.
Qed.
Print Assumptions C54_failed_refuted.

(** two deployments in a row get different addresses and raise the nonce *)
Example C54_ex :
  answer (cTx ex_a "two" 0 90000) = Some (RcOk, [first_of "s"; take 31 (addr "s") ++ [zb 101]]) /\
  nonce_now (fst (cRun ex_a (deploy_report 9000 "c" PRet))) (addr "s") = 1.
Proof. vm_compute. tauto. Qed.
