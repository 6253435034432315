(** Nested calls: C08, C28, C29, C58. *)
From Verif Require Import VmModel CallSpec CallProofs FreshSpec ExCalls.

(** "t" has a function using handles, storage and results, one that fails, one
    that panics the host, and one that calls itself *)
Definition ex_t : list (string * list (string * prog)) :=
  [("s", [("g", call_dest 1000 "t" 0 "panic" PRet); ("ok", call_dest 1000 "t" 1 "work" PRet)]);
   ("t", [("work", set_big 0 7 (set_big 1 8 (store_kv "k" "v" (finish_with "hi" PRet))));
          ("fail", set_big 0 7 (store_kv "k" "v" PTrap));
          ("panic", api1 (A_getReturnData (-1) 0) PRet);
          ("deep", call_dest 90000 "t" 0 "deep" PRet)])]%string.

(** The invariant used below: it holds in a host that has run nothing, and every
    transaction and every API call keeps it. *)
Theorem C28_host_ok_invariant : forall `{E : env} n,
  (forall w, host_ok (host0 w)) /\
  (forall c h h' r, host_ok h -> vmApi n c h = (h', r) -> r <> OFuel -> host_ok h') /\
  (forall i h h' r, h_stoprot h = true -> no_stacks h ->
     RunSmartContractCall n i h = (h', r) -> r <> OFuel -> host_ok h') /\
  (forall i h h' r, h_stoprot h = true -> no_stacks h ->
     RunSmartContractCreate n i h = (h', r) -> r <> OFuel -> host_ok h').
Proof.
  intros E n. split; [intros w; split; [reflexivity|discriminate]|].
  split; [intros c h h' r H1 H2 H3; apply (api_all n c h h' r H1 H2 H3)|].
  split; [intros; eapply call_end; eassumption|intros; eapply create_end; eassumption].
Qed.
Print Assumptions C28_host_ok_invariant.

(** C28, for the host functions behind every nested call, whatever the callee
    does ([r] covers success, error and panic). *)
Theorem C28_dest_restores_frame : forall `{E : env} n i h h' r,
  host_ok h -> vmDest n i h = (h', r) -> r <> OFuel ->
  frame_restored h h' /\ snapshots_restored h h' r /\ h_rt h' = h_rt h.
Proof. intros E n i h h' r H1 H2 H3. destruct (dest_all n i h h' r H1 H2 H3) as (A & B & _ & D & _). auto. Qed.
Print Assumptions C28_dest_restores_frame.

Theorem C28_same_restores_frame : forall `{E : env} n i h h' r,
  host_ok h -> vmSame n i h = (h', r) -> r <> OFuel ->
  frame_restored h h' /\ snapshots_restored h h' r /\ h_rt h' = h_rt h.
Proof. intros E n i h h' r H1 H2 H3. destruct (same_all n i h h' r H1 H2 H3) as (A & B & _ & D). auto. Qed.
Print Assumptions C28_same_restores_frame.

(** ... and for every API function, as the contract sees it. *)
Theorem C28_api_restores_frame : forall `{E : env} n c h h' r,
  host_ok h -> vmApi n c h = (h', r) -> r <> OFuel ->
  frame_restored h h' /\ snapshots_restored h h' r.
Proof. intros E n c h h' r H1 H2 H3. destruct (api_all n c h h' r H1 H2 H3) as (A & B & _). auto. Qed.
Print Assumptions C28_api_restores_frame.

(** a call that works, one that fails, one that panics *)
Example C28_ex :
  let run f := cRun ex_t (call_dest 1000 "t" 3 f PRet) in
  host_ok (cHost ex_t) /\
  snd (run "work"%string) = OOk true /\ snd (run "fail"%string) = OOk false /\ snd (run "panic"%string) = OPanic.
Proof. split; [split; [reflexivity|intros i [= <-]; vm_compute; lia]|]. vm_compute. tauto. Qed.

(** C28 fails for the world's snapshots after a panic: one is left on the stack
    and stays there after the transaction. *)
Theorem C28_snapshots_after_panic_refuted :
  exists (E : env) i h, env_ok E /\ h_bcst h = [] /\ no_stacks h /\
    let r := RunSmartContractCall 12 i h in r.2 = OPanic /\ length (h_bcst r.1) = 1%nat.
Proof.
  exists (cEnv ex_t), (txS "g" 0 10000), (host0 (cWorld ex_t)).
  split; [apply exEnv_ok|]. split; [reflexivity|]. split; [constructor; reflexivity|]. vm_compute. tauto.
Qed.
Print Assumptions C28_snapshots_after_panic_refuted.

(** C08: a call on the destination's context and a transaction run the callee
    only in states with an empty big-integer store ... *)
Theorem C08_callee_starts_empty : forall `{E : env} rd h,
  (forall i, starts_only_in (fun hs => h_big hs = ∅) (fun run => ExecuteOnDestContext run rd i) h) /\
  (forall i, starts_only_in (fun hs => h_big hs = ∅) (fun run => RunSmartContractCallIn run rd i) h) /\
  (forall i, starts_only_in (fun hs => h_big hs = ∅) (fun run => doRunSmartContractCreate run rd i) h).
Proof.
  intros E rd h. split; [|split]; intros i run1 run2 Hr.
  - apply starts_dest. intros p hs Hs. apply Hr, Hs.
  - apply KeepProofs.starts_call. intros p hs [[]]. apply Hr. assumption.
  - apply KeepProofs.starts_create. intros p hs Hs. apply Hr, Hs.
Qed.
Print Assumptions C08_callee_starts_empty.

(** ... and afterwards the caller's store is what it was, whatever happened. *)
Theorem C08_caller_restored : forall `{E : env} n i h h' r,
  host_ok h -> vmDest n i h = (h', r) -> r <> OFuel -> h_big h' = h_big h.
Proof. intros E n i h h' r H1 H2 H3. apply (dest_all n i h h' r H1 H2 H3). Qed.
Print Assumptions C08_caller_restored.
Theorem C08_api_caller_restored : forall `{E : env} n c h h' r,
  host_ok h -> calls_other c -> vmApi n c h = (h', r) -> r <> OFuel -> h_big h' = h_big h.
Proof. intros E n c h h' r H1 H2 H3 H4. exact (api_keeps_big n c h h' r H1 H2 H3 H4). Qed.
Print Assumptions C08_api_caller_restored.

Example C08_ex :
  h_big (fst (cRun ex_t (set_big 0 5 (call_dest 1000 "t" 3 "work" PRet)))) !! 0 = Some 5 /\
  h_big (fst (cRun ex_t (set_big 0 5 (call_dest 1000 "t" 3 "work" PRet)))) !! 1 = None /\
  h_big (fst (cRun ex_t (set_big 0 5 (call_dest 1000 "t" 3 "fail" PRet)))) !! 0 = Some 5.
Proof. vm_compute. tauto. Qed.

(** On the same context (executeOnSameContext, delegateExecution,
    executeReadOnly) the store is shared with the caller: the callee sees and
    changes its handles. *)
Theorem C08_same_context_refuted :
  exists (E : env) c h, env_ok E /\ host_ok h /\ h_big h = {[0 := 5]} /\
    (exists o l f n a d g, c = A_executeReadOnly g o f l n a d) /\
    let r := vmApi 12 c h in r.2 = OOk 0 /\ h_big r.1 !! 0 = Some 7 /\ h_big r.1 !! 1 = Some 8.
Proof.
  set (l := [("t", [("work", set_big 0 7 (set_big 1 8 PRet))])]%string).
  exists (cEnv l), (A_executeReadOnly 1000 0 64 4 0 0 0),
    (fst (vmRun (E := cEnv l) 12 (set_big 0 5 (with_call "t" 0 (str "work") PRet)) (cHost l))).
  split; [apply exEnv_ok|]. split; [split; [reflexivity|intros i [= <-]; vm_compute; lia]|].
  split; [vm_compute; reflexivity|]. split; [repeat eexists|]. vm_compute. tauto.
Qed.
Print Assumptions C08_same_context_refuted.

(** C29: code is started only with less than ten suspended instances below it:
    by calls on either context and by transactions. *)
Theorem C29_ten_instances : forall `{E : env} rd h,
  (forall i, starts_only_in shallow (fun run => ExecuteOnDestContext run rd i) h) /\
  (forall i, starts_only_in shallow (fun run => ExecuteOnSameContext run rd i) h) /\
  (forall i, starts_only_in shallow (fun run => RunSmartContractCallIn run rd i) h) /\
  (forall i, starts_only_in shallow (fun run => doRunSmartContractCreate run rd i) h).
Proof.
  intros E rd h. split; [|split; [|split]]; intros i run1 run2 Hr.
  - apply starts_dest. intros p hs Hs. apply Hr, Hs.
  - apply KeepProofs.starts_same. intros p hs Hs. apply Hr, Hs.
  - apply KeepProofs.starts_call. intros p hs [_ Hs]. apply Hr, Hs.
  - apply KeepProofs.starts_create. intros p hs Hs. apply Hr, Hs.
Qed.
Print Assumptions C29_ten_instances.

(** The tenth nested call fails (built-in functions run no code of their own). *)
Theorem C29_too_deep_fails : forall `{E : env} n i h h' r,
  host_ok h -> (9 <= length (h_ist h))%nat ->
  (e_isBuiltin E (ci_fn i) = false -> vmDest n i h = (h', r) -> forall o info, r <> OOk (o, info, None)) /\
  (forall r', vmSame n i h = (h', r') -> r' <> OOk tt).
Proof.
  intros E n i h h' r Hok Hd. split.
  - intros Hb H. exact (dest_deep n i h h' r Hok Hb Hd H).
  - intros r' H. exact (same_deep n i h h' r' Hd H).
Qed.
Print Assumptions C29_too_deep_fails.

(** "t" calling itself without end: the tenth instance is refused, and the
    transaction ends *)
Example C29_ex :
  snd (cRun ex_t (call_dest 99000 "t" 0 "deep" PRet)) = OOk false /\
  (let r := RunSmartContractCall (E := cEnv ex_t) 12 (call_of (addr "u") (addr "t") "deep" [] 0 100000) (host0 (cWorld ex_t)) in
   match r.2 with OOk o => o_code o | _ => RcOk end = RcExecutionFailed).
Proof. vm_compute. tauto. Qed.

(** C58: whatever transactions have run (with success, failure or panic), and
    however the node's state changed in between, no stack has an entry, no
    instance is running, and the next transaction starts from the initial
    values. *)
Theorem C58_idle_partial : forall `{E : env} h, history h -> no_stacks h /\ host_ok h.
Proof.
  intros E. induction 1 as [h (N & S & _)|n i h h' r _ [N [S _]] H Hr|n i h h' r _ [N [S _]] H Hr|w h _ [[] [S W]]].
  - split; [exact N|]. split; [exact S|]. rewrite (ns_running _ N). discriminate.
  - destruct (call_end n i h h' r S N H Hr). auto.
  - destruct (create_end n i h h' r S N H Hr). auto.
  - split; [constructor; assumption|split; assumption].
Qed.
Print Assumptions C58_idle_partial.

Theorem C58_fresh_start_partial : forall `{E : env} h, history h -> starts_fresh h (fst (initContexts h)).
Proof.
  intros E h H. destruct (C58_idle_partial h H) as [[] [S _]]. unfold starts_fresh. destruct h; cbn in *. subst. reflexivity.
Qed.
Print Assumptions C58_fresh_start_partial.

Example C58_ex :
  let r1 := RunSmartContractCall (E := cEnv ex_t) 12 (txS "g" 0 10000) (host0 (cWorld ex_t)) in
  let r2 := RunSmartContractCall (E := cEnv ex_t) 12 (txS "ok" 0 10000) (fst r1) in
  snd r1 = OPanic /\ match snd r2 with OOk o => (o_code o, o_retdata o) | _ => (RcUserError, []) end = (RcOk, [str "hi"]).
Proof. vm_compute. tauto. Qed.
