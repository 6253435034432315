(** Property theorems: asynchronous calls (C44, C45, C46; call data for C49). *)
From Verif Require Import VmModel WpProofs CallSpec StoProofs AsyncSpec AsyncProofs ExAsync.

(** ** C49: parsing call data gives exactly the function and the arguments that
    the data denotes; data that denotes nothing is an error *)
Theorem C49_parse_exact : forall data f args,
  ParseData data = ROk (f, args) <-> call_data data f args.
Proof. exact parse_iff. Qed.
Print Assumptions C49_parse_exact.
Theorem C49_parse_error : forall data,
  (forall f args, ~ call_data data f args) -> ParseData data = RErr ErrParser.
Proof.
  intros data H. destruct (parse_total data) as [(f & args & Hp)|Hp]; [|exact Hp]. apply parse_iff in Hp. destruct (H _ _ Hp).
Qed.
Print Assumptions C49_parse_error.
Example C49_parse_ex :
  call_data (str "f@05@@aB") (str "f") [[zb 5]; []; [zb 171]] /\ (forall f args, ~ call_data (str "f@5") f args) /\
  (forall f args, ~ call_data (str "@05") f args).
Proof.
  split; [apply parse_iff; vm_compute; reflexivity|]. split; intros f args H; apply parse_iff in H; vm_compute in H; discriminate.
Qed.

(** ** C44: routing.  [h] is the state in which a contract has stopped to make the
    asynchronous call [c]; [rd] executes nested calls.

    Data that cannot be parsed: an error, and nothing is done. *)
Theorem C44_unparsable : forall `{E : env} (rd : edf) h c, r_async (h_rt h) = Some c -> in_frame h ->
  (forall f args, ~ asks c f args) ->
  forall h' r, handleAsyncCallBreakpoint rd h = (h', r) ->
  r = OErr ErrParser /\ outcome_of h h' no_pay none_sent /\ result_kept h h' /\ spent h' = spent h /\ budget h' = budget h.
Proof. intros E rd h c. exact (handle_bad rd h c). Qed.
Print Assumptions C44_unparsable.
Example C44_unparsable_ex :
  r_async (h_rt (asking (call_t "yes@5"))) = Some (call_t "yes@5") /\ in_frame (asking (call_t "yes@5")) /\
  (forall f args, ~ asks (call_t "yes@5") f args) /\
  match snd (handled (call_t "yes@5")) with OErr e => e = ErrParser | _ => False end.
Proof.
  split; [reflexivity|]. split; [eexists _, _; split; reflexivity|]. split; [|vm_compute; reflexivity].
  intros f args H. apply parse_iff in H. vm_compute in H. discriminate.
Qed.

(** A contract that is not here: exactly one outgoing transfer, with the data, the
    value, the gas limit and the gas lock of the call; nothing is executed; no gas
    is left.  Or an error, and nothing is sent. *)
Theorem C44_outgoing : forall `{E : env} (rd : edf) h c, r_async (h_rt h) = Some c -> forall f args, metered h ->
  asks c f args -> e_isBuiltin E f = false -> code_now h (ac_dest c) = [] ->
  forall h' r, handleAsyncCallBreakpoint rd h = (h', r) -> r <> OPanic ->
  left_of h' = 0 /\
  ((r = OOk tt /\ result_kept h h' /\
    outcome_of h h' (pays (r_addr (h_rt h)) (ac_dest c) (be_decode (ac_value c)))
      (sends (ac_dest c) (mkTransfer (be_decode (ac_value c)) (ac_limit c) (ac_locked c) (ac_data c) AsynchronousCall (r_addr (h_rt h))))) \/
   (exists e, r = OErr e /\ outcome_of h h' no_pay none_sent)).
Proof. intros E rd h c Hc f args. exact (handle_sent rd h c Hc f args). Qed.
Print Assumptions C44_outgoing.
Example C44_outgoing_ex :
  metered (asking (call_x "yes@05")) /\ asks (call_x "yes@05") (str "yes") [[zb 5]] /\ code_now (asking (call_x "yes@05")) (addr "x") = [] /\
  let h' := fst (handled (call_x "yes@05")) in
  oa_transfers (account_of h' (addr "x")) = [mkTransfer 3 5000 100 (str "yes@05") AsynchronousCall (addr "s")] /\
  oa_delta (account_of h' (addr "x")) = 3 /\ oa_delta (account_of h' (addr "s")) = -3.
Proof.
  split; [apply asking_metered|]. split; [apply parse_iff; vm_compute; reflexivity|]. split; [vm_compute; reflexivity|]. vm_compute. tauto.
Qed.

(** A contract that is here, or a built-in function for the same shard: the call
    [dest_call] is executed first.  If the gas it leaves and the locked gas do not
    exceed the price of the callback, this is reported in the result.  Otherwise
    the locked gas is given back and the callback (or the transfer of the returned
    tokens that goes on with it) is executed; its failure is reported in the
    result, its success leaves the state as it is. *)
Theorem C44_here : forall `{E : env} (rd : edf) h c, r_async (h_rt h) = Some c -> forall f args,
  env_ok E -> in_frame h -> asks c f args -> runs_here h c f args ->
  exists h1, resumed h h1 /\
  forall h2 o info e, rd (dest_call h c f args) h1 = (h2, OOk (Some o, info, e)) ->
    sendable (str "callBack") o e -> answer_gas o (ac_locked c) -> in_frame h2 -> 0 <= spent h2 <= max_i64 ->
  forall h' r, handleAsyncCallBreakpoint rd h = (h', r) ->
    if o_gasrem o + ac_locked c <=? callback_price (str "callBack") o e
    then r = OOk tt /\ exists msg, reports_failure h2 h' RcOutOfGas msg
    else exists h3 i, gives_back h2 h3 (ac_locked c) /\ answers h2 (ac_dest c) (str "callBack") (ac_locked c) o e i /\
      forall h4 o' info' e', rd i h3 = (h4, OOk (o', info', e')) ->
        r = OOk tt /\
        match e' with
        | None => h' = h4
        | Some _ => exists code msg, reports_failure h4 h' code msg /\ forall ob, o' = Some ob -> code = o_code ob /\ msg = o_msg ob
        end.
Proof. intros E rd h c Hc f args. exact (handle_here rd h c Hc f args). Qed.
Print Assumptions C44_here.
(** the callback of "s" is told 0 (the empty number) and "yes"; that of "c" fails,
    and so does that of "s" when it is left too little gas *)
Example C44_here_ex :
  in_frame (asking (call_t "yes")) /\ asks (call_t "yes") (str "yes") [] /\ runs_here (E := cEnv ex_t) (asking (call_t "yes")) (call_t "yes") (str "yes") [] /\
  (match snd (handled (call_t "yes")) with OOk _ => True | _ => False end) /\ o_retdata (h_out (fst (handled (call_t "yes")))) = [str "yes"; []; str "yes"] /\
  seen (tRun (tx_type DirectCall "u" "s" "good" [])) = Some (RcOk, [str "yes"; []; str "yes"], []) /\
  seen (tRun (tx_type DirectCall "u" "c" "good" [])) = Some (RcOk, [str "yes"; str "code"; str "tx0"], str "error").
Proof.
  split; [eexists _, _; split; reflexivity|]. split; [apply parse_iff; vm_compute; reflexivity|]. split; [left; split; [reflexivity|vm_compute; discriminate]|].
  vm_compute. tauto.
Qed.

(** A built-in function for another shard: executed once, without callback; its
    error is the error of the caller. *)
Theorem C44_builtin_elsewhere : forall `{E : env} (rd : edf) h c, r_async (h_rt h) = Some c -> forall f args, in_frame h ->
  asks c f args -> e_isBuiltin E f = true -> ~ same_shard h c ->
  exists h1, resumed h h1 /\
  forall h2 o info e, rd (dest_call h c f args) h1 = (h2, OOk (o, info, e)) ->
  handleAsyncCallBreakpoint rd h = (h2, match e with None => OOk tt | Some e => OErr e end).
Proof. intros E rd h c Hc f args. exact (handle_builtin rd h c Hc f args). Qed.
Print Assumptions C44_builtin_elsewhere.
Example C44_builtin_elsewhere_ex :
  asks (call_x "builtin") (str "builtin") [] /\ ~ same_shard (E := cEnv ex_t) (asking (call_x "builtin")) (call_x "builtin") /\
  e_isBuiltin (cEnv ex_t) (str "builtin") = true /\
  (match snd (handled (call_x "builtin")) with OOk _ => True | _ => False end) /\ o_retdata (h_out (fst (handled (call_x "builtin")))) = [].
Proof.
  split; [apply parse_iff; vm_compute; reflexivity|]. split; [vm_compute; discriminate|]. split; [reflexivity|]. vm_compute. tauto.
Qed.

(** Tokens sent back to the contract that called asynchronously: nothing is
    executed, the data becomes the first return data, the locked gas is given
    back. *)
Theorem C44_token_answer : forall `{E : env} (rd : edf) h c, r_async (h_rt h) = Some c -> forall f args, in_frame h ->
  0 <= ac_locked c -> 0 <= spent h <= max_i64 ->
  asks c f args -> e_isBuiltin E f = true -> same_shard h c -> token_answer h c f args ->
  forall h' r, handleAsyncCallBreakpoint rd h = (h', r) ->
  r = OOk tt /\ outcome_of h h' no_pay none_sent /\ o_retdata (h_out h') = ac_data c :: o_retdata (h_out h) /\
  o_code (h_out h') = o_code (h_out h) /\ o_msg (h_out h') = o_msg (h_out h) /\ budget h' = budget h /\
  spent h' = (if ac_locked c <=? spent h then spent h - ac_locked c else spent h).
Proof. intros E rd h c Hc f args. exact (handle_tokens rd h c Hc f args). Qed.
Print Assumptions C44_token_answer.
Example C44_token_answer_ex :
  let h := token_host in let c := call_t "ESDTTransfer@05@06" in
  asks c (str "ESDTTransfer") [[zb 5]; [zb 6]] /\ token_answer h c (str "ESDTTransfer") [[zb 5]; [zb 6]] /\
  o_retdata (h_out (fst (handleAsyncCallBreakpoint (E := tokenEnv) (vmDest (E := tokenEnv) 12) h))) = [str "ESDTTransfer@05@06"].
Proof.
  split; [apply parse_iff; vm_compute; reflexivity|]. split; [|vm_compute; reflexivity]. split; [left; split; reflexivity|]. split; reflexivity.
Qed.

(** ** The claim that calls to oneself and calls from callbacks are rejected does
    not hold: no such check exists.  Contract "s" calls itself asynchronously and
    gets both the result and the callback; the callback of "c" makes an
    asynchronous call, which is executed ("yes" is returned). *)
Theorem C44_self_refuted :
  exists (E : env) i h, env_ok E /\ no_stacks h /\ ci_fn i = str "self" /\ ci_rcpt i = addr "s" /\
    seen (RunSmartContractCall 12 i h) = Some (RcOk, [str "self"; []; str "self"], []).
Proof.
  exists (cEnv ex_t), (tx_type DirectCall "u" "s" "self" []), (host0 (cWorld ex_t)).
  split; [apply exEnv_ok|]. split; [constructor; reflexivity|]. vm_compute. tauto.
Qed.
Print Assumptions C44_self_refuted.
Theorem C44_callback_refuted :
  exists (E : env) i h, env_ok E /\ no_stacks h /\ vi_ctype (ci_vm i) = AsynchronousCallBack /\ ci_fn i = str "callBack" /\
    seen (RunSmartContractCall 12 i h) = Some (RcOk, [str "yes"; str "code"; str "tx0"], str "error").
Proof.
  exists (cEnv ex_t), (tx_type AsynchronousCallBack "x" "c" "callBack" []), (host0 (cWorld ex_t)).
  split; [apply exEnv_ok|]. split; [constructor; reflexivity|]. vm_compute. tauto.
Qed.
Print Assumptions C44_callback_refuted.

(** ** C45: the input of a callback.  The number of the return code comes first,
    then the returned data, or the message when the call failed; the callback gets
    what the call left and the locked gas, less the price of its data. *)
Theorem C45_input : forall `{E : env} c o dest name e h,
  env_ok E -> sendable name o e -> answer_gas o (ac_locked c) ->
  exists i, answers h dest name (ac_locked c) o e i /\
  createCallbackContractCallInput c o dest name e h =
  (h, if o_gasrem o + ac_locked c <=? callback_price name o e then OErr ErrNotEnoughGas else OOk i).
Proof. intros E. exact create_answer. Qed.
Print Assumptions C45_input.
Definition ex_ok : vm_output := mkOut [str "a"; str "bc"] RcOk [] 500 (Some 0) ∅ [].
Definition ex_fail : vm_output := mkOut [str "a"] RcUserError (str "why") 0 (Some 0) ∅ [].
Example C45_input_ex :
  let h := asking (call_t "yes") in
  let i := fun o e => createCallbackContractCallInput (E := cEnv ex_t) (call_t "yes") o (addr "t") (str "callBack") e h in
  env_ok (cEnv ex_t) /\ sendable (str "callBack") ex_ok None /\ answer_gas ex_ok 100 /\ sendable (str "callBack") ex_fail (Some ErrSignalError) /\ answer_gas ex_fail 100 /\
  match snd (i ex_ok None) with
  | OOk i => vi_args (ci_vm i) = [[]; str "a"; str "bc"] /\ vi_gas (ci_vm i) = 500 + 100 - (1 + (8 + 1 + 2 + 3)) /\ vi_caller (ci_vm i) = addr "t" /\ ci_rcpt i = addr "s"
  | _ => False
  end /\
  match snd (i ex_fail (Some ErrSignalError)) with
  | OOk i => vi_args (ci_vm i) = [[zb 4]; str "why"] /\ vi_gas (ci_vm i) = 100 - (1 + (8 + 2 + 4))
  | _ => False
  end.
Proof.
  split; [apply exEnv_ok|]. vm_compute. repeat split; congruence.
Qed.
(** When the contract itself was called asynchronously from elsewhere, its answer
    is one transfer to its caller, with the value it was called with, the gas left,
    and the data "@code@data@data..."; no gas is left. *)
Theorem C45_sent : forall `{E : env} h h' r, metered h -> sendCallbackToCurrentCaller h = (h', r) -> r <> OPanic ->
  let v := r_input (h_rt h) in
  left_of h' = 0 /\
  ((r = OOk tt /\ result_kept h h' /\ exists data, answer_data data (e_codestr E (o_code (h_out h)) :: o_retdata (h_out h)) /\
    outcome_of h h' (pays (r_addr (h_rt h)) (vi_caller v) (vi_value v))
      (sends (vi_caller v) (mkTransfer (vi_value v) (left_of h) 0 data AsynchronousCallBack (r_addr (h_rt h))))) \/
   (exists e, r = OErr e /\ outcome_of h h' no_pay none_sent)).
Proof. intros E. exact back_run. Qed.
Print Assumptions C45_sent.
Example C45_sent_ex :
  metered (asking (call_t "yes")) /\
  sent_to (addr "x") (tRun (tx_type AsynchronousCall "x" "t" "yes" [])) =
    [mkTransfer 0 49961 0 (str "@636f6465@796573") AsynchronousCallBack (addr "t")].
Proof. split; [apply asking_metered|]. vm_compute. reflexivity. Qed.
(** The two representations of a return code differ: a callback in the same shard
    gets the number of the code (the empty bytes for success), a callback in
    another shard the name of the code. *)
Theorem C45_representation_refuted :
  exists (E : env) o c h, env_ok E /\ o_code o = RcOk /\ metered h /\
    match snd (createCallbackContractCallInput c o (addr "t") (str "callBack") None h) with
    | OOk i => hd (str "?") (vi_args (ci_vm i)) = []
    | _ => False
    end /\
    match snd (sendCallbackToCurrentCaller (set_h_out o h)) with OOk _ => True | _ => False end /\
    ot_data <$> oa_transfers (account_of (fst (sendCallbackToCurrentCaller (set_h_out o h))) (addr "u")) = [str "@636f6465@61@6263"] /\
    e_codestr E RcOk = str "code".
Proof.
  exists (cEnv ex_t), ex_ok, (call_t "yes"), (asking (call_t "yes")). split; [apply exEnv_ok|]. split; [reflexivity|]. split; [apply asking_metered|].
  vm_compute. tauto.
Qed.
Print Assumptions C45_representation_refuted.

(** ** C46: pending calls.  [processCallbackStack] runs after each callback of a
    transaction.

    Nothing is pending: nothing happens. *)
Theorem C46_idle : forall `{E : env} h, async_cell h = [] ->
  exists h', processCallbackStack h = (h', OOk tt) /\ outcome_of h h' no_pay none_sent.
Proof. intros E h H. destruct (pending_none h H) as (h' & H1 & H2). exists h'. split; [exact H1|]. apply stp_outcome, H2. Qed.
Print Assumptions C46_idle.
(** An answer nobody waits for is an error, and changes nothing. *)
Theorem C46_unexpected : forall `{E : env} info h, env_ok E -> async_cell h <> [] -> e_unmarshal E (async_cell h) = ROk info ->
  (forall id, id <> [] -> ~ waits (ai_map info) id (vi_caller (r_input (h_rt h)))) ->
  exists h', processCallbackStack h = (h', OErr ErrCallBackFuncNotExpected) /\ outcome_of h h' no_pay none_sent.
Proof.
  intros E info h HE H1 H2 H3. destruct (pending_unexpected info h HE H1 H2 H3) as (h' & H4 & H5). exists h'. split; [exact H4|]. apply stp_outcome, H5.
Qed.
Print Assumptions C46_unexpected.
Example C46_unexpected_ex :
  async_cell (answered "x") = str "async" /\
  (forall id, id <> [] -> ~ waits (ai_map (pending "x" ["z"%string])) id (addr "x")) /\
  match snd (pRun (pending "x" ["z"%string]) "x") with OErr e => e = ErrCallBackFuncNotExpected | _ => False end.
Proof.
  split; [vm_compute; reflexivity|]. split; [|vm_compute; reflexivity].
  intros id _ (ctx & c & H1 & H2 & H3). change (({[str "ctx" := mkActx (str "cb") [waiting "z"]]} : gmap bytes async_ctx) !! id = Some ctx) in H1.
  apply lookup_singleton_Some in H1 as [_ <-]. destruct H2 as [<-|[]]. vm_compute in H3. discriminate.
Qed.
(** The only pending call is answered, and the contract that waits for the whole is
    elsewhere: the pending data is removed, nothing else in storage changes, and
    exactly one transfer with the stored return data goes to that contract.  What
    is missing: the callback of the context is not run (nothing is), and the claim
    fails for several pending calls (C46_stuck) and for a waiting contract that is
    here (C46_local_stops). *)
Theorem C46_last_partial : forall `{E : env} info h id ctx g z,
  env_ok E -> metered h -> r_ro (h_rt h) = false -> CtxModel.has_prefix (e_protected E) (async_key h) = false ->
  blen (async_key h) <= max_i64 -> blen (async_cell h) <= max_i64 -> o_refund (h_out h) = Some z ->
  async_cell h <> [] -> e_unmarshal E (async_cell h) = ROk info ->
  ai_map info = {[ id := ctx ]} -> id <> [] -> ax_calls ctx = [g] -> gc_dest g = vi_caller (r_input (h_rt h)) ->
  code_now h (ai_caller info) = [] ->
  forall h' r, processCallbackStack h = (h', r) -> r <> OPanic ->
  cell_set (h_stoaddr h) (async_key h) [] h h' /\ nothing_ran h h' /\
  let v := vi_value (r_input (h_rt h)) in
  let a := r_addr (h_rt h) in
  let d := ai_caller info in
  (r = OOk tt /\
    (forall b, oa_transfers (account_of h' b) = oa_transfers (account_of h b) ++
       sends d (mkTransfer v (Z.max 0 (left_of h - key_price (e_cost E) (async_key h))) 0 (ai_retdata info) AsynchronousCallBack a) b) /\
    (forall b, oa_delta (account_of h' b) = oa_delta (account_of h b) + pays a d v b)) \/
  (exists e, r = OErr e /\ left_of h' = 0 /\
    (forall b, oa_transfers (account_of h' b) = oa_transfers (account_of h b)) /\ (forall b, oa_delta (account_of h' b) = oa_delta (account_of h b))).
Proof. intros E. exact pending_last. Qed.
Print Assumptions C46_last_partial.
Example C46_last_ex :
  let i := pending "x" ["x"%string] in
  metered (answered "x") /\ async_cell (answered "x") = str "async" /\ ai_map i = {[str "ctx" := mkActx (str "cb") [waiting "x"]]} /\
  code_now (answered "x") (addr "x") = [] /\ o_refund (h_out (answered "x")) = Some 0 /\
  CtxModel.has_prefix (e_protected (pEnv i)) (async_key (answered "x")) = false /\
  async_cell (fst (pRun i "x")) = [] /\
  oa_transfers (account_of (fst (pRun i "x")) (addr "x")) = [mkTransfer 0 100000 0 (str "done") AsynchronousCallBack (addr "s")].
Proof. split; [apply answered_metered|]. vm_compute. tauto. Qed.
(** While several calls are pending, an answer changes nothing: the answered call
    is not removed from the pending data, which therefore never becomes empty. *)
Theorem C46_stuck : forall `{E : env} info h, async_cell h <> [] -> e_unmarshal E (async_cell h) = ROk info ->
  (2 <= pending_count (ai_map info))%nat ->
  exists h' r, processCallbackStack h = (h', r) /\ (r = OOk tt \/ r = OErr ErrCallBackFuncNotExpected) /\
    outcome_of h h' no_pay none_sent.
Proof.
  intros E info h H1 H2 H3. destruct (pending_stuck info h H1 H2 H3) as (h' & r & H4 & H5 & H6). exists h', r. split; [exact H4|]. split; [exact H5|]. apply stp_outcome, H6.
Qed.
Print Assumptions C46_stuck.
(** Two calls are pending, to "x" and "z"; each answers; the pending data still
    lists both, and nothing was sent to the contract that waits. *)
Theorem C46_drain_refuted :
  exists info, pending_count (ai_map info) = 2%nat /\ env_ok (pEnv info) /\
    waits (ai_map info) (str "ctx") (addr "x") /\ waits (ai_map info) (str "ctx") (addr "z") /\
    forall by_, by_ = "x"%string \/ by_ = "z"%string ->
    e_unmarshal (pEnv info) (async_cell (answered by_)) = ROk info /\
    async_cell (fst (pRun info by_)) = async_cell (answered by_) /\
    match snd (pRun info by_) with OOk _ => True | _ => False end /\
    oa_transfers (account_of (fst (pRun info by_)) (ai_caller info)) = [].
Proof.
  exists (pending "x" ["x"; "z"]%string). split; [vm_compute; reflexivity|]. split; [apply exEnvFull_ok; reflexivity|].
  split; [eexists _, _; split; [reflexivity|]; split; [left; reflexivity|reflexivity]|].
  split; [eexists _, _; split; [reflexivity|]; split; [right; left; reflexivity|reflexivity]|].
  intros by_ [->| ->]; (split; [reflexivity|]; vm_compute; tauto).
Qed.
Print Assumptions C46_drain_refuted.
(** When the waiting contract is here, the host stops with a nil dereference after
    the last answer. *)
Theorem C46_local_stops : forall `{E : env} info h id ctx g z,
  env_ok E -> metered h -> r_ro (h_rt h) = false -> CtxModel.has_prefix (e_protected E) (async_key h) = false ->
  blen (async_key h) <= max_i64 -> blen (async_cell h) <= max_i64 -> o_refund (h_out h) = Some z ->
  async_cell h <> [] -> e_unmarshal E (async_cell h) = ROk info ->
  ai_map info = {[ id := ctx ]} -> id <> [] -> ax_calls ctx = [g] -> gc_dest g = vi_caller (r_input (h_rt h)) ->
  code_now h (ai_caller info) <> [] ->
  snd (processCallbackStack h) = OPanic.
Proof. intros E. exact pending_local. Qed.
Print Assumptions C46_local_stops.
Example C46_local_ex :
  let i := pending "t" ["x"%string] in
  metered (answered "x") /\ async_cell (answered "x") = str "async" /\ ai_map i = {[str "ctx" := mkActx (str "cb") [waiting "x"]]} /\
  code_now (answered "x") (ai_caller i) <> [] /\ match snd (pRun i "x") with OPanic => True | _ => False end.
Proof. split; [apply answered_metered|]. split; [vm_compute; reflexivity|]. split; [reflexivity|].
  split; [vm_compute; discriminate|]. vm_compute. exact I. Qed.
