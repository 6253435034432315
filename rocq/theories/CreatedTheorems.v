(** C93: calls created with createAsyncCall. *)
From Verif Require Import VmModel CreatedSpec CreatedProofs ExCreated.

(** ** C93: a created call whose destination is here is run with its data and value;
    if it comes back with nothing pending it is marked resolved or rejected, and the
    success or the error function is called once with what it returned; a callback
    that fails is reported.  Missing: destinations that fail give nothing back
    (C93_failed_refuted), and the gas is not that of the call (C93_gas_refuted). *)
Theorem C93_answered_partial : forall `{E : env} rd id n c f args h h1 o info e,
  env_ok E -> asks (created c) f args ->
  rd (dest_call h (created c) f args) h = (h1, OOk (Some o, Some info, e)) -> all_answered info ->
  sendable (told c o) o e -> answer_gas o 0 ->
  exists h2 i, marks id n (settled o) h1 h2 /\ answers h2 (gc_dest c) (told c o) 0 o e i /\
  forall h' r, processAsyncCall rd (fun s => set_actx_map (upd_call id n (set_gc_status s))) c h = (h', r) ->
  if o_gasrem o <=? callback_price (told c o) o e then h' = h2 /\ r = OErr ErrNotEnoughGas
  else
    (forall h3 o' info', rd i h2 = (h3, OOk (o', info', None)) -> h' = h3 /\ r = OOk tt) /\
    (forall h3 o' info' e', rd i h2 = (h3, OOk (o', info', Some e')) ->
       r = OOk tt /\ exists code msg, reports_failure h3 h' code msg /\ forall ob, o' = Some ob -> code = o_code ob /\ msg = o_msg ob) /\
    (forall h3, rd i h2 = (h3, OPanic) -> r = OPanic).
Proof. intros E. exact created_run. Qed.
Print Assumptions C93_answered_partial.
Example C93_answered_ex :
  env_ok (cEnv ex_c) /\ asks (created (made "yes")) (str "yes") [] /\
  (exists h1 o info, dest_run "yes" = (h1, OOk (Some o, Some info, None)) /\ all_answered info /\
    sendable (told (made "yes") o) o None /\ answer_gas o 0 /\ told (made "yes") o = str "won" /\
    callback_price (E := cEnv ex_c) (told (made "yes") o) o None < o_gasrem o) /\
  seen (cTx ex_c "good" 0 100000) = Some (RcOk, [str "yes"; str "won"; []; str "yes"], []) /\
  seen (cTx ex_c "sour" 0 100000) <> None.
Proof.
  split; [apply exEnv_ok|]. split; [apply AsyncProofs.parse_iff; reflexivity|]. split.
  - destruct (dest_run "yes") as [h1 [[[[o|] [info|]] [e|]]|e| |]] eqn:H;
      try (exfalso; assert (Hx : match snd (dest_run "yes") with OOk (Some _, Some _, None) => True | _ => False end) by (vm_compute; exact I); rewrite H in Hx; exact Hx).
    exists h1, o, info.
    assert (Hx : match snd (dest_run "yes") with
                 | OOk (Some o, Some info, None) => map_to_list (ai_map info) = [] /\ data_length (told (made "yes") o) (callback_args o None) = 8 /\
                     o_gasrem o = 99961 /\ told (made "yes") o = str "won" /\ callback_price (E := cEnv ex_c) (told (made "yes") o) o None = 9
                 | _ => False end) by (vm_compute; tauto).
    rewrite H in Hx. cbn [snd] in Hx. destruct Hx as (X1 & X2 & X3 & X4 & X5).
    split; [reflexivity|]. split.
    { intros id ctx c Hi. apply map_to_list_empty_iff in X1. rewrite X1, lookup_empty in Hi. discriminate Hi. }
    unfold sendable, answer_gas. rewrite X2, X3, X5, X4. split_and!; (reflexivity || lia).
  - split; [vm_compute; reflexivity|]. vm_compute. discriminate.
Qed.

(** ** While calls made by the destination are pending, nobody is called back and
    the call keeps its state. *)
Theorem C93_waits : forall `{E : env} rd id n c f args h h1 o info e, asks (created c) f args ->
  rd (dest_call h (created c) f args) h = (h1, OOk (o, Some info, e)) -> ~ all_answered info ->
  processAsyncCall rd (fun s => set_actx_map (upd_call id n (set_gc_status s))) c h = (h1, match e with Some e => OErr e | None => OOk tt end).
Proof. intros E. exact created_waits. Qed.
Print Assumptions C93_waits.
Example C93_waits_ex : asks (created deep) (str "ask") [] /\
  match snd (vmDest (E := cEnv ex_c) 12 (dest_call (creating "yes") (created deep) (str "ask") []) (creating "yes")) with
  | OOk (Some _, Some info, None) => map (fun '(id, ctx) => (id, map gc_status (ax_calls ctx))) (map_to_list (ai_map info)) = [(str "ctx", [AsPending])]
  | _ => False
  end.
Proof. split; [apply AsyncProofs.parse_iff; reflexivity|vm_compute; reflexivity]. Qed.

(** ** Refuted: a destination that fails gives no calls back, and these are looked
    at all the same: instead of calling the error function the transaction ends in a
    panic, in every state. *)
Theorem C93_lost : forall `{E : env} rd id n c f args h h1 o e, asks (created c) f args ->
  rd (dest_call h (created c) f args) h = (h1, OOk (o, None, e)) ->
  processAsyncCall rd (fun s => set_actx_map (upd_call id n (set_gc_status s))) c h = (h1, OPanic).
Proof. intros E. exact created_lost. Qed.
Print Assumptions C93_lost.
Example C93_lost_ex : asks (created (made "no")) (str "no") [] /\
  match snd (dest_run "no") with OOk (Some o, None, Some e) => o_code o = RcUserError | _ => False end.
Proof. split; [apply AsyncProofs.parse_iff; reflexivity|vm_compute; reflexivity]. Qed.
Theorem C93_failed_refuted : exists (E : env) i h, env_ok E /\ vi_gas (ci_vm i) = 100000 /\
  match snd (RunSmartContractCall 12 i h) with OPanic => True | _ => False end.
Proof.
  exists (cEnv ex_c), (txS "bad" 0 100000), (host0 (cWorld ex_c)).
  split; [apply exEnv_ok|]. split; [reflexivity|]. vm_compute. exact I.
Qed.
Print Assumptions C93_failed_refuted.

(** ** Refuted: the gas of the call.  "s" creates a call with 100 units of gas; "t"
    finds nearly all that the transaction has. *)
Theorem C93_gas_refuted : exists (E : env) i h, env_ok E /\
  match snd (RunSmartContractCall 12 i h) with
  | OOk o => o_code o = RcOk /\ exists g l, map be_decode (o_retdata o) = g :: l /\ 99000 < g
  | _ => False
  end.
Proof.
  exists (cEnv ex_c), (txS "gas" 0 100000), (host0 (cWorld ex_c)).
  split; [apply exEnv_ok|]. apply first_over. vm_compute. split; reflexivity.
Qed.
Print Assumptions C93_gas_refuted.

(** ** Refuted: calls that wait.  "s" creates a call to "v", which is here, and "v"
    one to a contract elsewhere; they ask for 30000 units of gas.  Sending the second
    takes all the gas there is, so that none is left to wait with for the first: the
    transaction runs out of gas, with a thousand million units as well. *)
Theorem C93_nested_refuted : exists (E : env) i h, env_ok E /\ vi_gas (ci_vm i) = 1000000000 /\
  match snd (RunSmartContractCall 12 i h) with OOk o => o_code o = RcOutOfGas | _ => False end.
Proof.
  exists (cEnv ex_c), (txS "deep" 0 1000000000), (host0 (cWorld ex_c)).
  split; [apply exEnv_ok|]. split; [reflexivity|]. vm_compute. reflexivity.
Qed.
Print Assumptions C93_nested_refuted.

(** ** Refuted: calls made in the context of a caller.  "v" creates a call to a contract
    elsewhere; the call is sent when "s" calls "v" in the context of "v", and dropped
    without a word when "s" calls "v" in its own. *)
Theorem C93_same_refuted : exists (E : env) i h to, env_ok E /\
  seen (RunSmartContractCall 12 (i "dest"%string) h) = Some (RcOk, [str "asked"; str "on"], []) /\
  length (sent_to to (RunSmartContractCall 12 (i "dest"%string) h)) = 1%nat /\
  seen (RunSmartContractCall 12 (i "same"%string) h) = Some (RcOk, [str "asked"; str "on"], []) /\
  sent_to to (RunSmartContractCall 12 (i "same"%string) h) = [].
Proof.
  exists (cEnv ex_same), (fun f => txS f 0 100000), (host0 (cWorld ex_same)), (addr "x").
  split; [apply exEnv_ok|]. vm_compute. tauto.
Qed.
Print Assumptions C93_same_refuted.
