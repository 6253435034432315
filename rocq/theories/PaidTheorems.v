(** C97: a contract that is paid with an asynchronous call keeps the payment. *)
From Verif Require Import VmModel CallSpec GasSpec AsyncSpec PaidSpec ExPaid PaidProofs.

(** The answer to an asynchronous call from another shard that brought no value
    moves no value.  What is missing: calls that bring a value, for which it is
    false, see C97_sent_back_refuted. *)
Theorem C97_unpaid_partial : forall `{E : env} h h' r,
  metered h -> vi_value (r_input (h_rt h)) = 0 -> sendCallbackToCurrentCaller h = (h', r) -> r <> OPanic ->
  exists pay sent, outcome_of h h' pay sent /\ (forall a, pay a = 0) /\
    (forall a t, t ∈ sent a -> a = vi_caller (r_input (h_rt h)) /\ ot_value t = 0).
Proof. exact @c97_unpaid. Qed.
Print Assumptions C97_unpaid_partial.

(** "v" is paid 10 and succeeds.  Called from the same shard it has 10 more
    afterwards; called from another shard it has nothing more, and its caller
    gets the 10 back. *)
Theorem C97_sent_back_refuted : exists (E : env) h near far paid,
  env_ok E /\ no_stacks h /\ vi_value (ci_vm far) = 10 /\ ci_rcpt far = paid /\
  let n := RunSmartContractCall 12 near h in let f := RunSmartContractCall 12 far h in
  ended n = Some (RcOk, [str "ok"]) /\ ended f = Some (RcOk, [str "ok"]) /\
  gained n paid = 10 /\ gained f paid = 0 /\
  gained n (ci_rcpt near) = -10 /\ gained f (vi_caller (ci_vm far)) = 10.
Proof.
  exists paidEnv, paidHost, (txS "f" 0 50000), (from_x "take" 10), (addr "v").
  split; [apply exEnv_ok|]. split; [constructor; reflexivity|]. vm_compute. tauto.
Qed.
Print Assumptions C97_sent_back_refuted.

(** A contract that passes on what it is paid does so with its own money when it
    is called from another shard. *)
Theorem C97_paid_twice_refuted : exists (E : env) h near far paid other,
  env_ok E /\ no_stacks h /\ vi_value (ci_vm far) = 10 /\ ci_rcpt far = paid /\
  let n := RunSmartContractCall 12 near h in let f := RunSmartContractCall 12 far h in
  ended n = Some (RcOk, [str "ok"]) /\ ended f = Some (RcOk, [str "ok"]) /\
  gained n other = 10 /\ gained f other = 10 /\
  gained n paid = 0 /\ gained f paid = -10 /\ gained f (vi_caller (ci_vm far)) = 10.
Proof.
  exists paidEnv, paidHost, (txS "g" 0 50000), (from_x "pass" 10), (addr "v"), (addr "u").
  split; [apply exEnv_ok|]. split; [constructor; reflexivity|]. vm_compute. tauto.
Qed.
Print Assumptions C97_paid_twice_refuted.

(** a call without value, from another shard *)
Example C97_ex :
  let r := RunSmartContractCall (E := paidEnv) 12 (from_x "take" 0) paidHost in
  ended r = Some (RcOk, [str "ok"]) /\ gained r (addr "v") = 0 /\ gained r (addr "x") = 0.
Proof. vm_compute. tauto. Qed.
