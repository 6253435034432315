(** API calls and host panics: property C56. *)
From Verif Require Import VmModel SafeSpec SafeProofs SafeApiProofs ExEnv ExSafe.

(** C56, full statement: for every API call with any arguments, made by a running
    contract, the call returns to the contract; it does not panic.  This is false
    ([C56_index_refuted]).  What holds: a call that runs no other code returns,
    whatever its arguments are and whatever state the host is in, as long as
    (a) an unchecked index is not negative, (b) nothing the host holds has 2 GiB or
    more (Go's lengths are converted to int32), and (c) the blockchain hook and
    the cryptography return. *)
Theorem C56_call_returns_partial : forall (E : env) fuel c h,
  hooks_return E -> alive h -> small_host h -> executing c = false ->
  (forall i, unchecked_index c = Some i -> 0 <= i) ->
  returns (vmApi fuel c h).
Proof. intros E fuel c h HE Hh Hs Hc Hi. apply safe_quiet; try assumption. destruct (unchecked_index c); [apply Hi; reflexivity|exact I]. Qed.
Print Assumptions C56_call_returns_partial.

(** C56: a call that runs other code first returns if that code does: [dest] and [same]
    stand for the execution of a nested call on the destination's context and on the
    caller's.  (What is missing: nested executions do not always return, see
    the other theorems.) *)
Theorem C56_executing_call_partial : forall (E : env) (dest : call_input -> M ed_res) (same : call_input -> M unit) c h,
  hooks_return E -> alive h -> small_host h ->
  (forall i g, alive g -> returns (dest i g)) ->
  (forall i g, alive g -> match same i g with (g', OOk _) | (g', OErr _) => alive g' | _ => False end) ->
  (forall i, unchecked_index c = Some i -> 0 <= i) ->
  returns (run_cmd dest same (api c) h).
Proof. intros E dest same c h HE Hh Hs Hd Hm Hi. apply safe_checked; try assumption. destruct (unchecked_index c); [apply Hi; reflexivity|exact I]. Qed.
Print Assumptions C56_executing_call_partial.

(** C56 fails for four calls: with a negative index each of them always panics
    (fewer than 2^31 arguments and return values). *)
Theorem C56_negative_index_panics : forall (E : env) fuel c i h,
  unchecked_index c = Some i -> i < 0 -> alive h ->
  Z.of_nat (length (o_retdata (h_out h))) <= max_i32 -> Z.of_nat (length (vi_args (r_input (h_rt h)))) <= max_i32 ->
  snd (vmApi fuel c h) = OPanic.
Proof. intros E fuel c i h. apply panic_index. Qed.
Print Assumptions C56_negative_index_panics.

Theorem C56_index_refuted : exists (E : env) c h,
  hooks_return E /\ alive h /\ small_host h /\ snd (vmApi 5 c h) = OPanic.
Proof.
  exists safeEnv, (A_getReturnDataSize (-1)), safeHost.
  split; [exact safeEnv_returns|]. split; [exact safeHost_alive|]. split; [exact safeHost_small|]. vm_compute. reflexivity.
Qed.
Print Assumptions C56_index_refuted.

Example C56_ex_hypotheses : hooks_return safeEnv /\ alive safeHost /\ small_host safeHost.
Proof. exact (conj safeEnv_returns (conj safeHost_alive safeHost_small)). Qed.
(** arguments far out of range: the call fails and the contract is stopped *)
Example C56_ex_wild : match vmApi (E := safeEnv) 5 (A_writeEventLog 2147483647 (-2147483648) 2147483647 2147483647 (-1)) safeHost with
  | (h, OOk _) => match h_insts h !! 0%nat with Some x => in_bp x = BreakpointExecutionFailed | None => False end | _ => False end.
Proof. vm_compute. reflexivity. Qed.
Example C56_ex_index : match vmApi (E := safeEnv) 5 (A_getReturnDataSize 0) safeHost with (_, OOk r) => r = 3 | _ => False end.
Proof. vm_compute. reflexivity. Qed.
Example C56_ex_executing : forall i g, alive g -> returns ((fun _ : call_input => (ret (None, None, None) : M ed_res)) i g).
Proof. intros i g Hg. exact Hg. Qed.
