(** Running contract functions, and the host's entry points. *)
From Verif Require Export ApiModel.

(** * Running an exported function on the current instance

    Wasmer (wasmer/instance.go, with the metering and breakpoint middlewares of
    the Wasmer library, which is not in /repo) is replaced by this interpreter
    of [prog]: gas points are counted against the limit of the instance and
    exceeding it sets BreakpointOutOfGas and stops; accesses out of the
    memory's bounds trap; after an imported function has returned, a breakpoint
    value other than 0 stops the run.  The boolean tells whether the function
    returned normally. *)
Fixpoint run_prog (callApi : api_call -> M Z) (p : prog) : M bool :=
  match p with
  | PRet => ret true
  | PTrap => ret false
  | PWork points k =>
      '(_, x) <- cur_inst ;;
      let used := AddUint64 (in_points x) (u64 points) in
      upd_inst (set_in_points used) ;;;
      if in_limit x <? used
      then SetRuntimeBreakpointValue BreakpointOutOfGas ;;; ret false
      else run_prog callApi k
  | PRead offset len k =>
      '(_, x) <- cur_inst ;;
      if (0 <=? offset) && (0 <=? len) && (offset + len <=? blen (m_data (in_mem x)))
      then run_prog callApi (k (take (Z.to_nat len) (drop (Z.to_nat offset) (m_data (in_mem x)))))
      else ret false
  | PWrite offset data k =>
      '(_, x) <- cur_inst ;;
      let m := in_mem x in
      if (0 <=? offset) && (offset + blen data <=? blen (m_data m))
      then upd_inst (set_in_mem (mkMem
             (take (Z.to_nat offset) (m_data m) ++ data ++ drop (Z.to_nat offset + length data) (m_data m))
             (m_limit m))) ;;;
           run_prog callApi k
      else ret false
  | PGrow k =>
      '(_, x) <- cur_inst ;;
      match m_grow (in_mem x) with
      | Some m => upd_inst (set_in_mem m) ;;; run_prog callApi (k true)
      | None => run_prog callApi (k false)
      end
  | PApi c k =>
      r <- callApi c ;;
      bp <- GetRuntimeBreakpointValue ;;
      if bp =? BreakpointNone then run_prog callApi (k r) else ret false
  end.

(** * The knot

    ExecuteOnDestContext and ExecuteOnSameContext run contract functions, which
    call them in turn.  [fuel] bounds the depth of this recursion; the model
    gives [OFuel] when it is used up, which a theorem excludes for
    [fuel >= 10] (the host allows 10 instances). *)
Definition same : Type := call_input -> M unit.

Definition runner `{E : env} (ed : edf) (es : same) : prog -> M bool :=
  run_prog (fun c => run_cmd ed es (api c)).

Fixpoint vm `{E : env} (fuel : nat) : edf * same :=
  match fuel with
  | O => (fun _ => nofuel, fun _ => nofuel)
  | S n =>
      let ed := fst (vm n) in
      let es := snd (vm n) in
      (ExecuteOnDestContext (runner ed es) ed, ExecuteOnSameContext (runner ed es) ed)
  end.

Definition vmDest `{E : env} (fuel : nat) : edf := fst (vm fuel).
Definition vmSame `{E : env} (fuel : nat) : same := snd (vm fuel).
Definition vmRun `{E : env} (fuel : nat) : prog -> M bool := runner (vmDest fuel) (vmSame fuel).
(** an API call made by the running contract *)
Definition vmApi `{E : env} (fuel : nat) (c : api_call) : M Z := run_cmd (vmDest fuel) (vmSame fuel) (api c).

(** * Entry points (arwen.go:326-379)

    [OPanic]: TryCatch (arwen.go:381-398) recovers the panic and the function
    returns no output and an error. *)
Definition RunSmartContractCreate `{E : env} (fuel : nat) (i : create_input) : M vm_output :=
  doRunSmartContractCreate (vmRun fuel) (vmDest fuel) i.
Definition RunSmartContractCall `{E : env} (fuel : nat) (i : call_input) : M vm_output :=
  RunSmartContractCallIn (vmRun fuel) (vmDest fuel) i.
