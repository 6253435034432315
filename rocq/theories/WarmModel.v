(** The wasm instances of the runtime context, with the option useWarmInstance:
    the last instance made from bytecode is kept and used again for its address.
    (The rest of the model takes the option to be off.) *)
From Verif Require Import Base.
From stdpp Require Import list.
Local Open Scope Z_scope.

(** A wasm instance, as wasmer has it: the module it was made from, points used,
    gas limit, breakpoint, memory, and whether Clean was called on it.  The
    memory also stands for the globals of the module. *)
Record winst := mkWInst {
  wi_code : bytes;
  wi_points : Z;
  wi_limit : Z;
  wi_break : Z;
  wi_mem : bytes;
  wi_freed : bool
}.

(** The outside: the option, maxWasmerInstances, which bytecode compiles
    (NewInstanceWithOptions), which is accepted by VerifyContractCode, and the
    memory a new instance has. *)
Class warm_env := mkWarmEnv {
  we_warm : bool;
  we_max : Z;
  we_compiles : bytes -> bool;
  we_valid : bytes -> bool;
  we_mem : bytes -> bytes
}.

(** runtime.go:28-50, the fields about instances: [ri_heap] are all instances
    ever made, and an instance handler is a place in it ([None] is nil). *)
Record rinst := mkRInst {
  ri_heap : list winst;
  ri_current : option nat;         (* instance *)
  ri_stack : list (option nat);    (* instanceStack, top first *)
  ri_warm_addr : option bytes;     (* warmInstanceAddress *)
  ri_warm : option nat             (* warmInstance *)
}.

(** runtime.go:53-80 NewRuntimeContext *)
Definition no_instances : rinst := mkRInst [] None [] None None.

Definition set_current (c : option nat) (r : rinst) : rinst :=
  mkRInst (ri_heap r) c (ri_stack r) (ri_warm_addr r) (ri_warm r).
Definition set_heap (h : list winst) (r : rinst) : rinst :=
  mkRInst h (ri_current r) (ri_stack r) (ri_warm_addr r) (ri_warm r).
Definition set_stack (s : list (option nat)) (r : rinst) : rinst :=
  mkRInst (ri_heap r) (ri_current r) s (ri_warm_addr r) (ri_warm r).

(** wasmer/instance.go: Clean (the module, its memory and its points are gone) *)
Definition freed (w : winst) : winst :=
  mkWInst (wi_code w) (wi_points w) (wi_limit w) (wi_break w) (wi_mem w) true.

(** runtime.go:264-271 IsWarmInstance *)
Definition IsWarmInstance (r : rinst) : bool :=
  match ri_current r with
  | Some i => bool_decide (ri_warm r = Some i)
  | None => false
  end.

(** runtime.go:706-716 CleanWasmerInstance *)
Definition CleanWasmerInstance (r : rinst) : rinst :=
  match ri_current r with
  | None => r
  | Some i =>
      if IsWarmInstance r then r
      else set_current None (set_heap (alter freed i (ri_heap r)) r)
  end.

(** runtime.go:273-285 ResetWarmInstance *)
Definition ResetWarmInstance (r : rinst) : rinst :=
  match ri_current r with
  | None => r
  | Some i => mkRInst (alter freed i (ri_heap r)) None (ri_stack r) None None
  end.

(** runtime.go:378-381 pushInstance *)
Definition pushInstance (r : rinst) : rinst := set_stack (ri_current r :: ri_stack r) r.

(** runtime.go:383-406 popInstance *)
Definition popInstance (r : rinst) : rinst :=
  match ri_stack r with
  | [] => r
  | prev :: s =>
      if bool_decide (prev = ri_current r) then set_stack s r
      else set_current prev (CleanWasmerInstance (set_stack s r))
  end.

(** runtime.go:104-119 setWarmInstanceWhenNeeded; [addr] is the current address
    (never nil here) and BreakpointNone is 0 *)
Definition setWarmInstanceWhenNeeded `{E : warm_env} (addr : bytes) (gas : Z) (r : rinst) : option rinst :=
  if we_warm && bool_decide (ri_warm_addr r = Some addr) then
    match ri_warm r with
    | Some i =>
        Some (set_current (Some i)
          (set_heap (alter (fun w => mkWInst (wi_code w) 0 gas 0 (wi_mem w) (wi_freed w)) i (ri_heap r)) r))
    | None => None    (* not reached: address and instance are set together *)
    end
  else None.

(** instanceBuilder.go: a new instance becomes the current one *)
Definition new_inst `{E : warm_env} (code : bytes) (gas : Z) : winst :=
  mkWInst code 0 gas 0 (we_mem code) false.
Definition add_instance (w : winst) (r : rinst) : rinst :=
  set_current (Some (length (ri_heap r))) (set_heap (ri_heap r ++ [w]) r).

(** runtime.go:142-178 makeInstanceFromCompiledCode; [cached] is what
    GetCompiledCode has under the hash of the address's code ([None] also if
    ahead-of-time compilation is off, or there is no hash); taken to be good *)
Definition makeInstanceFromCompiledCode `{E : warm_env} (cached : option bytes) (gas : Z) (newCode : bool)
    (r : rinst) : option rinst :=
  if newCode then None
  else match cached with
       | Some code => Some (add_instance (new_inst code gas) r)
       | None => None
       end.

(** runtime.go:180-234 makeInstanceFromContractByteCode; Sha256 does not fail,
    and what is saved in the cache of compiled code is left to [cached] *)
Definition makeInstanceFromContractByteCode `{E : warm_env} (addr code : bytes) (gas : Z) (newCode : bool)
    (r : rinst) : bool * rinst :=
  if we_compiles code then
    let r := add_instance (new_inst code gas) r in
    if newCode && negb (we_valid code) then (false, CleanWasmerInstance r)
    else (true, if we_warm
                then mkRInst (ri_heap r) (ri_current r) (ri_stack r) (Some addr) (ri_current r)
                else r)
  else (false, set_current None r).

(** runtime.go:121-140 StartWasmerInstance; [false]: an error *)
Definition StartWasmerInstance `{E : warm_env} (addr code : bytes) (gas : Z) (newCode : bool) (cached : option bytes)
    (r : rinst) : bool * rinst :=
  if we_max <=? Z.of_nat (length (ri_stack r)) then (false, set_current None r)
  else match setWarmInstanceWhenNeeded addr gas r with
       | Some r' => (true, r')
       | None =>
           match makeInstanceFromCompiledCode cached gas newCode r with
           | Some r' => (true, r')
           | None => makeInstanceFromContractByteCode addr code gas newCode r
           end
       end.

(** * What runs on the instances *)

(** What code does, up to what instances have to do with it: it changes points,
    breakpoint and memory of its instance ([Compute]), and it starts other code
    and goes on when that has ended ([Invoke]; code that ends early because a
    callee failed is [Return] earlier). *)
Inductive conduct :=
  | Return
  | Compute (points brk : Z) (mem : bytes) (k : conduct)
  | Invoke (addr code : bytes) (gas : Z) (newCode : bool) (cached : option bytes) (body k : conduct).

(** What is seen: the instance code is started on, that it is not started, and
    the instance running code finds whenever it does something. *)
Inductive sight :=
  | Started (w : winst)
  | Refused
  | Found (w : winst)
  | Nothing.     (* no instance: a panic *)

Definition found (c : rinst) : sight :=
  match ri_current c with
  | Some i => match ri_heap c !! i with Some w => Found w | None => Nothing end
  | None => Nothing
  end.
Definition started (c : rinst) : sight := match found c with Found w => Started w | x => x end.
Definition computed (points brk : Z) (mem : bytes) (w : winst) : winst :=
  mkWInst (wi_code w) points (wi_limit w) brk mem (wi_freed w).
Definition compute (points brk : Z) (mem : bytes) (r : rinst) : rinst :=
  match ri_current r with
  | Some i => set_heap (alter (computed points brk mem) i (ri_heap r)) r
  | None => r
  end.

(** execution.go: ExecuteOnDestContext (:220-350), ExecuteOnSameContext
    (:352-422) and CreateNewContract (:445-508), as far as instances go:
    PushState, StartWasmerInstance, the call, PopSetActiveState or PopDiscard *)
Fixpoint conducted `{E : warm_env} (p : conduct) (r : rinst) : list sight * rinst :=
  match p with
  | Return => ([], r)
  | Compute points brk mem k =>
      let '(l, r') := conducted k (compute points brk mem r) in
      (found r :: l, r')
  | Invoke addr code gas newCode cached body k =>
      let '(l1, r1) :=
        match StartWasmerInstance addr code gas newCode cached (pushInstance r) with
        | (true, r0) => let '(l0, r0') := conducted body r0 in (started r0 :: l0, r0')
        | (false, r0) => ([Refused], r0)
        end in
      let '(l2, r2) := conducted k (popInstance r1) in
      (l1 ++ l2, r2)
  end.

(** A transaction: the code it starts and whether it ends with the message
    "allocation error". *)
Record warm_tx := mkWarmTx {
  wt_addr : bytes;
  wt_code : bytes;
  wt_gas : Z;
  wt_new : bool;                (* RunSmartContractCreate, or an upgrade *)
  wt_cached : option bytes;
  wt_body : conduct;
  wt_alloc : bool
}.

(** host/execution.go:17-90, 92-129, 144-199 and host/arwen.go:290-296, 343-407:
    start, run, clean; a call that ended with "allocation error" on the warm
    instance resets it (not a creation or an upgrade) *)
Definition warm_transaction `{E : warm_env} (t : warm_tx) (r : rinst) : list sight * rinst :=
  let '(l, r') :=
    match StartWasmerInstance (wt_addr t) (wt_code t) (wt_gas t) (wt_new t) (wt_cached t) r with
    | (true, r0) => let '(l0, r0') := conducted (wt_body t) r0 in (started r0 :: l0, r0')
    | (false, r0) => ([Refused], r0)
    end in
  let r' := CleanWasmerInstance r' in
  (l, if negb (wt_new t) && wt_alloc t && IsWarmInstance r' then ResetWarmInstance r' else r').

Fixpoint warm_transactions `{E : warm_env} (ts : list warm_tx) (r : rinst) : list (list sight) * rinst :=
  match ts with
  | [] => ([], r)
  | t :: ts =>
      let '(l, r1) := warm_transaction t r in
      let '(ls, r2) := warm_transactions ts r1 in
      (l :: ls, r2)
  end.
