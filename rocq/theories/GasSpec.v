(** Vocabulary for gas.  Only fields of the state are named here. *)
From Verif Require Import VmTypes CtxModel.

(** the gas counter of the running instance *)
Definition spent (h : host) : Z :=
  match h_cur h with
  | Some c => match h_insts h !! c with Some x => in_points x | None => 0 end
  | None => 0
  end.
(** what the running frame may spend, and what is left of it *)
Definition budget (h : host) : Z := mt_forexec (h_met h).
Definition left_of (h : host) : Z := Z.max 0 (budget h - spent h).

(** an instance is running *)
Definition in_frame (h : host) : Prop := exists c x, h_cur h = Some c /\ h_insts h !! c = Some x.
(** no gas counter is negative (they are uint64 in Go) *)
Definition counters_ok (h : host) : Prop := forall c x, h_insts h !! c = Some x -> 0 <= in_points x.

(** the gas handed to a call: a callback also gets the gas locked for it *)
Definition handed (v : vm_input) : Z :=
  vi_gas v + match vi_ctype v with AsynchronousCallBack => vi_locked v | _ => 0 end.
(** amounts as Go's uint64 holds them *)
Definition gas_input (v : vm_input) : Prop := 0 <= vi_gas v /\ 0 <= vi_locked v /\ handed v < 2 ^ 64.

(** contract code was not started between [h] and [h'] *)
Definition is_run (e : event) : bool := match e with EvRun _ _ => true | _ => false end.
Definition nothing_ran (h h' : host) : Prop := List.filter is_run (h_trace h') = List.filter is_run (h_trace h).

(** the gas accounted for in an output *)
Definition transfers_gas (x : out_account) : Z :=
  fold_right Z.add 0 (map (fun t => ot_gaslimit t + ot_gaslocked t) (oa_transfers x)).
Definition account_gas (x : out_account) : Z := oa_gasused x + transfers_gas x.
Definition accounts_gas (m : gmap bytes out_account) : Z :=
  map_fold (fun _ x g => account_gas x + g) 0 m.
(** amounts as Go's uint64 holds them *)
Definition gas_typed (o : vm_output) : Prop :=
  0 <= o_gasrem o /\
  forall a x, o_accounts o !! a = Some x ->
    0 <= oa_gasused x /\ Forall (fun t => 0 <= ot_gaslimit t /\ 0 <= ot_gaslocked t) (oa_transfers x).

(** the gas of the frame making a call that was handed [given] and returned
    [back]: it pays the difference, and nothing else of its gas changed.  A call
    that failed before contract code was started may have cost nothing. *)
Definition call_gas (h h' : host) (given back : Z) (failed : bool) : Prop :=
  in_frame h' /\ budget h' = budget h /\ counters_ok h' /\ 0 <= back <= given /\
  (spent h' = spent h + given - back \/
   failed = true /\ back = 0 /\ spent h' = spent h /\ nothing_ran h h').

(** the frame runs with a gas counter and a budget in range *)
Definition metered (h : host) : Prop :=
  in_frame h /\ counters_ok h /\ budget h <= max_i64 /\ spent h <= max_i64.

(** built-in functions do not hand on more gas than they were given *)
Definition frugal_builtins `{E : env} : Prop :=
  forall w i w' o a x t, e_builtin E w i = (w', ROk o) -> o_accounts o !! a = Some x -> In t (oa_transfers x) ->
    0 <= ot_gaslimit t /\ 0 <= ot_gaslocked t /\ 0 <= o_gasrem o /\ ot_gaslimit t + o_gasrem o <= vi_gas (ci_vm i).

(** the gas handed to the call is within what is left of the frame making it *)
Definition affordable (i : call_input) (h : host) : Prop := 0 <= handed (ci_vm i) <= left_of h /\ vi_locked (ci_vm i) = 0.

(** the running contract has a callback *)
Definition has_callback (h : host) : Prop :=
  exists c x p, h_cur h = Some c /\ h_insts h !! c = Some x /\ In (str "callBack", p) (wm_exports (in_mod x)).
(** the gas to reserve for the callback of a contract of [size] bytes: loading
    the contract, one more step, and the fixed lock *)
Definition callback_lock `{E : env} (size : Z) : Z :=
  Z.min max_u64
    ((if e_dyn E then size * e_cost E (if e_aot E then AoTPreparePerByte else CompilePerByte) else 0) +
     (e_cost E CAsyncCallStep + e_cost E CAsyncCallbackGasLock)).
