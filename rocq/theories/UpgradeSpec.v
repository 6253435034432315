(** What is said of the upgrades contracts ask for
    (arwen/elrondapi/elrondei.go:1361-1419 and 1506-1540). *)
From Verif Require Import VmModel GasSpec.
From Verif Require Export AskSpec.

(** the gas put aside for the callback of an asynchronous call *)
Definition put_aside `{E : env} (h : host) (lock : Z) : Prop :=
  let cb := has_callback h \/ e_dyn E = false in
  (cb -> lock = callback_lock (h_codesize h)) /\ (~ cb -> lock = 0).
(** the running contract is stopped to make an asynchronous call *)
Definition stopped_for_call (h : host) : Prop :=
  exists i x, h_cur h = Some i /\ h_insts h !! i = Some x /\ in_bp x = BreakpointAsyncCall.
