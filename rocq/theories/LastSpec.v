(** Vocabulary for C67: what has been reported stays. *)
From Verif Require Import VmTypes.

(** the results and events of [o] are in [o'], unchanged and in the same order:
    the events first of all, the results together *)
Definition still_reported (o o' : vm_output) : Prop :=
  (exists later, o_logs o' = o_logs o ++ later) /\
  (exists before later, o_retdata o' = before ++ o_retdata o ++ later).

(** [F run] started in [h] runs the program [p] in the state [h1] once and nothing
    else: its result depends on that run only, and if that panics, so does it *)
Definition runs_once {A} (F : (prog -> M bool) -> M A) (h : host) (p : prog) (h1 : host) : Prop :=
  (forall run1 run2, run1 p h1 = run2 p h1 -> F run1 h = F run2 h) /\
  (forall run, snd (run p h1) = OPanic -> snd (F run h) = OPanic).
