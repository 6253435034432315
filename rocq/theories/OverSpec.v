(** C98: work beyond the gas given. *)
From Verif Require Export VmModel GasSpec PaidSpec.

(** [p] is the function [fn] of the running contract *)
Definition exports_now (h : host) (fn : bytes) (p : prog) : Prop :=
  exists c x, h_cur h = Some c /\ h_insts h !! c = Some x /\ export (in_mod x) fn = Some p.
(** the code [p] runs to its end from [h0] to [h1], and has spent no more than it may *)
Definition ran_within `{E : env} (run : prog -> M bool) (rd : edf) (p : prog) (h0 h1 : host) : Prop :=
  callFunction run rd p h0 = (h1, OOk tt) /\ spent h1 <= budget h1.
(** the gas left when the transaction is over *)
Definition left_over (r : host * outc vm_output) : Z :=
  match snd r with OOk o => o_gasrem o | _ => 0 end.
(** the gas charged to account [a] *)
Definition charged_to (r : host * outc vm_output) (a : bytes) : Z :=
  match snd r with OOk o => default 0 (oa_gasused <$> o_accounts o !! a) | _ => 0 end.
(** the value the transaction leaves under [k] in the storage of [a] *)
Definition left_under (r : host * outc vm_output) (a k : bytes) : option bytes :=
  match snd r with
  | OOk o => match o_accounts o !! a with Some x => oa_storage x !! k | None => None end
  | _ => None
  end.
