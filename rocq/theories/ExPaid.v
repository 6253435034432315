(** Contracts for C97. *)
From Verif Require Export PaidSpec ExCalls.
Local Open Scope string_scope.
Local Open Scope Z_scope.

(** "v" takes what it is paid ("take"), or passes 10 on to "u" ("pass"); "s"
    pays "v" 10 with an asynchronous call *)
Definition ex_paid : list (string * list (string * prog)) :=
  [("s", [("f", call_async "v" 10 "take" PRet); ("g", call_async "v" 10 "pass" PRet); ("callBack", PRet)]);
   ("v", [("take", finish_with "ok" PRet); ("pass", transfer "u" 10 (finish_with "ok" PRet))])].
Definition paidEnv : env := cEnv ex_paid.
Definition paidHost : host := host0 (cWorld ex_paid).
(** the same call as it arrives from the contract "x" in another shard *)
Definition from_x (f : string) (value : Z) : call_input :=
  mkCall (set_vi_ctype AsynchronousCall (input_of (addr "x") [] value 50000)) (addr "v") (str f) false.
