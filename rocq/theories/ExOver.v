(** Contracts for C98. *)
From Verif Require Export PaidSpec ExCalls.
Local Open Scope string_scope.
Local Open Scope Z_scope.

(** "v" stores 26 bytes ("f") for 59 gas and does nothing more, so that no
    instruction follows at which the instance itself would stop; "s" calls it in the same context
    ("same") or in its own ("dest"), with gas [g] *)
Definition ex_over (g : Z) : list (string * list (string * prog)) :=
  [("s", [("same", call_same g "v" 0 "f" (finish_with "ok" PRet));
          ("dest", call_dest g "v" 0 "f" (finish_with "ok" PRet))]);
   ("v", [("f", store_kv "k" "abcdefghijklmnopqrstuvwxyz" PRet)])].
Definition overEnv (g : Z) : env := cEnv (ex_over g).
Definition overHost (g : Z) : host := host0 (cWorld (ex_over g)).
Definition direct (gas : Z) : call_input :=
  mkCall (input_of (addr "x") [] 0 gas) (addr "v") (str "f") false.
