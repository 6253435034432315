(** Contracts for C95. *)
From Verif Require Export ChargeSpec ExCalls.

Local Open Scope string_scope.
Local Open Scope Z_scope.

(** "f" and "g" do 2^63 - 1 points of work, then "g" returns three results;
    "c" and "d" hand 2^63 - 1 gas to a call, "d" after 5000 points of work. *)
Definition ex_charge : list (string * list (string * prog)) :=
  [("s", [("f", PWork max_i64 PRet);
          ("g", PWork max_i64 (finish_with "a" (finish_with "b" (finish_with "c" PRet))));
          ("h", PRet);
          ("i", finish_with "a" (finish_with "b" (finish_with "c" PRet)));
          ("c", call_dest max_i64 "v" 0 "f" PRet);
          ("d", PWork 5000 (call_dest max_i64 "v" 0 "f" PRet))]);
   ("v", [("f", PRet)])].
