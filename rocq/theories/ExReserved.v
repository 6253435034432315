(** A contract for C96. *)
From Verif Require Export ReservedSpec ExCalls.
Local Open Scope string_scope.
Local Open Scope Z_scope.

Definition res_key : bytes := str "ELRONDk".
(** a built-in function that changes the reserved value of "s" *)
Definition put_new (w : world) (i : call_input) : world * res vm_output :=
  (set_w_accounts (alter (fun u => set_ua_storage (<[res_key := str "new"]> (ua_storage u)) u) (addr "s") (w_accounts w)) w,
   snd (exBuiltin w i)).
Definition load_own (k : prog) : prog := PWrite 176 res_key (api1 (A_storageLoad 176 7 200) k).
Definition load_from (k : prog) : prog :=
  PWrite 176 res_key (PWrite 208 (addr "s") (api1 (A_storageLoadFromAddress 208 176 7 200) k)).
Definition result (k : prog) : prog := api1 (A_finish 200 3) k.
Definition use_builtin (k : prog) : prog := call_dest 1000 "v" 0 "builtin" k.
(** "f" reads, has the value changed, and reads in both ways; "g" does not read
    before the change *)
Definition ex_res : list (string * list (string * prog)) :=
  [("s", [("f", load_own (result (use_builtin (load_own (result (load_from (result PRet)))))));
          ("g", use_builtin (load_own (result (load_from (result PRet)))))]);
   ("v", [("f", PRet)])].
Definition resEnv : env := exEnvWith put_new (contracts ex_res).
Definition resHost : host :=
  host0 (mkWorld (<[addr "s" := sc_user (addr "s") 100 {[res_key := str "old"]}]> (w_accounts (cWorld ex_res))) ∅).
Definition resRun (f : string) : host * outc vm_output := RunSmartContractCall (E := resEnv) 12 (txS f 0 50000) resHost.
