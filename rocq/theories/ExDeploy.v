(** Contracts for the examples and counterexamples about deployments. *)
From Verif Require Export ExCalls DeploySpec.

(** upgrading [t] to the code of [c], as oneself or in the name of the caller *)
Definition upgrade_args (c : string) : list bytes := [addr c; [Byte.x01; Byte.x00]].
Definition upgrade (t c : string) (k : prog) : prog := call_args 3000 t 0 "upgradeContract" (upgrade_args c) k.
Definition upgrade_caller (t c : string) (k : prog) : prog :=
  with_call t 0 (str "upgradeContract")
    (PWrite 96 (concat (map (fun a => le4 (blen a)) (upgrade_args c)))
      (PWrite 168 (concat (upgrade_args c))
        (api1 (A_executeOnDestContextByCaller 3000 0 32 64 (blen (str "upgradeContract")) 2 96 168) k))).
(** deploying [c]; the address of the new contract is returned *)
Definition deploy_report (gas : Z) (c : string) (k : prog) : prog :=
  PWrite 0 (addr c ++ val32 0 ++ addr c) (PWrite 128 [Byte.x01; Byte.x00]
    (PApi (A_createContract gas 32 64 128 32 160 0 0 0) (fun r => if r =? 0 then api1 (A_finish 160 32) k else k))).

Definition answer (r : host * outc vm_output) : option (return_code * list bytes) :=
  match snd r with OOk o => Some (o_code o, o_retdata o) | _ => None end.
(** code and metadata in the output *)
Definition new_code (a : bytes) (r : host * outc vm_output) : option (return_code * option (bytes * bytes)) :=
  match snd r with OOk o => Some (o_code o, (fun x => (oa_code x, oa_meta x)) <$> o_accounts o !! a) | _ => None end.

(** * Validation: "c" has no memory and exports the name of a built-in function
    and a function with an argument; "d" is fine *)
Definition ex_v : list (string * list (string * prog)) :=
  [("s", [("f", deploy 9000 "c" 0 PRet); ("g", deploy 9000 "d" 0 PRet)]); ("d", [("init", PRet); ("run", PRet)])]%string.
Definition bad_module : wmodule :=
  mkModule [(str "init", PRet); (str "builtin", PRet)] (fun n => if beq n (str "init") then Some (0, 0) else Some (1, 0)) false []
    (mkMem (replicate 256 Byte.x00) 1).
Definition vEnv : env := exEnv ((addr "c", bad_module) :: contracts ex_v).
Definition first_of (c : string) : bytes := take 31 (addr c) ++ [zb 100].
Definition create_of (c : string) : create_input := mkCreate (input_of (addr "u") [] 0 50000) (addr c) [Byte.x01; Byte.x00].

(** * Upgrades: "o" owns every contract; "g" of "t" answers "old", that of "n" "new" *)
Definition ex_w : list (string * list (string * prog)) :=
  [("s", [("f", upgrade "t" "n" PRet); ("g", upgrade_caller "t" "n" PRet); ("h", call_dest 1000 "t" 0 "g" PRet)]);
   ("o", [("f", upgrade "t" "n" PRet); ("g", upgrade "t" "n" (call_dest 1000 "t" 0 "g" PRet));
          ("h", upgrade "t" "n" (call_dest 1000 "t" 0 "g" PTrap))]);
   ("t", [("g", finish_with "old" PRet)]); ("n", [("init", PRet); ("g", finish_with "new" PRet)])]%string.
(** a transaction of [by_] calling [f] of [c] *)
Definition tx_of (by_ c f : string) : call_input := call_of (addr by_) (addr c) f [] 0 50000.
Definition wHost : host := host0 (cWorld ex_w).
Definition wRun (i : call_input) (h : host) : host * outc vm_output := RunSmartContractCall (E := cEnv ex_w) 12 i h.
(** the same with the compiled-code cache *)
Definition aotEnv : env := exEnvFull (fun l => l) (fun _ => RErr ErrGeneric) true exBuiltin (contracts ex_w).
Definition aRun (i : call_input) (h : host) : host * outc vm_output := RunSmartContractCall (E := aotEnv) 12 i h.
Definition cached : host := set_h_cache {[addr "t" := addr "t"]} wHost.

(** * Addresses *)
Definition ex_a : list (string * list (string * prog)) :=
  [("s", [("f", deploy_report 40000 "b" PRet); ("g", deploy_report 9000 "c" PRet);
          ("two", deploy_report 9000 "c" (deploy_report 9000 "d" PRet))]);
   ("b", [("init", call_dest 20000 "s" 0 "g" PRet)]); ("c", [("init", PRet)]); ("d", [("init", PRet)]); ("e", [("init", PTrap)])]%string.
Definition without_v3 (E : env) : env :=
  mkEnv (e_v2 E) false (e_aot E) (e_dyn E) (e_esdt E) (e_cost E) (e_protected E) (e_isBuiltin E) (e_builtin E) (e_shard E) (e_isSC E)
    (e_isPayable E) (e_newAddress E) (e_missing_err E) (e_compile E) (e_sha256 E) (e_apiname E) (e_errmsg E) (e_codestr E) (e_order E)
    (e_marshal E) (e_unmarshal E) (e_esdtToken E) (e_blockhash E) (e_blockinfo E) (e_blockseed E) (e_stateroot E) (e_nftNonceKey E)
    (e_hash E) (e_verifySig E).
