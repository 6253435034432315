(** Small contracts for the examples and counterexamples about calls.  The
    contract at [addr c] has the code [addr c]. *)
From Verif Require Export ExEnv.

Definition val32 (v : Z) : bytes := replicate 31 Byte.x00 ++ [zb v].
(** an API call whose result is ignored *)
Definition api1 (c : api_call) (k : prog) : prog := PApi c (fun _ => k).
(** destination at 0, value at 32, function or data at 64, key at 128, value at 160 *)
Definition with_call (dest : string) (value : Z) (data : bytes) (k : prog) : prog :=
  PWrite 0 (addr dest ++ val32 value ++ data) k.
Definition call_dest (gas : Z) (dest : string) (value : Z) (f : string) (k : prog) : prog :=
  with_call dest value (str f) (api1 (A_executeOnDestContext gas 0 32 64 (blen (str f)) 0 0 0) k).
Definition call_caller (gas : Z) (dest : string) (value : Z) (f : string) (k : prog) : prog :=
  with_call dest value (str f) (api1 (A_executeOnDestContextByCaller gas 0 32 64 (blen (str f)) 0 0 0) k).
Definition call_same (gas : Z) (dest : string) (value : Z) (f : string) (k : prog) : prog :=
  with_call dest value (str f) (api1 (A_executeOnSameContext gas 0 32 64 (blen (str f)) 0 0 0) k).
Definition call_ro (gas : Z) (dest : string) (f : string) (k : prog) : prog :=
  with_call dest 0 (str f) (api1 (A_executeReadOnly gas 0 64 (blen (str f)) 0 0 0) k).
Definition call_async (dest : string) (value : Z) (data : string) (k : prog) : prog :=
  with_call dest value (str data) (api1 (A_asyncCall 0 32 64 (blen (str data))) k).
Definition transfer (dest : string) (value : Z) (k : prog) : prog :=
  with_call dest value [] (api1 (A_transferValue 0 32 0 0) k).
Definition store_kv (key value : string) (k : prog) : prog :=
  PWrite 128 (str key) (PWrite 160 (str value) (api1 (A_storageStore 128 (blen (str key)) 160 (blen (str value))) k)).
Definition finish_with (s : string) (k : prog) : prog :=
  PWrite 160 (str s) (api1 (A_finish 160 (blen (str s))) k).
Definition set_big (handle v : Z) (k : prog) : prog := api1 (A_bigIntSetInt64 handle v) k.

Definition contracts (l : list (string * list (string * prog))) : list (bytes * wmodule) :=
  map (fun p => (addr (fst p), mod_of (map (fun f => (str (fst f), snd f)) (snd p)))) l.
Definition cEnv (l : list (string * list (string * prog))) : env := exEnv (contracts l).
(** every contract with balance 100, and the user "u" *)
Definition cWorld (l : list (string * list (string * prog))) : world :=
  mkWorld (list_to_map ((addr "u", plain_user 1000) ::
    map (fun p => (addr (fst p), sc_user (addr (fst p)) 100 ∅)) l)) ∅.
(** the host running contract "s", called by "u", gas 100000 *)
Definition cHost (l : list (string * list (string * prog))) : host :=
  set_h_met (mkMet 100000 0 100000 ∅)
    (set_h_insts {[0%nat := mkInst 0 100000 BreakpointNone (mkMem (replicate 256 Byte.x00) 1) (mod_of [])]}
      (ex_running [] (cWorld l))).
(** a transaction of the user "u" calling contract "s" *)
Definition txS (f : string) (value gas : Z) : call_input := call_of (addr "u") (addr "s") f [] value gas.
Definition cTx (l : list (string * list (string * prog))) (f : string) (value gas : Z) : host * outc vm_output :=
  RunSmartContractCall (E := cEnv l) 12 (txS f value gas) (host0 (cWorld l)).
(** running [p] in the contract "s" *)
Definition cRun (l : list (string * list (string * prog))) (p : prog) : host * outc bool :=
  vmRun (E := cEnv l) 12 p (cHost l).
(** deploying the code of contract [c] *)
Definition deploy (gas : Z) (c : string) (value : Z) (k : prog) : prog :=
  PWrite 0 (addr c ++ val32 value ++ addr c) (PWrite 128 [Byte.x01; Byte.x00]
    (api1 (A_createContract gas 32 64 128 32 160 0 0 0) k)).
(** a transfer to the address that the next contract made by [c] will have *)
Definition transfer_next (c : string) (value : Z) (k : prog) : prog :=
  PWrite 0 ((take 31 (addr c) ++ [zb 100]) ++ val32 value) (api1 (A_transferValue 0 32 0 0) k).
(** a call with arguments: their lengths at 96, the data at 168 *)
Definition le4 (n : Z) : bytes := [zb (n mod 256); zb (n / 256); Byte.x00; Byte.x00].
Definition call_args (gas : Z) (dest : string) (value : Z) (f : string) (args : list bytes) (k : prog) : prog :=
  with_call dest value (str f)
    (PWrite 96 (concat (map (fun a => le4 (blen a)) args))
      (PWrite 168 (concat args)
        (api1 (A_executeOnDestContext gas 0 32 64 (blen (str f)) (Z.of_nat (length args)) 96 168) k))).
