(** A contract that asks for an upgrade, for the examples. *)
From Verif Require Import VmModel.
From Verif Require Export ExAsync UpgradeSpec.

Definition ask_upgrade (dest code : string) (gas : Z) (k : prog) : prog :=
  with_call dest 0 (addr code) (PWrite 128 [Byte.x01; Byte.x00] (api1 (A_upgradeContract 0 gas 32 64 128 32 0 0 0) k)).
(** "o" owns "t" and upgrades it to the code of "n", with 20000 or 100 units of gas,
    and goes on with the result "on"; the new code tells the gas it finds *)
Definition ex_up : list (string * list (string * prog)) :=
  [("o", [("up", ask_upgrade "t" "n" 20000 (finish_with "on" PRet)); ("few", ask_upgrade "t" "n" 100 (finish_with "on" PRet)); ("callBack", PRet)]);
   ("t", [("yes", finish_with "old" PRet)]); ("n", [("init", gas_mark PRet); ("yes", finish_with "new" PRet)])]%string.
Definition upTx (f : string) (gas : Z) : host * outc vm_output :=
  RunSmartContractCall (E := cEnv ex_up) 12 (call_of (addr "u") (addr "o") f [] 0 gas) (host0 (cWorld ex_up)).
Definition code_after (a : bytes) (r : host * outc vm_output) : option (return_code * list bytes * bytes) :=
  match snd r with OOk o => Some (o_code o, o_retdata o, default [] (oa_code <$> o_accounts o !! a)) | _ => None end.
(** contract "s" with the request in its memory, and [g] units of gas *)
Definition up_bytes : bytes := addr "t" ++ val32 0 ++ addr "n" ++ [Byte.x01; Byte.x00] ++ replicate 60 Byte.x00.
Definition up_host (g : Z) : host :=
  set_h_met (mkMet g 0 g ∅)
    (set_h_insts {[0%nat := mkInst 0 100000 BreakpointNone (mkMem up_bytes 1) (mod_of [(str "callBack", PRet)])]} (cHost ex_up)).
Definition up_call : api_call := A_upgradeContract 0 20000 32 64 96 32 0 0 0.
Definition up_data : bytes := makeCallData (str "upgradeContract") [addr "n"; [Byte.x01; Byte.x00]].
