(** Contracts and observations for the examples about gas. *)
From Verif Require Import GasSpec.
From Verif Require Export ExCalls.

(** contract "s" with a code of 128 bytes, the others with 32 *)
Definition big_code : bytes := addr "s" ++ addr "s" ++ addr "s" ++ addr "s".
Definition bigEnv (f : list (string * prog)) (l : list (string * list (string * prog))) : env :=
  exEnv ((big_code, mod_of (map (fun f => (str (fst f), snd f)) f)) :: contracts l).
Definition bigWorld (l : list (string * list (string * prog))) : world :=
  mkWorld (<[addr "s" := sc_user big_code 100 ∅]> (w_accounts (cWorld l))) ∅.
Definition bigTx f l (name : string) (gas : Z) : host * outc vm_output :=
  RunSmartContractCall (E := bigEnv f l) 12 (txS name 0 gas) (host0 (bigWorld l)).
(** append the gas left to the return data *)
Definition gas_mark (k : prog) : prog := PApi A_getGasLeft (fun g => api1 (A_int64finish g) k).
(** code, return data as numbers, gas remaining, refund *)
Definition gas_seen (r : host * outc vm_output) : option (return_code * list Z * Z * option Z) :=
  match snd r with OOk o => Some (o_code o, map be_decode (o_retdata o), o_gasrem o, o_refund o) | _ => None end.
(** the gas used by an account and the gas of the transfers to it *)
Definition gas_of (c : string) (r : host * outc vm_output) : option (Z * list (Z * Z)) :=
  match snd r with
  | OOk o => (fun x => (oa_gasused x, map (fun t => (ot_gaslimit t, ot_gaslocked t)) (oa_transfers x))) <$> o_accounts o !! addr c
  | _ => None
  end.
Lemma cHost_metered l : metered (cHost l).
Proof.
  split; [eexists _, _; split; reflexivity|]. split; [|vm_compute; split; discriminate].
  intros c x. cbn. rewrite lookup_singleton_Some. intros [_ <-]. cbn. lia.
Qed.
Lemma exEnv_frugal mods : @frugal_builtins (exEnv mods).
Proof. intros w i w' o a x t [= _ <-] H. cbn in H. rewrite lookup_empty in H. discriminate H. Qed.
