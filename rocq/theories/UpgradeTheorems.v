(** C94: upgrades asked for by contracts. *)
From Verif Require Import VmModel GasSpec UpgradeSpec UpgradeProofs ExUpgrade.

(** ** C94: once its price is paid ([h1]), an upgrade is asked for exactly if there is
    gas left for the step of an asynchronous call and for its callback; the contract
    is then stopped and the call made has the code, the metadata, the arguments and
    the value given.  Otherwise nothing happens but the payment, and the contract,
    which gets the same 0, goes on.  Missing: that it is told (C94_silent_refuted), and
    the gas (C94_gas_refuted). *)
Theorem C94_told_partial : forall `{E : env} fuel ao g vo co mo l n lo d dest data v h m,
  env_ok E -> cur_mem h = ROk m -> blen (m_data m) <= max_i32 ->
  asks h (m_data m) (A_upgradeContract ao g vo co mo l n lo d) (RAsync dest data v) ->
  exists h1 h', only_gas h h1 /\
  (metered h1 -> in_u64 (h_codesize h1) ->
   vmApi fuel (A_upgradeContract ao g vo co mo l n lo d) h = (h', OOk 0) /\
   exists lock, put_aside h1 lock /\
   if left_of h1 <=? e_cost E CAsyncCallStep + lock
   then only_gas h h'
   else stopped_for_call h' /\ r_async (h_rt h') = Some (mkAsync dest data (left_of h1 - e_cost E CAsyncCallStep - lock) lock v)).
Proof. intros E. exact upgrade_told. Qed.
Print Assumptions C94_told_partial.
Example C94_told_ex :
  cur_mem (up_host 1000) = ROk (mkMem up_bytes 1) /\
  asks (E := cEnv ex_up) (up_host 1000) up_bytes up_call (RAsync (addr "t") up_data (val32 0)) /\
  (forall g, 0 <= g <= max_i64 -> metered (up_host g)) /\
  option_map ac_data (r_async (h_rt (fst (vmApi (E := cEnv ex_up) 5 up_call (up_host 1000))))) = Some up_data /\
  option_map ac_data (r_async (h_rt (fst (vmApi (E := cEnv ex_up) 5 up_call (up_host 35))))) = None /\
  snd (vmApi (E := cEnv ex_up) 5 up_call (up_host 1000)) = OOk 0 /\ snd (vmApi (E := cEnv ex_up) 5 up_call (up_host 35)) = OOk 0.
Proof.
  split; [reflexivity|]. split.
  { exists (addr "t"), (val32 0), (addr "n"), [Byte.x01; Byte.x00], [].
    do 4 (split; [right; repeat split; vm_compute; intuition discriminate|]).
    split; [|split; [vm_compute; discriminate|reflexivity]].
    split; [vm_compute; discriminate|]. split; [|reflexivity].
    split; [vm_compute; discriminate|]. split; [left; reflexivity|]. vm_compute. intuition discriminate. }
  split.
  { intros g Hg. split; [eexists _, _; split; reflexivity|]. split; [|split; [exact (proj2 Hg)|vm_compute; discriminate]].
    intros c x. cbn. rewrite lookup_singleton_Some. intros [_ <-]. cbn. lia. }
  vm_compute. tauto.
Qed.

(** ** Refuted: being told.  With 80 units of gas contract "o" asks for the upgrade of
    its contract "t", goes on and ends well; "t" has its old code.  With more gas it is
    upgraded. *)
Theorem C94_silent_refuted : exists (E : env) i h, env_ok E /\
  code_after (addr "t") (RunSmartContractCall 12 (i 80) h) = Some (RcOk, [str "on"], []) /\
  match code_after (addr "t") (RunSmartContractCall 12 (i 1000) h) with Some (c, _, code) => c = RcOk /\ code = addr "n" | None => False end.
Proof.
  exists (cEnv ex_up), (fun g => call_of (addr "u") (addr "o") "up" [] 0 g), (host0 (cWorld ex_up)).
  split; [apply exEnv_ok|]. vm_compute. repeat split; reflexivity.
Qed.
Print Assumptions C94_silent_refuted.

(** ** Refuted: the gas.  "o" gives the upgrade 100 units of gas; the constructor of
    the new code finds nearly all that the transaction has. *)
Theorem C94_gas_refuted : exists (E : env) i h, env_ok E /\
  match gas_seen (RunSmartContractCall 12 i h) with Some (c, [g], _, _) => c = RcOk /\ 99000 < g | _ => False end.
Proof.
  exists (cEnv ex_up), (call_of (addr "u") (addr "o") "few" [] 0 100000), (host0 (cWorld ex_up)).
  split; [apply exEnv_ok|]. vm_compute. split; reflexivity.
Qed.
Print Assumptions C94_gas_refuted.
