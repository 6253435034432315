(** C95: what a contract is charged is paid. *)
From Verif Require Import VmModel CallSpec GasSpec ChargeSpec ExCharge ChargeProofs.

(** After any charges the gas left is what was left before, without the sum of
    the charges.  Proved when the gas for the execution is below 2^63; for more
    gas it is false, see C95_free_refuted. *)
Theorem C95_charged_partial : forall gs h,
  in_frame h -> 0 <= spent h <= max_i64 -> budget h <= max_i64 -> Forall (fun g => 0 <= g <= max_u64) gs ->
  exists h', charge_all gs h = (h', OOk tt) /\ budget h' = budget h /\
    gas_left h' = Z.max 0 (budget h - spent h - sum_charged gs).
Proof. exact c95_charged. Qed.
Print Assumptions C95_charged_partial.

(** Gas that is charged and of which a part is given back.  Proved when the
    counter stays below 2^63; otherwise false, see C95_earlier_refuted. *)
Theorem C95_returned_partial : forall g r h,
  in_frame h -> 0 <= spent h -> spent h + g <= max_i64 -> 0 <= r <= g ->
  exists h1 h2, UseGas g h = (h1, OOk tt) /\ RestoreGas r h1 = (h2, OOk tt) /\
    gas_left h1 = Z.max 0 (budget h - spent h - g) /\ gas_left h2 = Z.max 0 (budget h - spent h - g + r).
Proof. exact c95_returned. Qed.
Print Assumptions C95_returned_partial.

(** Once the counter is at 2^63 - 1, no charge has any effect, however much gas
    is left and however often it is charged. *)
Theorem C95_full : forall gs h,
  in_frame h -> spent h = max_i64 -> Forall (fun g => 0 <= g <= max_u64) gs -> charge_all gs h = (h, OOk tt).
Proof. exact c95_full. Qed.
Print Assumptions C95_full.

(** a running contract with gas 100000; the charges of which the last is more
    than what is left; gas that comes back; a counter at its end with gas left *)
Example C95_ex :
  let h := cHost ex_charge in
  (in_frame h /\ spent h = 0 /\ budget h = 100000) /\
  gas_left (fst (charge_all [10; 20] h)) = 99970 /\ gas_left (fst (charge_all [10; 200000; 5] h)) = 0 /\
  gas_left (fst (RestoreGas 5 (fst (UseGas 10 h)))) = 99995 /\
  let full := set_h_met (mkMet (max_i64 + 1000) 0 (max_i64 + 1000) ∅) (fst (UseGas max_i64 h)) in
  spent full = max_i64 /\ gas_left full = 1000 /\ gas_left (fst (charge_all [999; 999; 999] full)) = 1000.
Proof.
  split_and!; [do 2 eexists; split; reflexivity|reflexivity|reflexivity|vm_compute; reflexivity..|].
  vm_compute. tauto.
Qed.

(** With 2^63 + 50000 gas, a contract that has worked for 2^63 - 1 points gets
    three results for nothing; with 50000 gas, without the work, it pays 9 for
    them. *)
Theorem C95_free_refuted : exists (E : env) h f g i j,
  env_ok E /\ no_stacks h /\
  let run x := RunSmartContractCall 12 x h in
  vi_gas (ci_vm f) = vi_gas (ci_vm g) /\
  bill (run f) = Some (RcOk, [], 49969) /\
  bill (run g) = Some (RcOk, [str "a"; str "b"; str "c"], 49969) /\
  bill (run i) = Some (RcOk, [], 49968) /\
  bill (run j) = Some (RcOk, [str "a"; str "b"; str "c"], 49959).
Proof.
  exists (cEnv ex_charge), (host0 (cWorld ex_charge)),
    (txS "f" 0 (2 ^ 63 + 50000)), (txS "g" 0 (2 ^ 63 + 50000)), (txS "h" 0 50000), (txS "i" 0 50000).
  split; [apply exEnv_ok|]. split; [constructor; reflexivity|]. split; [reflexivity|]. vm_compute. tauto.
Qed.
Print Assumptions C95_free_refuted.

(** A contract that hands 2^63 - 1 gas to a call pays nothing for the work it
    has done before: the counter is full while the call runs, and what comes back
    is taken off the full counter.  With 50000 gas the work costs 5000. *)
Theorem C95_earlier_refuted : exists (E : env) h f g i j,
  env_ok E /\ no_stacks h /\
  let run x := RunSmartContractCall 12 x h in
  (exists gas, 0 < gas /\ vi_gas (ci_vm f) = vi_gas (ci_vm g) /\
     bill (run f) = Some (RcOk, [], gas) /\ bill (run g) = Some (RcOk, [], gas)) /\
  bill (run i) = Some (RcOk, [], 49935) /\ bill (run j) = Some (RcOk, [], 44935) /\
  ci_fn f = ci_fn i /\ ci_fn g = ci_fn j.
Proof.
  exists (cEnv ex_charge), (host0 (cWorld ex_charge)),
    (txS "c" 0 (2 ^ 63 + 50000)), (txS "d" 0 (2 ^ 63 + 50000)), (txS "c" 0 50000), (txS "d" 0 50000).
  split; [apply exEnv_ok|]. split; [constructor; reflexivity|]. cbv zeta.
  split; [exists (2 ^ 63 + 49936); split; [reflexivity|]; split; [reflexivity|]; vm_compute; tauto|].
  vm_compute. tauto.
Qed.
Print Assumptions C95_earlier_refuted.
