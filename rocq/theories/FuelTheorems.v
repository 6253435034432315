(** The recursion fuel of the model: with ten units it is never used up and more
    of it changes nothing, so it stands for no limit of its own (part of C29). *)
From Verif Require Import VmModel CallSpec FuelProofs ExCalls.

(** A contract "s" that calls itself without end. *)
Definition ex_deep : list (string * list (string * prog)) :=
  [("s", [("go", call_dest 90000 "s" 0 "go" (finish_with "x" PRet))])]%string.

(** However contracts call each other, every transaction and every API call ends
    with a value, an error or a panic, never for want of fuel: the host's own
    limit on nested instances stops the recursion first. *)
Theorem C29_fuel : forall `{E : env} n, (10 <= n)%nat ->
  (forall i h, snd (RunSmartContractCall n i h) <> OFuel) /\
  (forall i h, snd (RunSmartContractCreate n i h) <> OFuel) /\
  (forall c h, snd (vmApi n c h) <> OFuel) /\
  (forall p h, snd (vmRun n p h) <> OFuel).
Proof.
  intros E n Hn. split; [intros; apply fuel_call, Hn|]. split; [intros; apply fuel_create, Hn|].
  split; [intros; apply fuel_api, Hn|intros; apply fuel_run, Hn].
Qed.
Print Assumptions C29_fuel.

(** ... and it does not depend on how much fuel there is. *)
Theorem C29_fuel_irrelevant : forall `{E : env} n m, (10 <= n)%nat -> (10 <= m)%nat ->
  (forall i h, RunSmartContractCall n i h = RunSmartContractCall m i h) /\
  (forall i h, RunSmartContractCreate n i h = RunSmartContractCreate m i h) /\
  (forall c h, vmApi n c h = vmApi m c h) /\
  (forall p h, vmRun n p h = vmRun m p h).
Proof.
  intros E n m Hn Hm. split; [intros; apply same_call; assumption|]. split; [intros; apply same_create; assumption|].
  split; [intros; apply same_api; assumption|intros; apply same_run; assumption].
Qed.
Print Assumptions C29_fuel_irrelevant.

(** the endless recursion: nine units of fuel are not enough, with ten it
    fails with an error *)
Example C29_fuel_ex :
  let go n := snd (RunSmartContractCall (E := cEnv ex_deep) n (txS "go" 0 100000) (host0 (cWorld ex_deep))) in
  go 9%nat = OFuel /\ match go 10%nat with OOk o => o_code o = RcExecutionFailed | _ => False end.
Proof. vm_compute. tauto. Qed.
