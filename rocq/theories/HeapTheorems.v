(** C83: wasm instances are freed when, and only when, nobody uses them. *)
From Verif Require Import VmModel CallSpec FreshSpec HeapSpec CallProofs FreshProofs HeapProofs HeapStartProofs ExCalls ExFresh CallTheorems.

(** At every point of an execution the instances not yet freed are exactly the
    running one and the suspended ones: an API function, a contract's whole run
    and a nested call keep it so, however they end. *)
Theorem C83_accounted : forall `{E : env} n h, h_stoprot h = true -> accounted h ->
  (forall c h' r, vmApi n c h = (h', r) -> r <> OFuel -> accounted h') /\
  (forall p h' r, vmRun n p h = (h', r) -> r <> OFuel -> accounted h') /\
  (forall i h' r, vmDest n i h = (h', r) -> r <> OFuel -> accounted h') /\
  (forall i h' r, vmSame n i h = (h', r) -> r <> OFuel -> accounted h').
Proof.
  intros E n h S A. split_and!; intros.
  - eapply heap_api; eassumption.
  - eapply heap_run; eassumption.
  - eapply heap_dest; eassumption.
  - eapply heap_same; eassumption.
Qed.
Print Assumptions C83_accounted.

(** So whoever calls finds the instances it had, and no other, whatever the
    callee did: success, error or panic. *)
Theorem C83_nothing_left : forall `{E : env} n h, h_stoprot h = true -> accounted h ->
  (forall c h' r, vmApi n c h = (h', r) -> r <> OFuel -> same_instances h h') /\
  (forall i h' r, vmDest n i h = (h', r) -> r <> OFuel -> same_instances h h') /\
  (forall i h' r, vmSame n i h = (h', r) -> r <> OFuel -> same_instances h h').
Proof.
  intros E n h S A.
  assert (K : host_ok h) by (split; [exact S|]; intros j Hj; apply A, A; left; exact Hj).
  split_and!; intros x h' r H Hr.
  - destruct (api_all n x h h' r K H Hr) as (F & _). eapply accounted_instances; [exact A|eapply heap_api; eassumption|apply F..].
  - destruct (dest_all n x h h' r K H Hr) as (F & _). eapply accounted_instances; [exact A|eapply heap_dest; eassumption|apply F..].
  - destruct (same_all n x h h' r K H Hr) as (F & _). eapply accounted_instances; [exact A|eapply heap_same; eassumption|apply F..].
Qed.
Print Assumptions C83_nothing_left.

(** Code only ever starts on an instance that is there and that no suspended
    code uses, with everything accounted for. *)
Theorem C83_own_instance : forall `{E : env} rd h, h_stoprot h = true ->
  (accounted h ->
   (forall i, starts_only_in (fun hs => accounted hs /\ own_instance hs) (fun run => ExecuteOnDestContext run rd i) h) /\
   (forall i, starts_only_in (fun hs => accounted hs /\ own_instance hs) (fun run => ExecuteOnSameContext run rd i) h)) /\
  (no_stacks h -> h_insts h = ∅ ->
   (forall i, starts_only_in (fun hs => accounted hs /\ own_instance hs) (fun run => RunSmartContractCallIn run rd i) h) /\
   (forall i, starts_only_in (fun hs => accounted hs /\ own_instance hs) (fun run => doRunSmartContractCreate run rd i) h)).
Proof.
  intros E rd h S. split; [intros A|intros N I]; split; intros i.
  - exact (own_dest rd i h A S).
  - exact (own_same rd i h A S).
  - exact (own_call rd i h N I S).
  - exact (own_create rd i h N I S).
Qed.
Print Assumptions C83_own_instance.

(** After a transaction, also one that panicked, every instance has been freed;
    and so after any number of transactions. *)
Theorem C83_transaction : forall `{E : env} n h h' r, h_stoprot h = true -> no_stacks h -> h_insts h = ∅ -> r <> OFuel ->
  (exists i, RunSmartContractCall n i h = (h', r)) \/ (exists i, RunSmartContractCreate n i h = (h', r)) ->
  h_insts h' = ∅.
Proof.
  intros E n h h' r S N I Hr [[i H]|[i H]]; [exact (heap_call n i h h' r S N I H Hr)|exact (heap_create n i h h' r S N I H Hr)].
Qed.
Print Assumptions C83_transaction.

Theorem C83_history : forall `{E : env} h, history h -> h_insts h = ∅.
Proof. exact @heap_history. Qed.
Print Assumptions C83_history.

(** a running contract makes a call that works, one that fails and one that
    panics: instances have been created (numbers given out), and freed *)
Example C83_ex :
  let run f := cRun ex_t (call_dest 1000 "t" 3 f PRet) in
  let live h := (h_next h, length (map_to_list (h_insts h))) in
  accounted (cHost ex_t) /\ h_stoprot (cHost ex_t) = true /\ live (cHost ex_t) = (1, 1)%nat /\
  snd (run "work"%string) = OOk true /\ live (fst (run "work"%string)) = (2, 1)%nat /\
  snd (run "fail"%string) = OOk false /\ live (fst (run "fail"%string)) = (2, 1)%nat /\
  snd (run "panic"%string) = OPanic /\ live (fst (run "panic"%string)) = (2, 1)%nat.
Proof.
  cbv zeta. split; [|vm_compute; tauto].
  constructor; unfold refers.
  - intros j [Hj|Hj]; vm_compute in Hj; [injection Hj as <-; vm_compute; eauto|destruct Hj].
  - intros j [x Hx]. left. destruct j; [reflexivity|]. exfalso. unfold cHost in Hx. cbn [h_insts set_h_insts set_h_met] in Hx. rewrite lookup_singleton_ne in Hx by lia. discriminate.
  - intros j [x Hx]. destruct j; [vm_compute; lia|]. exfalso. unfold cHost in Hx. cbn [h_insts set_h_insts set_h_met] in Hx. rewrite lookup_singleton_ne in Hx by lia. discriminate.
Qed.
(** three transactions, the first of which panics in a nested call: instances
    were created and none is left *)
Example C83_history_ex : history (E := fEnv) host_panic /\ h_next host_panic = 4%nat /\
  snd (RunSmartContractCall (E := fEnv) 12 (fCall "s" "g") (host0 fWorld)) <> OFuel /\ no_stacks (host0 fWorld) /\
  h_insts (host0 fWorld) = ∅ /\ h_stoprot (host0 fWorld) = true.
Proof.
  split; [exact history_panic|]. split; [vm_compute; reflexivity|]. split; [vm_compute; discriminate|].
  split; [constructor; reflexivity|]. split; reflexivity.
Qed.
