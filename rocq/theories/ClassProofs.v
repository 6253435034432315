(** The error class of transactions that fail for known reasons. *)
From Verif Require Import MathProofs VmModel WpProofs EffProofs EffFrameProofs EffWalkProofs EffTopProofs CallSpec KeepProofs CallProofs
  InvSpec KindProofs TxProofs OutSpec OutProofs GasProofs GasApiProofs GasAsyncProofs CodeSpec CodeProofs.
From Coq Require Import ZifyBool ZifyNat ZifyN.

Section cls.
Context `{E : env}.

(** the rest of a call transaction after the opening *)
Definition after_start n (v : vm_input) : M vm_output :=
  checkGasForGetCode v ;;;
  contract <- map_err GetSCCode (fun _ => ErrContractNotFound) ;;
  map_err (DeductInitialGasForExecution contract) (fun _ => ErrNotEnoughGas) ;;;
  g <- GetGasForExecution ;;
  map_err (StartWasmerInstance contract g false) (fun _ => ErrContractInvalid) ;;;
  callSCMethod (vmRun n) (vmDest n) ;;;
  o <- GetVMOutput ;;
  CleanWasmerInstance ;;;
  ret o.
Definition start_of (i : call_input) (h : host) : host :=
  start (call_frame i) (met0 (ci_vm i)) (ci_rcpt i) (vi_value (ci_vm i)) (init0 h).
Lemma tx_eq n i h : plain_call i -> RunSmartContractCall n i h = cleaning (orErrorOutput (after_start n (ci_vm i))) (start_of i h).
Proof.
  intros (Hf & Hc & _). unfold RunSmartContractCall, RunSmartContractCallIn.
  destruct (beq (ci_fn i) UpgradeFunctionName) eqn:Hb; [unfold beq in Hb; apply bool_decide_eq_true in Hb; contradiction|].
  rewrite doCall_eq. rewrite (cleaning_ext _ _ _ _ (opening_run _ _ _ (init0_rt _))).
  unfold unlockGasIfAsyncCallback. rewrite bool_decide_false by exact Hc. reflexivity.
Qed.
(** what the output is when the body fails *)
Lemma tx_error (m : M vm_output) h h1 e : m h = (h1, OErr e) ->
  exists h' o, cleaning (orErrorOutput m) h = (h', OOk o) /\ o_code o = resolveReturnCodeFromError e /\
    o_msg o = (if err_is e ErrSignalError then o_msg (h_out h1)
               else if 0 <? blen (o_msg (h_out h1)) then o_msg (h_out h1) else e_errmsg E e).
Proof.
  intros H. destruct (CreateErr_ok any_opts e h1) as (h2 & o & Ho).
  exists (clean h2), o. unfold cleaning, deferring, orErrorOutput, bind, try. rewrite H, Ho, clean_ok. split; [reflexivity|].
  unfold CreateVMOutputInCaseOfError in Ho. rewrite bind_gets in Ho. cbv zeta in Ho. unfold bind in Ho.
  destruct (UpdateGasStateOnFailure h1) as [h3 []]; try discriminate Ho. injection Ho as <- <-. split; reflexivity.
Qed.
Lemma map_err_fails {A} (m : M A) f h h1 e : m h = (h1, OErr e) -> map_err m f h = (h1, OErr (f e)).
Proof. intros H. unfold map_err, bind, try. rewrite H. reflexivity. Qed.
Lemma map_err_ok {A} (m : M A) f h h1 a : m h = (h1, OOk a) -> map_err m f h = (h1, OOk a).
Proof. intros H. unfold map_err, bind, try. rewrite H. reflexivity. Qed.

Lemma lift_ok {A B} (a : A) (k : A -> M B) h : bind (lift (ROk a)) k h = k a h.
Proof. reflexivity. Qed.
Section on.
Context (n : nat) (i : call_input) (h : host).
Hypothesis Hi : plain_call i.

Lemma init0_facts : h_world (init0 h) = h_world h /\ h_out (init0 h) = newVMOutput /\ h_cache (init0 h) = h_cache h /\ h_ist (init0 h) = h_ist h.
Proof. Transparent init0. repeat split. Opaque init0. Qed.
Definition acc0 : out_account := set_oa_delta (0 + vi_value (ci_vm i)) NewVMOutputAccount.
Lemma start_acc : accounts (start_of i h) !! ci_rcpt i = Some acc0.
Proof.
  unfold start_of, start, stoSet, addTx, set_accounts, accounts. cbn [h_out set_h_trace set_h_stoaddr set_h_out o_accounts set_o_accounts set_h_met set_h_rt].
  rewrite (proj1 (proj2 init0_facts)). cbn [o_accounts newVMOutput]. rewrite lookup_insert. reflexivity.
Qed.
Lemma start_world : h_world (start_of i h) = h_world h.
Proof. exact (proj1 init0_facts). Qed.
Lemma start_addr : r_addr (h_rt (start_of i h)) = ci_rcpt i.
Proof. reflexivity. Qed.
Lemma GetOutputAccount_start : GetOutputAccount (ci_rcpt i) (start_of i h) = (start_of i h, OOk (acc0, false)).
Proof. unfold GetOutputAccount. rewrite start_acc. reflexivity. Qed.
Lemma lookup_ok : lookup_cost <= vi_gas (ci_vm i) -> checkGasForGetCode (ci_vm i) (start_of i h) = (start_of i h, OOk tt).
Proof.
  unfold lookup_cost, checkGasForGetCode. intros H. destruct (e_v2 E); cbn [andb fail_if]; [|reflexivity].
  rewrite (proj2 (Z.ltb_ge _ _)) by lia. reflexivity.
Qed.
Lemma lookup_fails : vi_gas (ci_vm i) < lookup_cost -> checkGasForGetCode (ci_vm i) (start_of i h) = (start_of i h, OErr ErrNotEnoughGas).
Proof.
  destruct Hi as (_ & _ & Hg). unfold lookup_cost, checkGasForGetCode. intros H. destruct (e_v2 E); cbn [andb fail_if]; [|lia].
  rewrite (proj2 (Z.ltb_lt _ _)) by lia. reflexivity.
Qed.
Lemma code_missing : no_code_at (h_world h) (ci_rcpt i) -> exists e, GetSCCode (start_of i h) = (start_of i h, OErr e).
Proof.
  intros Hn. unfold GetSCCode. rewrite bind_gets, start_addr. unfold GetCode. rewrite bind_assoc.
  rewrite (bind_ok _ _ _ _ _ GetOutputAccount_start). cbn [negb andb oa_code acc0 set_oa_delta NewVMOutputAccount]. change (0 <? blen []) with false. cbn iota.
  rewrite bind_assoc, bind_gets, bind_assoc, start_world. unfold GetUserAccount.
  destruct (w_accounts (h_world h) !! ci_rcpt i) as [u|] eqn:Hu.
  - rewrite lift_ok. rewrite (Hn _ Hu). exists ErrContractNotFound. reflexivity.
  - destruct (e_missing_err E); eexists; reflexivity.
Qed.
(** the state once the code was found *)
Definition found (code : bytes) : host :=
  set_h_codesize (blen code) (set_accounts (alter (set_oa_code code) (ci_rcpt i) (accounts (start_of i h))) (start_of i h)).
Lemma code_found code : code_at (h_world h) (ci_rcpt i) code -> GetSCCode (start_of i h) = (found code, OOk code).
Proof.
  intros (Hc & u & Hu & Hcu). unfold GetSCCode. rewrite bind_gets, start_addr. unfold GetCode. rewrite bind_assoc.
  rewrite (bind_ok _ _ _ _ _ GetOutputAccount_start). cbn [negb andb oa_code acc0 set_oa_delta NewVMOutputAccount]. change (0 <? blen []) with false. cbn iota.
  rewrite bind_assoc, bind_gets, bind_assoc, start_world. unfold GetUserAccount. rewrite Hu. rewrite lift_ok, Hcu.
  destruct (blen code =? 0) eqn:Hb; [destruct code; [contradiction|unfold blen in Hb; cbn [length] in Hb; lia]|].
  unfold upd_account. rewrite bind_assoc, bind_modify, bind_ret, bind_modify. reflexivity.
Qed.

Definition ready (code : bytes) : host :=
  set_h_met (set_mt_initcost (start_cost code) (set_mt_forexec (vi_gas (ci_vm i) - start_cost code) (h_met (found code)))) (found code).
Lemma cost_sat code : env_ok E -> blen code <= max_i64 ->
  DeductInitialGasForExecution code (found code) =
  if vi_gas (ci_vm i) <? start_cost code then (found code, OErr ErrNotEnoughGas) else (ready code, OOk tt).
Proof.
  intros (He & _) Hl. destruct Hi as (_ & _ & Hg). assert (Hb : in_u64 (blen code)) by (unfold in_u64, blen, max_u64, max_i64 in *; lia).
  unfold DeductInitialGasForExecution, deductInitialGas, ready, start_cost. fold (blen code).
  assert (Hc : forall base c, in_u64 base -> in_u64 c -> AddUint64 base (MulUint64 (blen code) c) = Z.min (base + blen code * c) max_u64).
  { intros base c H1 H2. rewrite mul_u64_sat by assumption. assert (in_u64 (Z.min (blen code * c) max_u64)) by (unfold in_u64, max_u64 in *; nia).
    rewrite add_u64_sat by assumption. unfold in_u64, max_u64 in *. nia. }
  destruct (e_aot E); rewrite bind_gets; rewrite Hc by (first [apply He|unfold in_u64, max_u64; lia]); cbv zeta;
    change (vi_gas (r_input (h_rt (found code)))) with (vi_gas (ci_vm i)).
  - set (c := e_cost E GetCodeCost + _). destruct (Z.ltb_spec (vi_gas (ci_vm i)) c) as [Hx|Hx].
    + rewrite (proj2 (Z.ltb_lt _ _)) by (unfold in_u64, max_u64 in *; lia). reflexivity.
    + rewrite (Z.min_l c) by (unfold in_u64, max_u64 in *; lia). rewrite (proj2 (Z.ltb_ge _ _)) by lia. reflexivity.
  - rewrite Z.add_0_l. set (c := blen code * _). destruct (Z.ltb_spec (vi_gas (ci_vm i)) c) as [Hx|Hx].
    + rewrite (proj2 (Z.ltb_lt _ _)) by (unfold in_u64, max_u64 in *; lia). reflexivity.
    + rewrite (Z.min_l c) by (unfold in_u64, max_u64 in *; lia). rewrite (proj2 (Z.ltb_ge _ _)) by lia. reflexivity.
Qed.
Lemma found_gen code (h0 : host) (f : metering -> metering) :
  let h1 := set_h_codesize (blen code) (set_accounts (alter (set_oa_code code) (ci_rcpt i) (accounts h0)) h0) in
  let h2 := set_h_met (f (h_met h1)) h1 in
  h_world h2 = h_world h0 /\ h_cache h2 = h_cache h0 /\ h_ist h2 = h_ist h0 /\ h_rt h2 = h_rt h0.
Proof. repeat split. Qed.
Lemma ready_gen code : h_world (ready code) = h_world (start_of i h) /\ h_cache (ready code) = h_cache (start_of i h) /\
  h_ist (ready code) = h_ist (start_of i h) /\ h_rt (ready code) = h_rt (start_of i h).
Proof. exact (found_gen code (start_of i h) (fun mt => set_mt_initcost (start_cost code) (set_mt_forexec (vi_gas (ci_vm i) - start_cost code) mt))). Qed.
Lemma start_rt : h_rt (start_of i h) = call_frame i.
Proof. unfold start_of. reflexivity. Qed.
Lemma start_rest : h_cache (start_of i h) = h_cache h /\ h_ist (start_of i h) = h_ist h.
Proof. destruct init0_facts as (_ & _ & H1 & H2). rewrite <- H1, <- H2. split; reflexivity. Qed.
Lemma ready_world code : h_world (ready code) = h_world h.
Proof. rewrite (proj1 (ready_gen code)). exact start_world. Qed.
Lemma ready_cache code : h_cache (ready code) = h_cache h.
Proof. rewrite (proj1 (proj2 (ready_gen code))). exact (proj1 start_rest). Qed.
Lemma ready_ist code : h_ist (ready code) = h_ist h.
Proof. rewrite (proj1 (proj2 (proj2 (ready_gen code)))). exact (proj2 start_rest). Qed.
Lemma ready_rt code : h_rt (ready code) = call_frame i.
Proof. rewrite (proj2 (proj2 (proj2 (ready_gen code)))). exact start_rt. Qed.
Lemma ready_gas code : mt_forexec (h_met (ready code)) = vi_gas (ci_vm i) - start_cost code.
Proof. unfold ready. generalize (found code). reflexivity. Qed.
Opaque ready.
(** the code does not compile *)
Lemma start_invalid code g : code_at (h_world h) (ci_rcpt i) code -> e_compile E code = None -> cache_agrees h (ci_rcpt i) code ->
  exists h1 e, StartWasmerInstance code g false (ready code) = (h1, OErr e).
Proof.
  intros (_ & u & Hu & _) Hc Ha. unfold StartWasmerInstance. rewrite bind_gets. destruct (_ <=? _)%nat; [eexists _, _; reflexivity|].
  rewrite bind_gets. unfold GetCodeHash. rewrite ready_world. rewrite ready_rt. cbn [r_addr call_frame]. rewrite Hu.
  unfold makeInstanceFromCompiledCode, makeInstanceFromContractByteCode. rewrite Hc.
  destruct (negb (e_aot E)); [eexists _, _; reflexivity|]. destruct (_ || _); [eexists _, _; reflexivity|].
  rewrite bind_assoc, bind_gets, ready_cache. destruct (h_cache h !! ua_codehash u) as [c|] eqn:Hk; [|eexists _, _; reflexivity].
  rewrite (Ha _ _ Hu Hk), Hc. eexists _, _; reflexivity.
Qed.
(** the code runs *)
Lemma fresh_runs m g (hash code : bytes) h0 : exists h1, (new_instance m g;;;
     (let codeHash := if blen hash =? 0 then e_sha256 E code else hash in
      modify (fun h0 => set_h_cache (<[codeHash:=code]> (h_cache h0)) h0);;; ret tt)) h0 = (h1, OOk tt) /\
   h_rt h1 = h_rt h0 /\ h_out h1 = h_out h0 /\ h_met h1 = h_met h0 /\
   running_as h1 (h_next h0) (mkInst 0 g BreakpointNone (wm_mem m) m).
Proof.
  eexists. split; [unfold bind, new_instance, modify, ret; cbv beta iota zeta; reflexivity|].
  split; [reflexivity|]. split; [reflexivity|]. split; [reflexivity|]. split; [reflexivity|apply lookup_insert].
Qed.
Lemma cached_runs m g (k : M unit) h0 : exists h1, (used <- (new_instance m g ;;; modify (set_h_verify false) ;;; ret true) ;; if used : bool then ret tt else k) h0 = (h1, OOk tt) /\
   h_rt h1 = h_rt h0 /\ h_out h1 = h_out h0 /\ h_met h1 = h_met h0 /\
   running_as h1 (h_next h0) (mkInst 0 g BreakpointNone (wm_mem m) m).
Proof.
  eexists. split; [unfold bind, new_instance, modify, ret; cbv beta iota zeta; reflexivity|].
  split; [reflexivity|]. split; [reflexivity|]. split; [reflexivity|]. split; [reflexivity|apply lookup_insert].
Qed.
Record at_entry (code : bytes) (m : wmodule) (h1 : host) : Prop := mkEntry {
  ae_rt : h_rt h1 = call_frame i;
  ae_out : h_out h1 = h_out (ready code);
  ae_met : h_met h1 = h_met (ready code);
  ae_run : exists j, running_as h1 j (mkInst 0 (vi_gas (ci_vm i) - start_cost code) BreakpointNone (wm_mem m) m)
}.
Lemma start_runs code m : code_at (h_world h) (ci_rcpt i) code -> e_compile E code = Some m -> cache_agrees h (ci_rcpt i) code ->
  (length (h_ist h) < 10)%nat ->
  exists h1, StartWasmerInstance code (vi_gas (ci_vm i) - start_cost code) false (ready code) = (h1, OOk tt) /\ at_entry code m h1.
Proof.
  intros (_ & u & Hu & _) Hc Ha Hl. unfold StartWasmerInstance. rewrite bind_gets, ready_ist.
  destruct (Nat.leb_spec maxWasmerInstances (length (h_ist h))) as [Hx|_]; [unfold maxWasmerInstances in Hx; lia|].
  rewrite bind_gets. unfold GetCodeHash. rewrite ready_world. rewrite ready_rt. cbn [r_addr call_frame]. rewrite Hu.
  unfold makeInstanceFromCompiledCode, makeInstanceFromContractByteCode. rewrite Hc. set (g := vi_gas _ - _). cbn [orb].
  assert (Hnew : forall hash, exists h1, (new_instance m g;;;
     (let codeHash := if blen hash =? 0 then e_sha256 E code else hash in
      modify (fun h0 => set_h_cache (<[codeHash:=code]> (h_cache h0)) h0);;; ret tt)) (ready code) = (h1, OOk tt) /\ at_entry code m h1).
  { intros hash. destruct (fresh_runs m g hash code (ready code)) as (h1 & H1 & H2 & H3 & H4 & H5). exists h1. split; [exact H1|].
    constructor; [rewrite H2; exact (ready_rt code)|exact H3|exact H4|]. eexists. exact H5. }
  destruct (negb (e_aot E)); [rewrite bind_ret; apply Hnew|]. destruct (blen _ =? 0) eqn:Hb; [rewrite bind_ret; specialize (Hnew (ua_codehash u)); rewrite Hb in Hnew; exact Hnew|].
  rewrite bind_assoc, bind_gets, ready_cache. destruct (h_cache h !! ua_codehash u) as [c|] eqn:Hk; [|rewrite bind_ret; specialize (Hnew (ua_codehash u)); rewrite Hb in Hnew; exact Hnew].
  rewrite (Ha _ _ Hu Hk), Hc. lazymatch goal with |- context [if _ then ret tt else ?k] => destruct (cached_runs m g k (ready code)) as (h1 & H1 & H2 & H3 & H4 & H5) end.
  exists h1. split; [exact H1|]. constructor; [rewrite H2; exact (ready_rt code)|exact H3|exact H4|]. eexists. exact H5.
Qed.

(** everything up to the contract's function *)
Lemma reaches code m : env_ok E -> blen code <= max_i64 -> code_at (h_world h) (ci_rcpt i) code -> e_compile E code = Some m ->
  cache_agrees h (ci_rcpt i) code -> (length (h_ist h) < 10)%nat -> lookup_cost <= vi_gas (ci_vm i) -> start_cost code <= vi_gas (ci_vm i) ->
  exists h1, at_entry code m h1 /\
    RunSmartContractCall n i h =
    cleaning (orErrorOutput (callSCMethod (vmRun n) (vmDest n) ;;; o <- GetVMOutput ;; CleanWasmerInstance ;;; ret o)) h1.
Proof.
  intros He Hl Hc Hm Ha Hd Hg1 Hg2. destruct (start_runs code m Hc Hm Ha Hd) as (h1 & H1 & Hat). exists h1. split; [exact Hat|].
  rewrite tx_eq by exact Hi. apply cleaning_ext. unfold after_start.
  rewrite (bind_ok _ _ _ _ _ (lookup_ok Hg1)). rewrite (bind_ok _ _ _ _ _ (map_err_ok _ _ _ _ _ (code_found code Hc))).
  pose proof (cost_sat code He Hl) as Hs. rewrite (proj2 (Z.ltb_ge _ _) Hg2) in Hs.
  rewrite (bind_ok _ _ _ _ _ (map_err_ok _ _ _ _ _ Hs)). unfold GetGasForExecution. rewrite bind_gets.
  rewrite ready_gas.
  rewrite (bind_ok _ _ _ _ _ (map_err_ok _ _ _ _ _ H1)). reflexivity.
Qed.
Lemma ends_with (m : M vm_output) h1 h2 e c : RunSmartContractCall n i h = cleaning (orErrorOutput m) h1 -> m h1 = (h2, OErr e) ->
  resolveReturnCodeFromError e = c -> exists h' o, RunSmartContractCall n i h = (h', OOk o) /\ o_code o = c.
Proof. intros -> Hm <-. destruct (tx_error _ _ _ _ Hm) as (h' & o & H1 & H2 & _). exists h', o. auto. Qed.

Lemma class_out_of_gas : vi_gas (ci_vm i) < lookup_cost ->
  exists h' o, RunSmartContractCall n i h = (h', OOk o) /\ o_code o = RcOutOfGas.
Proof. intros H. eapply (ends_with _ _ _ ErrNotEnoughGas); [apply tx_eq, Hi| |reflexivity]. exact (bind_err _ _ _ _ _ (lookup_fails H)). Qed.
Lemma class_not_found : lookup_cost <= vi_gas (ci_vm i) -> no_code_at (h_world h) (ci_rcpt i) ->
  exists h' o, RunSmartContractCall n i h = (h', OOk o) /\ o_code o = RcContractNotFound.
Proof.
  intros H Hn. destruct (code_missing Hn) as (e & Hm). eapply (ends_with _ _ _ ErrContractNotFound); [apply tx_eq, Hi| |reflexivity]. unfold after_start.
  rewrite (bind_ok _ _ _ _ _ (lookup_ok H)). exact (bind_err _ _ _ _ _ (map_err_fails _ _ _ _ _ Hm)).
Qed.
Lemma class_start_gas code : env_ok E -> blen code <= max_i64 -> code_at (h_world h) (ci_rcpt i) code ->
  vi_gas (ci_vm i) < start_cost code -> exists h' o, RunSmartContractCall n i h = (h', OOk o) /\ o_code o = RcOutOfGas.
Proof.
  intros He Hl Hc Hg. destruct (Z.lt_ge_cases (vi_gas (ci_vm i)) lookup_cost) as [Hx|Hx]; [exact (class_out_of_gas Hx)|].
  eapply (ends_with _ _ _ ErrNotEnoughGas); [apply tx_eq, Hi| |reflexivity]. unfold after_start.
  rewrite (bind_ok _ _ _ _ _ (lookup_ok Hx)). rewrite (bind_ok _ _ _ _ _ (map_err_ok _ _ _ _ _ (code_found code Hc))).
  pose proof (cost_sat code He Hl) as Hs. rewrite (proj2 (Z.ltb_lt _ _) Hg) in Hs. exact (bind_err _ _ _ _ _ (map_err_fails _ _ _ _ _ Hs)).
Qed.
Lemma class_invalid code : env_ok E -> blen code <= max_i64 -> code_at (h_world h) (ci_rcpt i) code ->
  lookup_cost <= vi_gas (ci_vm i) -> start_cost code <= vi_gas (ci_vm i) -> e_compile E code = None -> cache_agrees h (ci_rcpt i) code ->
  exists h' o, RunSmartContractCall n i h = (h', OOk o) /\ o_code o = RcContractInvalid.
Proof.
  intros He Hl Hc Hg1 Hg2 Hm Ha. destruct (start_invalid code (vi_gas (ci_vm i) - start_cost code) Hc Hm Ha) as (h1 & e & H1).
  eapply (ends_with _ _ _ ErrContractInvalid); [apply tx_eq, Hi| |reflexivity]. unfold after_start.
  rewrite (bind_ok _ _ _ _ _ (lookup_ok Hg1)). rewrite (bind_ok _ _ _ _ _ (map_err_ok _ _ _ _ _ (code_found code Hc))).
  pose proof (cost_sat code He Hl) as Hs. rewrite (proj2 (Z.ltb_ge _ _) Hg2) in Hs.
  rewrite (bind_ok _ _ _ _ _ (map_err_ok _ _ _ _ _ Hs)). unfold GetGasForExecution. rewrite bind_gets.
  rewrite ready_gas.
  exact (bind_err _ _ _ _ _ (map_err_fails _ _ _ _ _ H1)).
Qed.

Definition rest : M vm_output := callSCMethod (vmRun n) (vmDest n) ;;; o <- GetVMOutput ;; CleanWasmerInstance ;;; ret o.
Lemma entry_func code m h1 : at_entry code m h1 -> at_function i code m h1.
Proof. intros [H1 _ _ (j & Hr & Hi')]. constructor; try (rewrite H1; reflexivity). exists j. auto. Qed.
Lemma forbidden h1 : r_fn (h_rt h1) = ci_fn i -> r_input (h_rt h1) = ci_vm i ->
  isInitName (ci_fn i) = true \/ ci_fn i = CallbackFunctionName ->
  exists e, verifyAllowedFunctionCall h1 = (h1, OErr e) /\ resolveReturnCodeFromError e = RcUserError.
Proof.
  intros H1 H2 H. destruct Hi as (_ & Hc & _). unfold verifyAllowedFunctionCall. rewrite bind_gets, H1, H2.
  destruct (isInitName (ci_fn i)) eqn:Hin; cbn [fail_if]; [eexists; split; reflexivity|].
  destruct H as [H|H]; [discriminate|]. unfold beq. rewrite bool_decide_eq_true_2 by exact H. rewrite bool_decide_eq_false_2 by exact Hc.
  eexists. split; reflexivity.
Qed.
Lemma allowed h1 : r_fn (h_rt h1) = ci_fn i -> r_input (h_rt h1) = ci_vm i ->
  isInitName (ci_fn i) = false -> ci_fn i <> CallbackFunctionName -> verifyAllowedFunctionCall h1 = (h1, OOk tt).
Proof.
  intros H1 H2 H H'. unfold verifyAllowedFunctionCall. rewrite bind_gets, H1, H2, H. unfold beq. rewrite (bool_decide_eq_false_2 (ci_fn i = _)) by exact H'.
  reflexivity.
Qed.
Lemma class_forbidden code m : env_ok E -> blen code <= max_i64 -> code_at (h_world h) (ci_rcpt i) code -> e_compile E code = Some m ->
  cache_agrees h (ci_rcpt i) code -> (length (h_ist h) < 10)%nat -> lookup_cost <= vi_gas (ci_vm i) -> start_cost code <= vi_gas (ci_vm i) ->
  isInitName (ci_fn i) = true \/ ci_fn i = CallbackFunctionName ->
  exists h' o, RunSmartContractCall n i h = (h', OOk o) /\ o_code o = RcUserError.
Proof.
  intros He Hl Hc Hm Ha Hd Hg1 Hg2 Hf. destruct (reaches code m He Hl Hc Hm Ha Hd Hg1 Hg2) as (h1 & Hat & Hr).
  apply entry_func in Hat. destruct (forbidden h1 (af_fn _ _ _ _ Hat) (af_input _ _ _ _ Hat) Hf) as (e & Hv & Hcl).
  eapply ends_with; [exact Hr| |exact Hcl]. apply bind_err. unfold callSCMethod. exact (bind_err _ _ _ _ _ Hv).
Qed.
Lemma try_ok {A} (x : M A) h1 h2 a : x h1 = (h2, OOk a) -> try x h1 = (h2, OOk (inl a)).
Proof. intros H. unfold try. rewrite H. reflexivity. Qed.
Lemma try_err {A} (x : M A) h1 h2 e : x h1 = (h2, OErr e) -> try x h1 = (h2, OOk (inr e)).
Proof. intros H. unfold try. rewrite H. reflexivity. Qed.
Lemma getf code m h1 : at_function i code m h1 -> ci_fn i <> CallbackFunctionName ->
  getFunctionByCallType (vi_ctype (ci_vm i)) h1 =
  (h1, match export m (ci_fn i) with Some p => OOk (Some p) | None => OErr ErrFuncNotFound end).
Proof.
  intros [H1 _ _ (j & Hj & Hx)] Hn. unfold getFunctionByCallType. destruct Hi as (_ & Hc & _). rewrite bool_decide_eq_false_2 by exact Hc. cbn [negb].
  unfold GetFunctionToCall. rewrite bind_assoc. rewrite (bind_ok _ _ _ _ _ (cur_inst_run _ _ _ (conj Hj Hx))). cbn beta iota.
  rewrite bind_assoc, bind_gets, H1. cbn [in_mod]. destruct (export m (ci_fn i)) as [p|]; [reflexivity|].
  unfold beq. rewrite bool_decide_eq_false_2 by exact Hn. reflexivity.
Qed.
Lemma class_no_function code m : env_ok E -> blen code <= max_i64 -> code_at (h_world h) (ci_rcpt i) code -> e_compile E code = Some m ->
  cache_agrees h (ci_rcpt i) code -> (length (h_ist h) < 10)%nat -> lookup_cost <= vi_gas (ci_vm i) -> start_cost code <= vi_gas (ci_vm i) ->
  isInitName (ci_fn i) = false -> ci_fn i <> CallbackFunctionName -> export m (ci_fn i) = None ->
  exists h' o, RunSmartContractCall n i h = (h', OOk o) /\ o_code o = RcFunctionNotFound.
Proof.
  intros He Hl Hc Hm Ha Hd Hg1 Hg2 Hf1 Hf2 Hx. destruct (reaches code m He Hl Hc Hm Ha Hd Hg1 Hg2) as (h1 & Hat & Hr).
  apply entry_func in Hat. pose proof (allowed h1 (af_fn _ _ _ _ Hat) (af_input _ _ _ _ Hat) Hf1 Hf2) as Hv.
  pose proof (getf code m h1 Hat Hf2) as Hg. rewrite Hx in Hg.
  eapply (ends_with _ _ _ ErrFuncNotFound); [exact Hr| |reflexivity]. apply bind_err. unfold callSCMethod. rewrite (bind_ok _ _ _ _ _ Hv).
  rewrite bind_gets, (af_input _ _ _ _ Hat). rewrite (bind_ok _ _ _ _ _ (try_err _ _ _ _ Hg)).
  destruct Hi as (_ & Hcb & _). rewrite bool_decide_eq_false_2 by exact Hcb. reflexivity.
Qed.
(** the function stops *)
Definition stop_class (bp : Z) : option return_code :=
  if bp =? BreakpointNone then Some RcExecutionFailed else if bp =? BreakpointAsyncCall then None
  else if bp =? BreakpointExecutionFailed then Some RcExecutionFailed else if bp =? BreakpointSignalError then Some RcUserError
  else if bp =? BreakpointOutOfGas then Some RcOutOfGas else None.
Lemma class_stops code m p : env_ok E -> blen code <= max_i64 -> code_at (h_world h) (ci_rcpt i) code -> e_compile E code = Some m ->
  cache_agrees h (ci_rcpt i) code -> (length (h_ist h) < 10)%nat -> lookup_cost <= vi_gas (ci_vm i) -> start_cost code <= vi_gas (ci_vm i) ->
  isInitName (ci_fn i) = false -> ci_fn i <> CallbackFunctionName -> export m (ci_fn i) = Some p ->
  exists h1, at_function i code m h1 /\ forall h2 bp c, vmRun n p h1 = (h2, OOk false) -> stopped_by h2 bp -> stop_class bp = Some c ->
  exists h' o, RunSmartContractCall n i h = (h', OOk o) /\ o_code o = c.
Proof.
  intros He Hl Hc Hm Ha Hd Hg1 Hg2 Hf1 Hf2 Hx. destruct (reaches code m He Hl Hc Hm Ha Hd Hg1 Hg2) as (h1 & Hat & Hr).
  apply entry_func in Hat. exists h1. split; [exact Hat|]. intros h2 bp c Hrun (j & x & Hj & Hix & Hbp) Hcl.
  pose proof (allowed h1 (af_fn _ _ _ _ Hat) (af_input _ _ _ _ Hat) Hf1 Hf2) as Hv.
  pose proof (getf code m h1 Hat Hf2) as Hg. rewrite Hx in Hg.
  assert (Hb : exists e, handleBreakpoint (vmDest n) h2 = (h2, OErr e) /\ resolveReturnCodeFromError e = c).
  { unfold handleBreakpoint. rewrite (bind_ok _ _ _ _ _ (GetBreak_run _ _ _ (conj Hj Hix))). rewrite Hbp. unfold stop_class in Hcl.
    destruct (bp =? BreakpointNone); [injection Hcl as <-; eexists; split; reflexivity|].
    destruct (bp =? BreakpointAsyncCall); [discriminate|].
    destruct (bp =? BreakpointExecutionFailed); [injection Hcl as <-; eexists; split; reflexivity|].
    destruct (bp =? BreakpointSignalError); [injection Hcl as <-; eexists; split; reflexivity|].
    destruct (bp =? BreakpointOutOfGas); [injection Hcl as <-; eexists; split; reflexivity|discriminate]. }
  destruct Hb as (e & Hb & Hce).
  eapply ends_with; [exact Hr| |exact Hce]. apply bind_err. unfold callSCMethod. rewrite (bind_ok _ _ _ _ _ Hv).
  rewrite bind_gets, (af_input _ _ _ _ Hat). rewrite (bind_ok _ _ _ _ _ (try_ok _ _ _ _ Hg)). unfold callFunction.
  apply bind_err. rewrite (bind_ok _ _ _ _ _ Hrun). exact Hb.
Qed.
End on.

Notation returns n i h c := (exists h' o, RunSmartContractCall n i h = (h', OOk o) /\ o_code o = c).
Lemma init_name f : f <> InitFunctionName -> f <> InitFunctionNameEth -> isInitName f = false.
Proof. intros H1 H2. unfold isInitName, beq. rewrite (bool_decide_eq_false_2 (f = InitFunctionName)), (bool_decide_eq_false_2 (f = InitFunctionNameEth)) by assumption. reflexivity. Qed.
Lemma no_gas n i h : env_ok E -> plain_call i ->
  vi_gas (ci_vm i) < lookup_cost \/ (exists code, code_at (h_world h) (ci_rcpt i) code /\ Z.of_nat (length code) <= max_i64 /\ vi_gas (ci_vm i) < start_cost code) ->
  returns n i h RcOutOfGas.
Proof. intros He Hi [H|(code & H1 & H2 & H3)]; [exact (class_out_of_gas n i h Hi H)|exact (class_start_gas n i h Hi code He H2 H1 H3)]. Qed.
Lemma no_code n i h : plain_call i -> lookup_cost <= vi_gas (ci_vm i) -> no_code_at (h_world h) (ci_rcpt i) -> returns n i h RcContractNotFound.
Proof. exact (fun Hi => class_not_found n i h Hi). Qed.
Lemma no_module n i h code : env_ok E -> startable i h code None -> returns n i h RcContractInvalid.
Proof. intros He []. apply (class_invalid n i h st_plain code); assumption. Qed.
Lemma ist0 (h : host) : h_ist h = [] -> (length (h_ist h) < 10)%nat.
Proof. intros ->. cbn. lia. Qed.
Lemma no_entry n i h code m : env_ok E -> startable i h code (Some m) -> forbidden_name (ci_fn i) -> returns n i h RcUserError.
Proof.
  intros He [] Hf. apply (class_forbidden n i h st_plain code m); try assumption; [exact (ist0 _ st_depth)|]. unfold isInitName, beq.
  destruct Hf as [Hf|[Hf|Hf]]; [left|left|right; exact Hf]; rewrite Hf; reflexivity.
Qed.
Lemma no_function n i h code m : env_ok E -> startable i h code (Some m) -> ~ forbidden_name (ci_fn i) -> export m (ci_fn i) = None ->
  returns n i h RcFunctionNotFound.
Proof.
  intros He [] Hf Hx. unfold forbidden_name in Hf. apply (class_no_function n i h st_plain code m); try assumption; [exact (ist0 _ st_depth)| |tauto].
  apply init_name; tauto.
Qed.
Lemma stops n i h code m p : env_ok E -> startable i h code (Some m) -> ~ forbidden_name (ci_fn i) -> export m (ci_fn i) = Some p ->
  exists h1, at_function i code m h1 /\ forall h2 bp c, vmRun n p h1 = (h2, OOk false) -> stopped_by h2 bp -> stop_code bp c -> returns n i h c.
Proof.
  intros He [] Hf Hx. unfold forbidden_name in Hf. assert (Hf1 : ci_fn i <> InitFunctionName) by tauto. assert (Hf2 : ci_fn i <> InitFunctionNameEth) by tauto.
  assert (Hf3 : ci_fn i <> CallbackFunctionName) by tauto.
  destruct (class_stops n i h st_plain code m p He st_size st_code st_compiles st_cache (ist0 _ st_depth) st_lookup st_start (init_name _ Hf1 Hf2) Hf3 Hx) as (h1 & H1 & H2).
  exists h1. split; [exact H1|]. intros h2 bp c Hr Hs Hc. apply (H2 _ _ _ Hr Hs).
  destruct Hc as [[[->| ->] ->]|[[-> ->]|[-> ->]]]; reflexivity.
Qed.
Lemma error_only o : error_output o -> only_an_error o /\ error_class (o_code o).
Proof.
  intros (e & msg & ->). split; [split; reflexivity|]. cbn [o_code]. unfold error_class, resolveReturnCodeFromError.
  repeat (destruct (err_is e _); [tauto|]). tauto.
Qed.
Lemma bad_call n i h h' o : honest_builtins -> host_ok h -> RunSmartContractCall n i h = (h', OOk o) -> o_code o <> RcOk ->
  only_an_error o /\ error_class (o_code o).
Proof. intros Hb Hh Hr Hc. destruct (call_good _ _ _ _ _ Hb Hh Hr) as [H|H]; [contradiction|exact (error_only _ H)]. Qed.
Lemma bad_create n i h h' o : honest_builtins -> host_ok h -> RunSmartContractCreate n i h = (h', OOk o) -> o_code o <> RcOk ->
  only_an_error o /\ error_class (o_code o).
Proof. intros Hb Hh Hr Hc. destruct (create_good _ _ _ _ _ Hb Hh Hr) as [H|H]; [contradiction|exact (error_only _ H)]. Qed.
End cls.
