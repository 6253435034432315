(** The property theorems about the transactions of a scenario and about the
    snapshots of its world. *)
From Verif Require Import Base ScenModel WorldModel WorldSpec WorldProofs ExWorld.
From stdpp Require Import gmap.
Local Open Scope Z_scope.

(** C71: a transaction that fails, with a status other than 0, leaves nothing
    behind but the payment of the gas and the nonce of the sender, provided
    that the machine never reverts to the snapshot with which the transaction
    began, and that its builtin functions write only storage. *)
Theorem C71_failed_partial :
  forall (W : wenv) ident tx w w' o, visits_each_once W ->
  vm_always storage_only W -> vm_always keeps_first W -> mw_snaps w = [] ->
  executeTx ident tx w = (w', SOk o) -> o_code o <> RcOk -> only_charged tx w w'.
Proof. intros W ident tx w w' o HO. exact (failed_charged W HO ident tx w w' o). Qed.
Print Assumptions C71_failed_partial.

Example C71_failed_partial_ex :
  visits_each_once failing /\ vm_always storage_only failing /\ vm_always keeps_first failing /\
  mw_snaps setup = [] /\
  exists w' o, executeTx (W := failing) (str "buy") call_shop setup = (w', SOk o) /\
  o_code o = RcUserError /\
  wa_balance <$> mw_accts w' !! alice = Some 980 /\ wa_nonce <$> mw_accts w' !! alice = Some 4.
Proof.
  split; [apply machine_order|]. do 2 (split; [apply failing_calm|]). split; [reflexivity|].
  destruct (executeTx (W := failing) (str "buy") call_shop setup) as [w' r] eqn:H.
  exists w', (output RcUserError ∅).
  assert (Hr : snd (executeTx (W := failing) (str "buy") call_shop setup) = SOk (output RcUserError ∅)) by (vm_compute; reflexivity).
  assert (Hb : wa_balance <$> mw_accts (fst (executeTx (W := failing) (str "buy") call_shop setup)) !! alice = Some 980) by (vm_compute; reflexivity).
  assert (Hn : wa_nonce <$> mw_accts (fst (executeTx (W := failing) (str "buy") call_shop setup)) !! alice = Some 4) by (vm_compute; reflexivity).
  rewrite H in Hr, Hb, Hn. cbn [fst snd] in *. subst r. auto.
Qed.

(** C71: the steps of a scenario never leave a snapshot behind, so that the
    condition on the world holds for each of them. *)
Theorem C71_no_snapshot_left :
  forall (W : wenv) checkGas steps w w' r,
  ExecuteSteps checkGas steps w = (w', r) -> mw_snaps w = [] -> r <> SPanic -> mw_snaps w' = [].
Proof. intros W g l w w' r. exact (steps_snaps W g l w w' r). Qed.
Print Assumptions C71_no_snapshot_left.

Example C71_no_snapshot_left_ex :
  mw_snaps setup = [] /\
  snd (ExecuteSteps (W := selling) false [TxStep (str "1") [] call_shop None; TxStep (str "2") [] query_shop None] setup) = SOk tt.
Proof. split; vm_compute; reflexivity. Qed.

(** C71: without the first condition it is false.  A revert to the snapshot of
    the start, as any call that fails inside the transaction makes it, uses up
    this snapshot: what is saved later survives the failure. *)
Theorem C71_failed_refuted :
  exists (W : wenv) ident tx w w' o addr k,
  visits_each_once W /\ vm_always storage_only W /\ mw_snaps w = [] /\
  executeTx ident tx w = (w', SOk o) /\ o_code o = RcUserError /\
  (fun a => wa_storage a !! k) <$> mw_accts w !! addr = Some (Some (str "5")) /\
  (fun a => wa_storage a !! k) <$> mw_accts w' !! addr = Some (Some (str "9")).
Proof.
  destruct (executeTx (W := reverting) (str "buy") call_shop setup) as [w' r] eqn:H.
  exists reverting, (str "buy"), call_shop, setup, w', (output RcUserError ∅), shop, (str "sum").
  assert (Hr : snd (executeTx (W := reverting) (str "buy") call_shop setup) = SOk (output RcUserError ∅)) by (vm_compute; reflexivity).
  assert (Hb : (fun a => wa_storage a !! str "sum") <$> mw_accts (fst (executeTx (W := reverting) (str "buy") call_shop setup)) !! shop = Some (Some (str "9"))) by (vm_compute; reflexivity).
  rewrite H in Hr, Hb. cbn [fst snd] in Hr, Hb. subst r.
  split; [apply machine_order|]. split; [apply reverting_calm|]. split; [reflexivity|]. split; [exact H|].
  split; [reflexivity|]. split; [vm_compute; reflexivity|exact Hb].
Qed.
Print Assumptions C71_failed_refuted.

(** C71: nor without the second: a new username stays. *)
Theorem C71_username_refuted :
  exists (W : wenv) ident tx w w' o addr,
  visits_each_once W /\ vm_always keeps_first W /\ mw_snaps w = [] /\
  executeTx ident tx w = (w', SOk o) /\ o_code o = RcUserError /\
  addr <> jb_value (t_from tx) /\
  wa_username <$> mw_accts w !! addr = Some [] /\
  wa_username <$> mw_accts w' !! addr = Some (str "rob").
Proof.
  destruct (executeTx (W := naming) (str "buy") call_shop setup) as [w' r] eqn:H.
  exists naming, (str "buy"), call_shop, setup, w', (output RcUserError ∅), bob.
  assert (Hr : snd (executeTx (W := naming) (str "buy") call_shop setup) = SOk (output RcUserError ∅)) by (vm_compute; reflexivity).
  assert (Hb : wa_username <$> mw_accts (fst (executeTx (W := naming) (str "buy") call_shop setup)) !! bob = Some (str "rob")) by (vm_compute; reflexivity).
  rewrite H in Hr, Hb. cbn [fst snd] in Hr, Hb. subst r.
  split; [apply machine_order|]. split; [split; [|split]; intros w c; cbn; calm|]. split; [reflexivity|]. split; [exact H|].
  split; [reflexivity|]. split; [discriminate|]. split; [vm_compute; reflexivity|exact Hb].
Qed.
Print Assumptions C71_username_refuted.

(** C72: a successful transaction makes of each account what the output says:
    the sender pays gas and value, balances change by the deltas, nonces only go
    up, code comes with its hash and metadata; new accounts are those of the
    output, and the rest of the world stays. *)
Theorem C72_output_applied :
  forall (W : wenv) ident tx w w' o, vm_always storage_only W ->
  executeTx ident tx w = (w', SOk o) -> o_code o = RcOk ->
  exists value, jz_value (t_value tx) = Some value /\
  (forall addr a, mw_accts w !! addr = Some a -> exists a', mw_accts w' !! addr = Some a' /\
     applied W value (fee_of tx) (has_sender tx /\ addr = jb_value (t_from tx))
       (o_accounts o !! addr) a a') /\
  (forall addr, mw_accts w !! addr = None ->
     match o_accounts o !! addr with
     | Some oa => exists a', mw_accts w' !! addr = Some a' /\ created W addr oa a'
     | None => mw_accts w' !! addr = None
     end) /\
  mw_snaps w' = [] /\ mw_previous w' = mw_previous w /\ mw_current w' = mw_current w /\
  mw_hashes w' = mw_hashes w /\ mw_mocks w' = mw_mocks w.
Proof. intros W ident tx w w' o. exact (succeeded W ident tx w w' o). Qed.
Print Assumptions C72_output_applied.

Example C72_output_applied_ex :
  vm_always storage_only selling /\
  let r := executeTx (W := selling) (str "buy") call_shop setup in
  status r = Some RcOk /\
  wa_balance <$> mw_accts (fst r) !! alice = Some 950 /\
  wa_balance <$> mw_accts (fst r) !! bob = Some 15 /\
  wa_balance <$> mw_accts (fst r) !! shop = Some 25 /\
  (fun a => wa_storage a !! str "sum") <$> mw_accts (fst r) !! shop = Some (Some (str "6")) /\
  (fun a => wa_storage a !! str "price") <$> mw_accts (fst r) !! shop = Some (Some (str "3")).
Proof.
  split; [apply selling_calm|]. cbv zeta.
  repeat split; vm_compute; reflexivity.
Qed.

(** C72: no money is made: all balances together change by the gas that the
    sender pays; what the output moves is the value that was sent.  Only a
    reward and a query, which have no sender, change the sum by what their
    output says. *)
Theorem C72_money :
  forall (W : wenv) ident tx w w' o, vm_always storage_only W ->
  executeTx ident tx w = (w', SOk o) ->
  (has_sender tx ->
     total_balance (mw_accts w') = total_balance (mw_accts w) - fee_of tx /\
     (o_code o = RcOk -> jz_value (t_value tx) = Some (total_delta (o_accounts o)))) /\
  (~ has_sender tx ->
     total_balance (mw_accts w') =
       total_balance (mw_accts w) + (if bool_decide (o_code o = RcOk) then total_delta (o_accounts o) else 0) /\
     (t_type tx = ValidatorReward -> jz_value (t_value tx) = Some (total_delta (o_accounts o)) /\ o_code o = RcOk)).
Proof. intros W ident tx w w' o. exact (money_split W ident tx w w' o). Qed.
Print Assumptions C72_money.

Example C72_money_ex :
  total_balance (mw_accts setup) = 1010 /\
  total_balance (mw_accts (fst (executeTx (W := selling) (str "buy") call_shop setup))) = 990 /\
  fee_of call_shop = 20.
Proof. repeat split; vm_compute; reflexivity. Qed.

(** C72: the machine is called once, with what the step declares, in the world
    where the gas is paid, if the sender can pay the value as well; else the
    status is out-of-funds.  Storage is then as the machine and its output left
    it. *)
Theorem C72_call_input :
  forall (W : wenv) ident tx w w' o value,
  t_type tx = ScCall -> t_esdt tx = None -> mw_snaps w = [] ->
  executeTx ident tx w = (w', SOk o) -> jz_value (t_value tx) = Some value ->
  exists hash, hash_of ident hash /\
  ((affords tx value w /\
    ran (fun w1 => we_call W w1 (mkCall (declared_input hash tx (jb_value (t_from tx)) value
           (ju_value (t_gaslimit tx)) []) (jb_value (t_to tx)) (t_function tx) false)) tx w w' o) \/
   (~ affords tx value w /\ o_code o = RcOutOfFunds)).
Proof. intros W ident tx w w' o value. exact (call_ran W ident tx w w' o value). Qed.
Print Assumptions C72_call_input.
Theorem C72_deploy_input :
  forall (W : wenv) ident tx w w' o value,
  t_type tx = ScDeploy -> t_esdt tx = None -> mw_snaps w = [] ->
  executeTx ident tx w = (w', SOk o) -> jz_value (t_value tx) = Some value ->
  exists hash, hash_of ident hash /\
  ((affords tx value w /\
    ran (fun w1 => we_create W w1 (mkCreate (declared_input hash tx (jb_value (t_from tx)) value
           (ju_value (t_gaslimit tx)) []) (jb_value (t_code tx)) [])) tx w w' o) \/
   (~ affords tx value w /\ o_code o = RcOutOfFunds)).
Proof. intros W ident tx w w' o value. exact (deploy_ran W ident tx w w' o value). Qed.
Print Assumptions C72_deploy_input.
Theorem C72_query_input :
  forall (W : wenv) ident tx w w' o value,
  t_type tx = ScQuery -> t_esdt tx = None -> mw_snaps w = [] ->
  executeTx ident tx w = (w', SOk o) -> jz_value (t_value tx) = Some value ->
  exists hash, hash_of ident hash /\
    ran (fun w1 => we_call W w1 (mkCall (declared_input hash tx (jb_value (t_to tx)) value (2 ^ 64 - 1) [])
           (jb_value (t_to tx)) (t_function tx) false)) tx w w' o.
Proof. intros W ident tx w w' o value. exact (query_ran W ident tx w w' o value). Qed.
Print Assumptions C72_query_input.

Example C72_input_ex :
  vm_always never_reverts selling /\ affords call_shop 30 setup /\
  status (executeTx (W := selling) (str "buy") call_shop setup) = Some RcOk /\
  status (executeTx (W := selling) (str "sum") query_shop setup) = Some RcOk /\
  hash_of (str "buy") (str "buy.............................").
Proof.
  split; [apply selling_calm|]. split.
  { apply alice_affords; reflexivity. }
  do 2 (split; [vm_compute; reflexivity|]).
  split; [reflexivity|]. intros i Hi. do 32 (destruct i as [|i]; [reflexivity|]). lia.
Qed.

(** C72: a deployment with tokens never reaches the machine. *)
Theorem C72_deploy_tokens_refuted :
  exists (W : wenv) ident tx w e,
  t_type tx = ScDeploy /\ t_esdt tx = Some e /\ jz_value (t_value tx) = Some 30 /\ affords tx 30 w /\
  mw_snaps w = [] /\ snd (executeTx ident tx w) = SPanic.
Proof.
  exists selling, (str "new"), (deploy_shop (Some (mkEsdtTx (jb (str "GEM")) (ju 0) (jz 1)))), setup.
  eexists. split; [reflexivity|]. split; [reflexivity|]. split; [reflexivity|]. split.
  { apply alice_affords; reflexivity. }
  split; vm_compute; reflexivity.
Qed.
Print Assumptions C72_deploy_tokens_refuted.

(** C73: a query that fails leaves the world exactly as it was. *)
Theorem C73_failed_query_partial :
  forall (W : wenv) ident tx w w' o, visits_each_once W ->
  vm_always storage_only W -> vm_always keeps_first W -> mw_snaps w = [] ->
  t_type tx = ScQuery -> executeTx ident tx w = (w', SOk o) -> o_code o <> RcOk -> w' = w.
Proof. intros W ident tx w w' o HO. exact (failed_query W HO ident tx w w' o). Qed.
Print Assumptions C73_failed_query_partial.

Example C73_failed_query_partial_ex :
  snd (executeTx (W := failing) (str "sum") query_shop setup) = SOk (output RcUserError ∅).
Proof. vm_compute. reflexivity. Qed.

(** C73: one that succeeds does not: what the function writes to storage is
    kept, as if it had been called. *)
Theorem C73_query_refuted :
  exists (W : wenv) ident tx w w' o addr k,
  visits_each_once W /\ vm_always storage_only W /\ vm_always keeps_first W /\ mw_snaps w = [] /\
  t_type tx = ScQuery /\ executeTx ident tx w = (w', SOk o) /\ o_code o = RcOk /\
  (fun a => wa_storage a !! k) <$> mw_accts w !! addr = Some (Some (str "5")) /\
  (fun a => wa_storage a !! k) <$> mw_accts w' !! addr = Some (Some (str "6")).
Proof.
  destruct (executeTx (W := answering) (str "sum") query_shop setup) as [w' r] eqn:H.
  eexists answering, (str "sum"), query_shop, setup, w', (output RcOk _), shop, (str "sum").
  assert (Hr : snd (executeTx (W := answering) (str "sum") query_shop setup) =
    SOk (output RcOk {[ shop := shop_account 0 {[ str "sum" := str "6" ]} ]})) by (vm_compute; reflexivity).
  assert (Hb : (fun a => wa_storage a !! str "sum") <$> mw_accts (fst (executeTx (W := answering) (str "sum") query_shop setup)) !! shop = Some (Some (str "6"))) by (vm_compute; reflexivity).
  rewrite H in Hr, Hb. cbn [fst snd] in Hr, Hb. subst r.
  split; [apply machine_order|]. do 2 (split; [apply answering_calm|]). split; [reflexivity|]. split; [reflexivity|].
  split; [exact H|]. split; [reflexivity|]. split; [vm_compute; reflexivity|exact Hb].
Qed.
Print Assumptions C73_query_refuted.

(** C74: if the last snapshot shows the storage as it is now, then a revert to
    the number given out now succeeds later, and brings back the storage of
    every account, whatever was saved in between, and whatever reverts to later
    snapshots there were. *)
Theorem C74_revert_restores_partial :
  forall (W : wenv) w ops before last, visits_each_once W ->
  mw_snaps w = before ++ [last] -> same_storages last (mw_accts w) ->
  Forall (fun o => match o with HRevert i => i < 0 \/ GetSnapshot w < i | _ => True end) ops ->
  exists w', RevertToSnapshot (GetSnapshot w) (hook_steps ops w) = (w', true) /\
    same_storages (mw_accts w') (mw_accts w) /\ mw_snaps w' = before /\
    forall addr, is_Some (mw_accts w' !! addr) <-> is_Some (mw_accts w !! addr).
Proof. intros W w ops before last HO. exact (snapshot_restores W HO w ops before last). Qed.
Print Assumptions C74_revert_restores_partial.

Example C74_revert_restores_partial_ex :
  let w := CreateStateBackup setup in
  GetSnapshot w = 0 /\ mw_snaps w = mw_snaps setup ++ [mw_accts setup] /\ same_storages (mw_accts setup) (mw_accts w) /\
  let w1 := hook_steps (W := silent) [HSave shop (str "sum") (str "9"); HSave bob (str "k") (str "v"); HRevert 1] w in
  (fun a => wa_storage a !! str "sum") <$> mw_accts w1 !! shop = Some (Some (str "9")) /\
  (fun a => wa_storage a !! str "sum") <$> mw_accts (fst (RevertToSnapshot (W := silent) 0 w1)) !! shop = Some (Some (str "5")).
Proof.
  cbv zeta. split; [vm_compute; reflexivity|]. split; [apply backup_snaps|]. split; [apply backup_same|].
  split; vm_compute; reflexivity.
Qed.

(** C74: the condition cannot be left out.  After a revert the last snapshot is
    an older one, so that a second call that fails takes back a value saved
    before the first began, though nothing was saved since. *)
Theorem C74_revert_twice_refuted :
  exists (W : wenv) w addr k v,
  visits_each_once W /\
  let saved := hook_steps [HSave addr k v] w in
  let once := fst (RevertToSnapshot (GetSnapshot saved) saved) in
  let twice := fst (RevertToSnapshot (GetSnapshot once) once) in
  (fun a => wa_storage a !! k) <$> mw_accts w !! addr = Some None /\
  (fun a => wa_storage a !! k) <$> mw_accts saved !! addr = Some (Some v) /\
  (fun a => wa_storage a !! k) <$> mw_accts once !! addr = Some (Some v) /\
  (fun a => wa_storage a !! k) <$> mw_accts twice !! addr = Some None.
Proof.
  exists silent, (CreateStateBackup setup), shop, (str "price"), (str "3").
  split; [apply machine_order|]. cbv zeta. repeat split; vm_compute; reflexivity.
Qed.
Print Assumptions C74_revert_twice_refuted.
