(** C47: gas for several asynchronous calls.  C48: map iteration order. *)
From Verif Require Import VmModel OrderModel OrderSpec OrderProofs ExCalls.

(** ** C47: the calls together never get more than what is left. *)
Theorem C47_never_more : forall (E : env) left m m', env_ok E -> typed_calls m -> 0 <= left < 2 ^ 64 ->
  setupAsyncCallsGas left m = ROk m' -> handed_out m' <= left.
Proof. intros E. exact setup_total. Qed.
Print Assumptions C47_never_more.

(** ** C47: the setup succeeds exactly when what is asked for is there (and
    something is left for the calls that ask for nothing); then a call that
    asks for gas gets exactly that, the others get equal shares of the rest,
    and nothing else changes. *)
Theorem C47_shares : forall (E : env) left m m', env_ok E -> typed_calls m -> 0 <= left < 2 ^ 64 ->
  setupAsyncCallsGas left m = ROk m' <->
  asked m <= left /\ (unspecified m = 0 \/ asked m < left) /\
  m' = (fun ctx => set_ax_calls ((fun c => set_gc_limit (fair left m c) c) <$> ax_calls ctx) ctx) <$> m.
Proof. intros E. exact setup_iff. Qed.
Print Assumptions C47_shares.

(** ** C47: the result does not depend on the order of the contexts. *)
Theorem C47_order : forall (E E' : env) left m m', env_ok E -> env_ok E' -> typed_calls m -> 0 <= left < 2 ^ 64 ->
  setupAsyncCallsGas (E := E) left m = ROk m' <-> setupAsyncCallsGas (E := E') left m = ROk m'.
Proof. exact setup_order. Qed.
Print Assumptions C47_order.

(** which error is returned does depend on it *)
Definition ex_call (dest : string) (provided : Z) (cb : string) : gen_call :=
  mkGenCall AsPending (addr dest) [] 0 [] (str cb) (str cb) provided.
Definition ex_ctxs (a b : gen_call) : gmap bytes async_ctx :=
  {[str "a" := mkActx [] [a]; str "b" := mkActx [] [b]]}.
Definition orderEnv (order : list bytes -> list bytes) (info : async_info) (l : list (string * list (string * prog))) : env :=
  exEnvFull order (fun _ => ROk info) false exBuiltin (contracts l).
Definition no_info : async_info := mkAinfo [] [] ∅.
Theorem C47_error_refuted : exists (E E' : env) left m, env_ok E /\ env_ok E' /\ typed_calls m /\ 0 <= left < 2 ^ 64 /\
  setupAsyncCallsGas (E := E) left m <> setupAsyncCallsGas (E := E') left m.
Proof.
  exists (orderEnv (fun l => l) no_info []), (orderEnv (rev (A:=bytes)) no_info []), 1000, (ex_ctxs (ex_call "x" 1 "f") (ex_call "x" (2 ^ 64 - 1) "f")).
  split; [apply exEnvFull_ok; reflexivity|]. split; [apply exEnvFull_ok; intros l; symmetry; apply Permutation_rev|].
  split; [|split; [lia|vm_compute; discriminate]].
  intros c Hc. vm_compute in Hc. destruct Hc as [<-|[<-|[]]]; split; vm_compute; congruence.
Qed.
Print Assumptions C47_error_refuted.

Example C47_ex :
  let m := ex_ctxs (ex_call "x" 300 "f") (ex_call "y" 0 "g") in
  match setupAsyncCallsGas (E := orderEnv (rev (A:=bytes)) no_info []) 1000 m with
  | ROk m' => map (fun c => (gc_dest c, gc_limit c)) (all_calls m') = [(addr "x", 300); (addr "y", 700)]
  | _ => False
  end /\
  asked m = 300 /\ unspecified m = 1 /\ typed_calls m.
Proof.
  split; [vm_compute; reflexivity|]. split; [reflexivity|]. split; [reflexivity|].
  intros c Hc. vm_compute in Hc. destruct Hc as [<-|[<-|[]]]; split; vm_compute; congruence.
Qed.

(** ** C48: every order of visiting the entries gives the totals of the model,
    hence the same totals. *)
Theorem C48_total_gas : forall m visit, typed_acc m -> visits m visit -> loop_total visit = getCurrentTotalUsedGas m.
Proof. exact total_order. Qed.
Print Assumptions C48_total_gas.
Theorem C48_gas_of_others : forall h visit, typed_acc (accounts h) ->
  (forall a g, mt_used (h_met h) !! a = Some g -> 0 <= g) -> visits (accounts h) visit ->
  loop_others (r_addr (h_rt h)) (mt_used (h_met h)) visit = getGasUsedByAllOtherAccounts h.
Proof. exact others_order. Qed.
Print Assumptions C48_gas_of_others.
Theorem C48_gas_added : forall l r visit, visits r visit -> loop_add_used l visit = merge addGasUsed l r.
Proof. exact add_used_order. Qed.
Print Assumptions C48_gas_added.
(** ... the same accounts with gas used, and the same answer about missing ones *)
Theorem C48_gas_set : forall used m visit, visits m visit ->
  loop_set_used used m visit = map_imap (fun a x => Some (set_oa_gasused (default 0 (used !! a)) x)) m.
Proof. exact set_used_order. Qed.
Print Assumptions C48_gas_set.
Theorem C48_missing : forall (accs : gmap bytes out_account) (used : gmap bytes Z) visit, visits_keys used visit ->
  loop_missing accs visit = negb (bool_decide (dom used ⊆ dom accs)).
Proof. exact missing_order. Qed.
Print Assumptions C48_missing.
(** ... the same merged outputs *)
Theorem C48_merge : forall l r visit, visits r visit -> loop_merge l visit = merge mergeAccount l r.
Proof. exact merge_order. Qed.
Print Assumptions C48_merge.
Theorem C48_storage : forall l r visit, visits r visit -> loop_storage l visit = r ∪ l.
Proof. exact storage_order. Qed.
Print Assumptions C48_storage.
Theorem C48_remove_code : forall upd m visit, visits m visit ->
  loop_remove_code upd m visit = map_imap (fun a x =>
    Some (if bool_decide (a ∈ upd) then x else set_oa_deployer None (set_oa_meta [] (set_oa_code [] x)))) m.
Proof. exact remove_code_order. Qed.
Print Assumptions C48_remove_code.
(** ... and the same verdict on a contract's exports *)
Theorem C48_exports : forall (E : env) m l l', Permutation l l' ->
  verifyFunctionsIn m l = ROk tt <-> verifyFunctionsIn m l' = ROk tt.
Proof. intros E. exact verify_order. Qed.
Print Assumptions C48_exports.

Definition ex_acc (g : Z) : out_account := set_oa_gasused g NewVMOutputAccount.
Definition ex_accs : gmap bytes out_account := {[addr "a" := ex_acc 3; addr "b" := ex_acc 4]}.
Example C48_ex :
  let visit := [(addr "b", ex_acc 4); (addr "a", ex_acc 3)] in
  let visit' := [(addr "a", ex_acc 3); (addr "b", ex_acc 4)] in
  visits ex_accs visit /\ visits ex_accs visit' /\ typed_acc ex_accs /\
  loop_total visit = 7 /\ loop_total visit' = 7 /\
  oa_gasused <$> (loop_merge {[addr "a" := ex_acc 9]} visit !! addr "a") = Some 3 /\
  oa_gasused <$> (loop_merge {[addr "a" := ex_acc 9]} visit' !! addr "a") = Some 3.
Proof.
  assert (Hv : visits ex_accs [(addr "a", ex_acc 3); (addr "b", ex_acc 4)]) by (unfold visits; vm_compute; constructor; constructor; constructor).
  split. { unfold visits. etransitivity; [|exact Hv]. constructor. }
  split; [exact Hv|]. split; [|repeat split; vm_compute; reflexivity].
  intros a x H. apply elem_of_map_to_list in H. unfold visits in Hv. rewrite <- Hv in H.
  repeat (apply elem_of_cons in H as [[= -> ->]|H]; [split; [vm_compute; congruence|constructor]|]). inversion H.
Qed.

(** ** C48 does not extend to the choice of the callback: when two asynchronous
    contexts wait for the same contract, the map order decides which function is
    run, and so the output. *)
Definition cb_contract : list (string * list (string * prog)) :=
  [("s", [("f1", finish_with "one" PRet); ("f2", finish_with "two" PRet)])]%string.
Definition cb_info : async_info := mkAinfo (addr "u") [] (ex_ctxs (ex_call "x" 0 "f1") (ex_call "x" 0 "f2")).
Definition cb_world : world :=
  mkWorld {[addr "s" := sc_user (addr "s") 100 {[CustomStorageKey AsyncDataPrefix (str "tx0") := str "async"]}]} ∅.
Definition cb_tx : call_input :=
  mkCall (set_vi_ctype AsynchronousCallBack (input_of (addr "x") [str "0"] 0 1000)) (addr "s") CallbackFunctionName false.
Definition cb_out (order : list bytes -> list bytes) : list bytes :=
  match snd (RunSmartContractCall (E := orderEnv order cb_info cb_contract) 12 cb_tx (host0 cb_world)) with
  | OOk o => o_retdata o
  | _ => []
  end.
Theorem C48_callback_refuted :
  env_ok (orderEnv (fun l => l) cb_info cb_contract) /\ env_ok (orderEnv (rev (A:=bytes)) cb_info cb_contract) /\
  cb_out (fun l => l) = [str "one"] /\ cb_out (rev (A:=bytes)) = [str "two"].
Proof.
  split; [apply exEnvFull_ok; reflexivity|]. split; [apply exEnvFull_ok; intros l; symmetry; apply Permutation_rev|].
  split; vm_compute; reflexivity.
Qed.
Print Assumptions C48_callback_refuted.
