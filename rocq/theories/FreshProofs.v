(** Nothing left over from earlier transactions influences an execution. *)
From Verif Require Import VmModel.
From stdpp Require Import fin_maps.
Local Open Scope Z_scope.

(** numbers of instances not given out yet are not in use *)
Definition below (h : host) : Prop := forall i, (h_next h <= i)%nat -> h_insts h !! i = None.

(** the transactions after [initContexts] *)
Definition call_body `{E : env} n i : M vm_output := cleaning (orErrorOutput (
    runtime_InitStateFromContractCallInput i ;;;
    v <- metering_InitStateFromContractCallInput (ci_vm i) ;;
    AddTxValueToAccount (ci_rcpt i) (vi_value (ci_vm i)) ;;;
    storage_SetAddress (ci_rcpt i) ;;;
    checkGasForGetCode v ;;;
    contract <- map_err GetSCCode (fun _ => ErrContractNotFound) ;;
    map_err (DeductInitialGasForExecution contract) (fun _ => ErrNotEnoughGas) ;;;
    g <- GetGasForExecution ;;
    map_err (StartWasmerInstance contract g false) (fun _ => ErrContractInvalid) ;;;
    callSCMethod (vmRun n) (vmDest n) ;;;
    o <- GetVMOutput ;;
    CleanWasmerInstance ;;;
    ret o)).
Definition upgrade_body `{E : env} n i : M vm_output := cleaning (orErrorOutput (
    runtime_InitStateFromContractCallInput i ;;;
    metering_InitStateFromContractCallInput (ci_vm i) ;;;
    AddTxValueToAccount (ci_rcpt i) (vi_value (ci_vm i)) ;;;
    storage_SetAddress (ci_rcpt i) ;;;
    '(code, meta) <- ExtractCodeUpgradeFromArgs ;;
    performCodeDeployment (vmRun n) (vmDest n) (mkDeploy code meta (ci_rcpt i) (vi_caller (ci_vm i))))).
Definition create_body `{E : env} n i : M vm_output := cleaning (orErrorOutput (
    let v := cc_vm i in
    a <- NewAddress (vi_caller v) ;;
    modify (fun h => set_h_rt (set_r_addr a (set_r_input v (h_rt h))) h) ;;;
    metering_InitStateFromContractCallInput v ;;;
    AddTxValueToAccount a (vi_value v) ;;;
    storage_SetAddress a ;;;
    performCodeDeployment (vmRun n) (vmDest n) (mkDeploy (cc_code i) (cc_meta i) a (vi_caller v)))).

Section comm.
Context `{E : env} (d : nat) (old : gmap nat inst) (left : list world) (past : list event).
Context (Hold : forall i, old !! (d + i)%nat = None).

(** the same host with instances, snapshots and events of earlier transactions *)
Definition T (h : host) : host :=
  mkHost (h_big h) (h_bigst h) (h_out h) (h_outst h) (h_codeupd h) (h_met h) (h_metst h) (h_rt h) (h_rtst h)
    (h_codesize h) (h_verify h) (kmap (Nat.add d) (h_insts h) ∪ old) (d + h_next h)%nat (Nat.add d <$> h_cur h)
    (map (fmap (Nat.add d)) (h_ist h)) (h_stoaddr h) (h_stost h) (h_stoprot h) (h_world h) (h_bcst h ++ left)
    (h_cache h) (h_trace h ++ past).

Definition fine {A} (r : outc A) : bool := match r with OOk _ => true | _ => false end.

(** [m] needs [a] snapshots of its own and leaves [b] of them when it succeeds *)
Definition cm (a b : nat) {A} (m : M A) : Prop := forall h, below h -> (a <= length (h_bcst h))%nat ->
  forall h' r, m h = (h', r) ->
  below h' /\ m (T h) = (T h', r) /\
  ((if fine r then b else 0) + length (h_bcst h) <= length (h_bcst h') + a)%nat.

Local Instance add_inj : Inj (=) (=) (Nat.add d).
Proof. intros x y H. lia. Qed.
Lemma inst_T h i : h_insts (T h) !! (d + i)%nat = h_insts h !! i.
Proof.
  cbn [T h_insts]. rewrite lookup_union, Hold, (lookup_kmap (Nat.add d)). destruct (h_insts h !! i); reflexivity.
Qed.

Lemma cm_same {A} (r : outc A) : cm 0 0 (fun h => (h, r)).
Proof. intros h Hb _ h' r' [= <- <-]. split; [auto|split; [auto|destruct (fine r); lia]]. Qed.
Lemma cm_ret {A} (a : A) : cm 0 0 (ret a).
Proof. apply cm_same. Qed.
Lemma cm_fail {A} e : cm 0 0 (@fail A e).
Proof. apply cm_same. Qed.
Lemma cm_panic {A} : cm 0 0 (@panic A).
Proof. apply cm_same. Qed.
Lemma cm_nofuel {A} : cm 0 0 (@nofuel A).
Proof. apply cm_same. Qed.
Lemma cm_lift {A} (x : res A) : cm 0 0 (lift x).
Proof. unfold lift. destruct x; apply cm_same. Qed.
Lemma cm_fail_if b e : cm 0 0 (fail_if b e).
Proof. unfold fail_if. destruct b; apply cm_same. Qed.
Lemma cm_11 {A} (m : M A) : cm 0 0 m -> cm 1 1 m.
Proof.
  intros Hm h Hb Ha h' r H. destruct (Hm h Hb ltac:(lia) h' r H) as (P & Q & R). split; [exact P|]. split; [exact Q|].
  destruct (fine r); lia.
Qed.
Lemma cm_bind a b c {A B} (m : M A) (k : A -> M B) : cm a b m -> (forall x, cm b c (k x)) -> cm a c (bind m k).
Proof.
  intros Hm Hk h Hb Ha h' r H. unfold bind in *. destruct (m h) as [h1 o] eqn:Em.
  destruct (Hm h Hb Ha h1 o Em) as (P & Q & R). rewrite Q. destruct o as [x|e| |]; cbn [fine] in R.
  - destruct (Hk x h1 P ltac:(lia) h' r H) as (P2 & Q2 & R2). split; [exact P2|]. split; [exact Q2|]. destruct (fine r); lia.
  - injection H as <- <-. auto.
  - injection H as <- <-. auto.
  - injection H as <- <-. auto.
Qed.
Lemma cm_try {A} (m : M A) : cm 0 0 m -> cm 0 0 (try m).
Proof.
  intros Hm h Hb Ha h' r H. unfold try in *. destruct (m h) as [h1 o] eqn:Em.
  destruct (Hm h Hb Ha h1 o Em) as (P & Q & R). rewrite Q. destruct o as [x|e| |]; cbn [fine] in R; injection H as <- <-; auto.
Qed.
Lemma cm_defer a b {A B} (m : M A) (f : A + err -> M B) p :
  cm 0 0 m -> (forall x, cm a b (f x)) -> cm a b p -> cm a b (deferring m f p).
Proof.
  intros Hm Hf Hp h Hb Ha h' r H. unfold deferring in *. destruct (m h) as [h1 o] eqn:Em.
  destruct (Hm h Hb ltac:(lia) h1 o Em) as (P & Q & R). rewrite Q. destruct o as [x|e| |]; cbn [fine] in R.
  - destruct (Hf (inl x) h1 P ltac:(lia) h' r H) as (P2 & Q2 & R2). split; [exact P2|]. split; [exact Q2|]. destruct (fine r); lia.
  - destruct (Hf (inr e) h1 P ltac:(lia) h' r H) as (P2 & Q2 & R2). split; [exact P2|]. split; [exact Q2|]. destruct (fine r); lia.
  - destruct (p h1) as [h2 o2] eqn:Ep. destruct (Hp h1 P ltac:(lia) h2 o2 Ep) as (P2 & Q2 & R2). rewrite Q2.
    destruct o2; injection H as <- <-; cbn [fine] in *; (split; [exact P2|]; split; [reflexivity|lia]).
  - injection H as <- <-. split; [exact P|]. split; [reflexivity|]. cbn. lia.
Qed.
Lemma cm_gets {A} (f : host -> A) : (forall h, f (T h) = f h) -> cm 0 0 (gets f).
Proof. intros Hf h Hb _ h' r [= <- <-]. unfold gets. rewrite Hf. split; [auto|split; [auto|cbn; lia]]. Qed.
Lemma cm_modify f : (forall h, f (T h) = T (f h)) ->
  (forall h, (h_insts (f h), h_next (f h), h_bcst (f h)) = (h_insts h, h_next h, h_bcst h)) -> cm 0 0 (modify f).
Proof.
  intros Hf Hk h Hb _ h' r [= <- <-]. unfold modify. rewrite Hf. specialize (Hk h). injection Hk as H1 H2 H3.
  split; [unfold below; rewrite H1, H2; exact Hb|]. split; [reflexivity|]. rewrite H3. cbn. lia.
Qed.
Lemma cm_let {A B} (f : host -> A) (k : A -> M B) : (forall h, f (T h) = f h) -> (forall x, cm 0 0 (k x)) ->
  cm 0 0 (fun h => k (f h) h).
Proof. intros Hf Hk h Hb Ha h' r H. destruct (Hk (f h) h Hb Ha h' r H) as (P & Q & R). rewrite Hf. auto. Qed.

(** ** Instances *)
Lemma cur_T h : match h_cur (T h) with Some i => h_insts (T h) !! i | None => None end =
                match h_cur h with Some i => h_insts h !! i | None => None end.
Proof. destruct (h_cur h) as [i|] eqn:Hc; cbn [T h_cur]; rewrite Hc; cbn; [apply inst_T|reflexivity]. Qed.
Lemma cm_cur {B} (k : nat * inst -> M B) : (forall i j x, k (i, x) = k (j, x)) -> (forall p, cm 0 0 (k p)) -> cm 0 0 (bind cur_inst k).
Proof.
  intros Hk Hc h Hb Ha h' r H. unfold bind, cur_inst in *. destruct (h_cur h) as [i|] eqn:Hi.
  - assert (HT : h_cur (T h) = Some (d + i)%nat) by (cbn [T h_cur]; rewrite Hi; reflexivity). rewrite HT, inst_T.
    destruct (h_insts h !! i) as [x|].
    + rewrite (Hk (d + i)%nat i x). exact (Hc (i, x) h Hb Ha h' r H).
    + injection H as <- <-. split; [auto|]. split; [auto|]. cbn. lia.
  - assert (HT : h_cur (T h) = None) by (cbn [T h_cur]; rewrite Hi; reflexivity). rewrite HT.
    injection H as <- <-. split; [auto|]. split; [auto|]. cbn. lia.
Qed.
Lemma insert_T h i x : <[(d + i)%nat := x]> (h_insts (T h)) = kmap (Nat.add d) (<[i := x]> (h_insts h)) ∪ old.
Proof. cbn [T h_insts]. rewrite insert_union_l, kmap_insert; [reflexivity|typeclasses eauto]. Qed.
Lemma delete_T h i : delete (d + i)%nat (h_insts (T h)) = kmap (Nat.add d) (delete i (h_insts h)) ∪ old.
Proof.
  cbn [T h_insts]. rewrite kmap_delete by typeclasses eauto. rewrite delete_union. f_equal. apply delete_notin, Hold.
Qed.
Lemma cm_upd f : cm 0 0 (upd_inst f).
Proof.
  intros h Hb Ha h' r H. unfold upd_inst, bind, cur_inst in *. destruct (h_cur h) as [i|] eqn:Hi.
  - assert (HT : h_cur (T h) = Some (d + i)%nat) by (cbn [T h_cur]; rewrite Hi; reflexivity). rewrite HT, inst_T.
    destruct (h_insts h !! i) as [x|] eqn:Hx.
    + injection H as <- <-. split.
      * intros j Hj. cbn in *. rewrite lookup_insert_ne; [apply Hb, Hj|]. intros ->. specialize (Hb j Hj). congruence.
      * split; [|cbn; lia]. unfold modify. rewrite insert_T. reflexivity.
    + injection H as <- <-. split; [auto|]. split; [auto|]. cbn. lia.
  - assert (HT : h_cur (T h) = None) by (cbn [T h_cur]; rewrite Hi; reflexivity). rewrite HT.
    injection H as <- <-. split; [auto|]. split; [auto|]. cbn. lia.
Qed.
Lemma cm_clean : cm 0 0 CleanWasmerInstance.
Proof.
  intros h Hb Ha h' r H. unfold CleanWasmerInstance in *. destruct (h_cur h) as [i|] eqn:Hi.
  - assert (HT : h_cur (T h) = Some (d + i)%nat) by (cbn [T h_cur]; rewrite Hi; reflexivity). rewrite HT.
    injection H as <- <-. split; [|split].
    + intros j Hj. cbn in *. destruct (decide (j = i)) as [->|]; [apply lookup_delete|rewrite lookup_delete_ne by congruence; apply Hb, Hj].
    + rewrite delete_T. reflexivity.
    + cbn. lia.
  - assert (HT : h_cur (T h) = None) by (cbn [T h_cur]; rewrite Hi; reflexivity). rewrite HT.
    injection H as <- <-. split; [auto|]. split; [auto|]. cbn. lia.
Qed.
Lemma cm_new m g : cm 0 0 (new_instance m g).
Proof.
  intros h Hb Ha h' r H. unfold new_instance in *. injection H as <- <-. split; [|split].
  - intros j Hj. cbn in *. rewrite lookup_insert_ne by lia. apply Hb. lia.
  - change (h_next (T h)) with (d + h_next h)%nat. rewrite insert_T. unfold T. cbn. rewrite Nat.add_succ_r. reflexivity.
  - cbn. lia.
Qed.
Lemma points_T h : points_of (T h) = points_of h.
Proof. unfold points_of. destruct (h_cur h) as [i|] eqn:Hc; cbn [T h_cur]; rewrite Hc; cbn [fmap option_fmap option_map]; [rewrite (inst_T h i)|]; reflexivity. Qed.
Lemma gas_left_T h : gas_left (T h) = gas_left h.
Proof. unfold gas_left. rewrite points_T. reflexivity. Qed.
Lemma cm_points : cm 0 0 GetPointsUsed.
Proof. apply cm_gets, points_T. Qed.
Lemma cm_left : cm 0 0 GasLeft.
Proof. apply cm_gets, gas_left_T. Qed.
Lemma cm_pop_inst : cm 0 0 popInstance.
Proof.
  intros h Hb Ha h' r H. unfold popInstance in *. destruct (h_ist h) as [|prev s] eqn:Hi.
  - assert (HT : h_ist (T h) = []) by (cbn [T h_ist]; rewrite Hi; reflexivity). rewrite HT.
    injection H as <- <-. split; [auto|]. split; [auto|]. cbn. lia.
  - assert (HT : h_ist (T h) = (Nat.add d <$> prev) :: map (fmap (Nat.add d)) s) by (cbn [T h_ist]; rewrite Hi; reflexivity). rewrite HT.
    change (h_cur (T h)) with (Nat.add d <$> h_cur h).
    rewrite (bool_decide_ext (Nat.add d <$> prev = Nat.add d <$> h_cur h) (prev = h_cur h)).
    2: { split; [|congruence]. destruct prev, (h_cur h); cbn; intros Q; try discriminate; [injection Q as Q; f_equal; lia|reflexivity]. }
    destruct (bool_decide (prev = h_cur h)).
    + injection H as <- <-. split; [exact Hb|]. split; [|cbn; lia]. reflexivity.
    + unfold bind in *. destruct (CleanWasmerInstance (set_h_ist s h)) as [h1 o] eqn:Hc.
      destruct (cm_clean (set_h_ist s h) Hb Ha h1 o Hc) as (P & Q & R). cbn [T h_ist] in Q.
      change (set_h_ist (map (fmap (Nat.add d)) s) (T h)) with (T (set_h_ist s h)). rewrite Q.
      destruct o as [[]|e| |]; injection H as <- <-; (split; [exact P|]); (split; [reflexivity|]); cbn in *; lia.
Qed.
Lemma mem_T h o l : mem_load (T h) o l = mem_load h o l.
Proof. unfold mem_load. destruct (h_cur h) as [i|] eqn:Hc; cbn [T h_cur]; rewrite Hc; cbn [fmap option_fmap option_map]; [rewrite (inst_T h i)|]; reflexivity. Qed.
Lemma cur_mem_T h : cur_mem (T h) = cur_mem h.
Proof. unfold cur_mem. destruct (h_cur h) as [i|] eqn:Hc; cbn [T h_cur]; rewrite Hc; cbn [fmap option_fmap option_map]; [rewrite (inst_T h i)|]; reflexivity. Qed.
Lemma bound_T h g : BoundGasLimit (T h) g = BoundGasLimit h g.
Proof. unfold BoundGasLimit. rewrite gas_left_T. reflexivity. Qed.
Lemma indirect_T h s v g dest f args : indirect_input (T h) s v g dest f args = indirect_input h s v g dest f args.
Proof. unfold indirect_input. rewrite bound_T. reflexivity. Qed.
Lemma spent_T h : GasSpentByContract (T h) = GasSpentByContract h.
Proof. unfold GasSpentByContract. rewrite points_T. reflexivity. Qed.

(** ** Snapshots *)
Lemma cm_push : cm 0 1 blockchain_PushState.
Proof. intros h Hb _ h' r [= <- <-]. split; [exact Hb|]. split; [reflexivity|]. cbn. lia. Qed.
Lemma cm_pop_set : cm 1 0 blockchain_PopSetActiveState.
Proof.
  intros h Hb Ha h' r [= <- <-]. unfold blockchain_PopSetActiveState, modify. destruct (h_bcst h) as [|w s] eqn:Hs; [cbn in Ha; lia|].
  split; [exact Hb|]. cbn [T h_bcst]. rewrite Hs. cbn. split; [reflexivity|lia].
Qed.
Lemma cm_pop_discard : cm 1 0 blockchain_PopDiscard.
Proof.
  intros h Hb Ha h' r [= <- <-]. unfold blockchain_PopDiscard, modify. destruct (h_bcst h) as [|w s] eqn:Hs; [cbn in Ha; lia|].
  split; [exact Hb|]. cbn [T h_bcst]. rewrite Hs. cbn. split; [reflexivity|lia].
Qed.

(** ** Everything else *)
Ltac rd := intros ?; first [reflexivity|apply points_T|apply gas_left_T|apply spent_T|apply cur_mem_T|apply mem_T|apply bound_T|apply indirect_T
  |(unfold ComputeGasLockedForAsync, indirect_input, updateSCGasUsed; rewrite ?bound_T, ?gas_left_T, ?points_T, ?spent_T, ?cur_mem_T, ?mem_T; reflexivity)
  |(cbn [T h_ist]; rewrite map_length; reflexivity)].
Ltac md := first [ (intros ?; reflexivity)
  | (intros ?; cbv zeta beta; rewrite ?spent_T, ?points_T, ?gas_left_T; reflexivity)
  | (let h := fresh in intros h; destruct h; cbn; repeat case_match; reflexivity) ].
Create HintDb cmdb.
Ltac ck :=
  repeat first
  [ progress cbv zeta
  | solve [eauto 2 with cmdb nocore]
  | match goal with
    | |- cm _ _ (ret _) => apply cm_ret
    | |- cm _ _ (fail _) => apply cm_fail
    | |- cm _ _ panic => apply cm_panic
    | |- cm _ _ (lift _) => apply cm_lift
    | |- cm _ _ (fail_if _ _) => apply cm_fail_if
    | |- cm _ _ (upd_inst _) => apply cm_upd
    | |- cm _ _ CleanWasmerInstance => apply cm_clean
    | |- cm _ _ (new_instance _ _) => apply cm_new
    | |- cm _ _ GetPointsUsed => apply cm_points
    | |- cm _ _ GasLeft => apply cm_left
    | |- cm _ _ (gets _) => apply cm_gets; rd
    | |- cm _ _ (modify _) => apply cm_modify; md
    | |- cm _ _ (try _) => apply cm_try
    | |- cm _ _ (deferring _ _ _) => apply cm_defer; [|intros ?|]
    | |- cm _ _ (bind cur_inst _) => apply cm_cur; [intros; reflexivity|intros [? ?]]
    | |- cm _ _ (bind _ _) => eapply cm_bind; [|intros ?]
    | |- cm _ _ (match ?x with _ => _ end) => destruct x
    | |- cm _ _ (let '(_, _) := ?x in _) => destruct x
    end ].
Lemma cm_SetPointsUsed p : cm 0 0 (SetPointsUsed p).
Proof. unfold SetPointsUsed. ck. Qed.
Hint Resolve cm_SetPointsUsed : cmdb.
Lemma cm_UseGas p : cm 0 0 (UseGas p).
Proof. unfold UseGas. ck. Qed.
Hint Resolve cm_UseGas : cmdb.
Lemma cm_GetOutputAccount a : cm 0 0 (GetOutputAccount a).
Proof.
  intros h Hb Ha h' r H. unfold GetOutputAccount in *. change (accounts (T h)) with (accounts h).
  destruct (accounts h !! a); injection H as <- <-; (split; [exact Hb|]); (split; [reflexivity|]); cbn; lia.
Qed.
Hint Resolve cm_GetOutputAccount : cmdb.
Lemma cm_SetRuntimeBreakpointValue v : cm 0 0 (SetRuntimeBreakpointValue v).
Proof. intros. unfold SetRuntimeBreakpointValue. ck. Qed.
Hint Resolve cm_SetRuntimeBreakpointValue : cmdb.
Lemma cm_GetRuntimeBreakpointValue  : cm 0 0 (GetRuntimeBreakpointValue ).
Proof. intros. unfold GetRuntimeBreakpointValue. ck. Qed.
Hint Resolve cm_GetRuntimeBreakpointValue : cmdb.
Lemma cm_upd_account a f : cm 0 0 (upd_account a f).
Proof. intros. unfold upd_account. ck. Qed.
Hint Resolve cm_upd_account : cmdb.
Lemma cm_DeleteOutputAccount a : cm 0 0 (DeleteOutputAccount a).
Proof. intros. unfold DeleteOutputAccount. ck. Qed.
Hint Resolve cm_DeleteOutputAccount : cmdb.
Lemma cm_GetRefund  : cm 0 0 (GetRefund ).
Proof. intros. unfold GetRefund. ck. Qed.
Hint Resolve cm_GetRefund : cmdb.
Lemma cm_SetRefund g : cm 0 0 (SetRefund g).
Proof. intros. unfold SetRefund. ck. Qed.
Hint Resolve cm_SetRefund : cmdb.
Lemma cm_SetReturnCode c : cm 0 0 (SetReturnCode c).
Proof. intros. unfold SetReturnCode. ck. Qed.
Hint Resolve cm_SetReturnCode : cmdb.
Lemma cm_SetReturnMessage m : cm 0 0 (SetReturnMessage m).
Proof. intros. unfold SetReturnMessage. ck. Qed.
Hint Resolve cm_SetReturnMessage : cmdb.
Lemma cm_Finish dd : cm 0 0 (Finish dd).
Proof. intros. unfold Finish. ck. Qed.
Hint Resolve cm_Finish : cmdb.
Lemma cm_PrependFinish dd : cm 0 0 (PrependFinish dd).
Proof. intros. unfold PrependFinish. ck. Qed.
Hint Resolve cm_PrependFinish : cmdb.
Lemma cm_WriteLog a topics data : cm 0 0 (WriteLog a topics data).
Proof. intros. unfold WriteLog. ck. Qed.
Hint Resolve cm_WriteLog : cmdb.
Lemma cm_FailExecution e : cm 0 0 (FailExecution e).
Proof. intros. unfold FailExecution. ck. Qed.
Hint Resolve cm_FailExecution : cmdb.
Lemma cm_SignalUserError message : cm 0 0 (SignalUserError message).
Proof. intros. unfold SignalUserError. ck. Qed.
Hint Resolve cm_SignalUserError : cmdb.
Lemma cm_AddToActiveState right : cm 0 0 (AddToActiveState right).
Proof. intros. unfold AddToActiveState. ck. Qed.
Hint Resolve cm_AddToActiveState : cmdb.
Lemma cm_output_PushState  : cm 0 0 (output_PushState ).
Proof. intros. unfold output_PushState. ck. Qed.
Hint Resolve cm_output_PushState : cmdb.
Lemma cm_output_PopSetActiveState  : cm 0 0 (output_PopSetActiveState ).
Proof. intros. unfold output_PopSetActiveState. ck. Qed.
Hint Resolve cm_output_PopSetActiveState : cmdb.
Lemma cm_output_PopMergeActiveState  : cm 0 0 (output_PopMergeActiveState ).
Proof. intros. unfold output_PopMergeActiveState. ck. Qed.
Hint Resolve cm_output_PopMergeActiveState : cmdb.
Lemma cm_output_PopDiscard  : cm 0 0 (output_PopDiscard ).
Proof. intros. unfold output_PopDiscard. ck. Qed.
Hint Resolve cm_output_PopDiscard : cmdb.
Lemma cm_CensorVMOutput  : cm 0 0 (CensorVMOutput ).
Proof. intros. unfold CensorVMOutput. ck. Qed.
Hint Resolve cm_CensorVMOutput : cmdb.
Lemma cm_removeNonUpdatedCode  : cm 0 0 (removeNonUpdatedCode ).
Proof. intros. unfold removeNonUpdatedCode. ck. Qed.
Hint Resolve cm_removeNonUpdatedCode : cmdb.
Lemma cm_DeployCode dd : cm 0 0 (DeployCode dd).
Proof. intros. unfold DeployCode. ck. Qed.
Hint Resolve cm_DeployCode : cmdb.
Lemma cm_AddTxValueToAccount a v : cm 0 0 (AddTxValueToAccount a v).
Proof. intros. unfold AddTxValueToAccount. ck. Qed.
Hint Resolve cm_AddTxValueToAccount : cmdb.
Lemma cm_GetBalanceBigInt a : cm 0 0 (GetBalanceBigInt a).
Proof. intros. unfold GetBalanceBigInt. ck. Qed.
Hint Resolve cm_GetBalanceBigInt : cmdb.
Lemma cm_GetNonce a : cm 0 0 (GetNonce a).
Proof. intros. unfold GetNonce. ck. Qed.
Hint Resolve cm_GetNonce : cmdb.
Lemma cm_IncreaseNonce a : cm 0 0 (IncreaseNonce a).
Proof. intros. unfold IncreaseNonce. ck. Qed.
Hint Resolve cm_IncreaseNonce : cmdb.
Lemma cm_NewAddress creator : cm 0 0 (NewAddress creator).
Proof. intros. unfold NewAddress. ck. Qed.
Hint Resolve cm_NewAddress : cmdb.
Lemma cm_GetCode a : cm 0 0 (GetCode a).
Proof. intros. unfold GetCode. ck. Qed.
Hint Resolve cm_GetCode : cmdb.
Lemma cm_ProcessBuiltInFunction i : cm 0 0 (ProcessBuiltInFunction i).
Proof.
  intros h Hb Ha h' r H. unfold ProcessBuiltInFunction in *. change (h_world (T h)) with (h_world h).
  destruct (e_builtin E (h_world h) i) as [w o]. destruct o; injection H as <- <-; (split; [exact Hb|]); (split; [reflexivity|cbn; lia]).
Qed.
Hint Resolve cm_ProcessBuiltInFunction : cmdb.
Lemma cm_hasSufficientBalance a v : cm 0 0 (hasSufficientBalance a v).
Proof. intros. unfold hasSufficientBalance. ck. Qed.
Hint Resolve cm_hasSufficientBalance : cmdb.
Lemma cm_TransferValueOnly dest sender value checkPayable : cm 0 0 (TransferValueOnly dest sender value checkPayable).
Proof. intros. unfold TransferValueOnly. ck. Qed.
Hint Resolve cm_TransferValueOnly : cmdb.
Lemma cm_Transfer dest sender gasLimit gasLocked value input ctype : cm 0 0 (Transfer dest sender gasLimit gasLocked value input ctype).
Proof. intros. unfold Transfer. ck. Qed.
Hint Resolve cm_Transfer : cmdb.
Lemma cm_RestoreGas g : cm 0 0 (RestoreGas g).
Proof. intros. unfold RestoreGas. ck. Qed.
Hint Resolve cm_RestoreGas : cmdb.
Lemma cm_FreeGas g : cm 0 0 (FreeGas g).
Proof. intros. unfold FreeGas. ck. Qed.
Hint Resolve cm_FreeGas : cmdb.
Lemma cm_WithFault e : cm 0 0 (WithFault e).
Proof. intros. unfold WithFault. ck. Qed.
Hint Resolve cm_WithFault : cmdb.
Lemma cm_metering_InitStateFromContractCallInput i : cm 0 0 (metering_InitStateFromContractCallInput i).
Proof. intros. unfold metering_InitStateFromContractCallInput. ck. Qed.
Hint Resolve cm_metering_InitStateFromContractCallInput : cmdb.
Lemma cm_metering_PushState  : cm 0 0 (metering_PushState ).
Proof. intros. unfold metering_PushState. ck. Qed.
Hint Resolve cm_metering_PushState : cmdb.
Lemma cm_metering_PopSetActiveState  : cm 0 0 (metering_PopSetActiveState ).
Proof. intros. unfold metering_PopSetActiveState. ck. Qed.
Hint Resolve cm_metering_PopSetActiveState : cmdb.
Lemma cm_metering_PopMergeActiveState  : cm 0 0 (metering_PopMergeActiveState ).
Proof. intros. unfold metering_PopMergeActiveState. ck. Qed.
Hint Resolve cm_metering_PopMergeActiveState : cmdb.
Lemma cm_updateSCGasUsed  : cm 0 0 (updateSCGasUsed ).
Proof. intros. unfold updateSCGasUsed. ck. Qed.
Hint Resolve cm_updateSCGasUsed : cmdb.
Lemma cm_setGasUsedToOutputAccounts  : cm 0 0 (setGasUsedToOutputAccounts ).
Proof. intros. unfold setGasUsedToOutputAccounts. ck. Qed.
Hint Resolve cm_setGasUsedToOutputAccounts : cmdb.
Lemma cm_checkGas  : cm 0 0 (checkGas ).
Proof. intros. unfold checkGas. ck. Qed.
Hint Resolve cm_checkGas : cmdb.
Lemma cm_UpdateGasStateOnSuccess  : cm 0 0 (UpdateGasStateOnSuccess ).
Proof. intros. unfold UpdateGasStateOnSuccess. ck. Qed.
Hint Resolve cm_UpdateGasStateOnSuccess : cmdb.
Lemma cm_UpdateGasStateOnFailure  : cm 0 0 (UpdateGasStateOnFailure ).
Proof. intros. unfold UpdateGasStateOnFailure. ck. Qed.
Hint Resolve cm_UpdateGasStateOnFailure : cmdb.
Lemma cm_TrackGasUsedByBuiltinFunction input out post : cm 0 0 (TrackGasUsedByBuiltinFunction input out post).
Proof. intros. unfold TrackGasUsedByBuiltinFunction. ck. Qed.
Hint Resolve cm_TrackGasUsedByBuiltinFunction : cmdb.
Lemma cm_UseGasBounded g : cm 0 0 (UseGasBounded g).
Proof. intros. unfold UseGasBounded. ck. Qed.
Hint Resolve cm_UseGasBounded : cmdb.
Lemma cm_UseGasForAsyncStep  : cm 0 0 (UseGasForAsyncStep ).
Proof. intros. unfold UseGasForAsyncStep. ck. Qed.
Hint Resolve cm_UseGasForAsyncStep : cmdb.
Lemma cm_deductInitialGas code baseCost costPerByte : cm 0 0 (deductInitialGas code baseCost costPerByte).
Proof. intros. unfold deductInitialGas. ck. Qed.
Hint Resolve cm_deductInitialGas : cmdb.
Lemma cm_DeductInitialGasForExecution contract : cm 0 0 (DeductInitialGasForExecution contract).
Proof. intros. unfold DeductInitialGasForExecution. ck. Qed.
Hint Resolve cm_DeductInitialGasForExecution : cmdb.
Lemma cm_DeductInitialGasForDirectDeployment dd : cm 0 0 (DeductInitialGasForDirectDeployment dd).
Proof. intros. unfold DeductInitialGasForDirectDeployment. ck. Qed.
Hint Resolve cm_DeductInitialGasForDirectDeployment : cmdb.
Lemma cm_DeductInitialGasForIndirectDeployment dd : cm 0 0 (DeductInitialGasForIndirectDeployment dd).
Proof. intros. unfold DeductInitialGasForIndirectDeployment. ck. Qed.
Hint Resolve cm_DeductInitialGasForIndirectDeployment : cmdb.
Lemma cm_CreateVMOutputInCaseOfError e : cm 0 0 (CreateVMOutputInCaseOfError e).
Proof. intros. unfold CreateVMOutputInCaseOfError. ck. Qed.
Hint Resolve cm_CreateVMOutputInCaseOfError : cmdb.
Lemma cm_GetVMOutput  : cm 0 0 (GetVMOutput ).
Proof. intros. unfold GetVMOutput. ck. Qed.
Hint Resolve cm_GetVMOutput : cmdb.
Lemma cm_getStorageFromAddressUnmetered a key : cm 0 0 (getStorageFromAddressUnmetered a key).
Proof. intros. unfold getStorageFromAddressUnmetered. ck. Qed.
Hint Resolve cm_getStorageFromAddressUnmetered : cmdb.
Lemma cm_GetStorageUnmetered key : cm 0 0 (GetStorageUnmetered key).
Proof. intros. unfold GetStorageUnmetered. ck. Qed.
Hint Resolve cm_GetStorageUnmetered : cmdb.
Lemma cm_useExtraKeyGas key : cm 0 0 (useExtraKeyGas key).
Proof. intros. unfold useExtraKeyGas. ck. Qed.
Hint Resolve cm_useExtraKeyGas : cmdb.
Lemma cm_GetStorage key : cm 0 0 (GetStorage key).
Proof. intros. unfold GetStorage. ck. Qed.
Hint Resolve cm_GetStorage : cmdb.
Lemma cm_GetStorageFromAddress a key : cm 0 0 (GetStorageFromAddress a key).
Proof. intros. unfold GetStorageFromAddress. ck. Qed.
Hint Resolve cm_GetStorageFromAddress : cmdb.
Lemma cm_SetStorage key value : cm 0 0 (SetStorage key value).
Proof. intros. unfold SetStorage. ck. Qed.
Hint Resolve cm_SetStorage : cmdb.
Lemma cm_SetProtectedStorage key value : cm 0 0 (SetProtectedStorage key value).
Proof. intros. unfold SetProtectedStorage. ck. Qed.
Hint Resolve cm_SetProtectedStorage : cmdb.
Lemma cm_storage_PushState  : cm 0 0 (storage_PushState ).
Proof. intros. unfold storage_PushState. ck. Qed.
Hint Resolve cm_storage_PushState : cmdb.
Lemma cm_storage_PopSetActiveState  : cm 0 0 (storage_PopSetActiveState ).
Proof. intros. unfold storage_PopSetActiveState. ck. Qed.
Hint Resolve cm_storage_PopSetActiveState : cmdb.
Lemma cm_storage_SetAddress a : cm 0 0 (storage_SetAddress a).
Proof. intros. unfold storage_SetAddress. ck. Qed.
Hint Resolve cm_storage_SetAddress : cmdb.
Lemma cm_bigint_PushState  : cm 0 0 (bigint_PushState ).
Proof. intros. unfold bigint_PushState. ck. Qed.
Hint Resolve cm_bigint_PushState : cmdb.
Lemma cm_bigint_PopSetActiveState  : cm 0 0 (bigint_PopSetActiveState ).
Proof. intros. unfold bigint_PopSetActiveState. ck. Qed.
Hint Resolve cm_bigint_PopSetActiveState : cmdb.
Lemma cm_bigint_PopDiscard  : cm 0 0 (bigint_PopDiscard ).
Proof. intros. unfold bigint_PopDiscard. ck. Qed.
Hint Resolve cm_bigint_PopDiscard : cmdb.
Lemma cm_bigint_InitState  : cm 0 0 (bigint_InitState ).
Proof. intros. unfold bigint_InitState. ck. Qed.
Hint Resolve cm_bigint_InitState : cmdb.

Lemma cm_GetSCCode  : cm 0 0 (GetSCCode ).
Proof. intros. unfold GetSCCode. ck. Qed.
Hint Resolve cm_GetSCCode : cmdb.
Lemma cm_VerifyContractCode  : cm 0 0 (VerifyContractCode ).
Proof. intros. unfold VerifyContractCode. ck. Qed.
Hint Resolve cm_VerifyContractCode : cmdb.
Lemma cm_makeInstanceFromCompiledCode codeHash gasLimit newCode : cm 0 0 (makeInstanceFromCompiledCode codeHash gasLimit newCode).
Proof. intros. unfold makeInstanceFromCompiledCode. ck. Qed.
Hint Resolve cm_makeInstanceFromCompiledCode : cmdb.
Lemma cm_makeInstanceFromContractByteCode contract codeHash gasLimit newCode : cm 0 0 (makeInstanceFromContractByteCode contract codeHash gasLimit newCode).
Proof. intros. unfold makeInstanceFromContractByteCode. ck. Qed.
Hint Resolve cm_makeInstanceFromContractByteCode : cmdb.
Lemma cm_StartWasmerInstance contract gasLimit newCode : cm 0 0 (StartWasmerInstance contract gasLimit newCode).
Proof. intros. unfold StartWasmerInstance. ck. Qed.
Hint Resolve cm_StartWasmerInstance : cmdb.
Lemma cm_runtime_InitStateFromContractCallInput i : cm 0 0 (runtime_InitStateFromContractCallInput i).
Proof. intros. unfold runtime_InitStateFromContractCallInput. ck. Qed.
Hint Resolve cm_runtime_InitStateFromContractCallInput : cmdb.
Lemma cm_runtime_PushState  : cm 0 0 (runtime_PushState ).
Proof. intros. unfold runtime_PushState. ck. Qed.
Hint Resolve cm_runtime_PushState : cmdb.
Lemma cm_runtime_PopSetActiveState : cm 0 0 runtime_PopSetActiveState.
Proof.
  intros h Hb Ha h' r H. unfold runtime_PopSetActiveState in *. change (h_rtst (T h)) with (h_rtst h). destruct (h_rtst h) as [|f s].
  - exact (cm_same (OOk tt) h Hb Ha h' r H).
  - exact (cm_pop_inst (set_h_rtst s (set_h_rt f h)) Hb Ha h' r H).
Qed.
Hint Resolve cm_runtime_PopSetActiveState : cmdb.
Lemma cm_ExtractCodeUpgradeFromArgs  : cm 0 0 (ExtractCodeUpgradeFromArgs ).
Proof. intros. unfold ExtractCodeUpgradeFromArgs. ck. Qed.
Hint Resolve cm_ExtractCodeUpgradeFromArgs : cmdb.
Lemma cm_GetFunctionToCall  : cm 0 0 (GetFunctionToCall ).
Proof. intros. unfold GetFunctionToCall. ck. Qed.
Hint Resolve cm_GetFunctionToCall : cmdb.
Lemma cm_GetInitFunction  : cm 0 0 (GetInitFunction ).
Proof. intros. unfold GetInitFunction. ck. Qed.
Hint Resolve cm_GetInitFunction : cmdb.
Lemma cm_HasCallbackMethod  : cm 0 0 (HasCallbackMethod ).
Proof. intros. unfold HasCallbackMethod. ck. Qed.
Hint Resolve cm_HasCallbackMethod : cmdb.
Lemma cm_ExecuteAsyncCall address data value : cm 0 0 (ExecuteAsyncCall address data value).
Proof. intros. unfold ExecuteAsyncCall. ck. Qed.
Hint Resolve cm_ExecuteAsyncCall : cmdb.
Lemma cm_AddAsyncContextCall id c : cm 0 0 (AddAsyncContextCall id c).
Proof. intros. unfold AddAsyncContextCall. ck. Qed.
Hint Resolve cm_AddAsyncContextCall : cmdb.
Lemma cm_SetAsyncContextCallback id callback : cm 0 0 (SetAsyncContextCallback id callback).
Proof. intros. unfold SetAsyncContextCallback. ck. Qed.
Hint Resolve cm_SetAsyncContextCallback : cmdb.
Lemma cm_mem_store offset data : cm 0 0 (mem_store offset data).
Proof. intros. unfold mem_store. ck. Qed.
Hint Resolve cm_mem_store : cmdb.
Lemma cm_callBuiltinFunction i : cm 0 0 (callBuiltinFunction i).
Proof. intros. unfold callBuiltinFunction. ck. Qed.
Hint Resolve cm_callBuiltinFunction : cmdb.
Lemma cm_handleBuiltinFunctionCall i : cm 0 0 (handleBuiltinFunctionCall i).
Proof. intros. unfold handleBuiltinFunctionCall. ck. Qed.
Hint Resolve cm_handleBuiltinFunctionCall : cmdb.
Lemma cm_ExecuteESDTTransfer dest sender token nonce value ctype : cm 0 0 (ExecuteESDTTransfer dest sender token nonce value ctype).
Proof. intros. unfold ExecuteESDTTransfer. ck. Qed.
Hint Resolve cm_ExecuteESDTTransfer : cmdb.
Lemma cm_TransferESDT dest sender token nonce value callInput : cm 0 0 (TransferESDT dest sender token nonce value callInput).
Proof. intros. unfold TransferESDT. ck. Qed.
Hint Resolve cm_TransferESDT : cmdb.
Lemma cm_hasCode a : cm 0 0 (hasCode a).
Proof. intros. unfold hasCode. ck. Qed.
Hint Resolve cm_hasCode : cmdb.
Lemma cm_determineAsyncCallExecutionMode c : cm 0 0 (determineAsyncCallExecutionMode c).
Proof. intros. unfold determineAsyncCallExecutionMode. ck. Qed.
Hint Resolve cm_determineAsyncCallExecutionMode : cmdb.
Lemma cm_createDestinationContractCallInput c : cm 0 0 (createDestinationContractCallInput c).
Proof. intros. unfold createDestinationContractCallInput. ck. Qed.
Hint Resolve cm_createDestinationContractCallInput : cmdb.
Lemma cm_createCallbackContractCallInput c o callbackInitiator callbackFunction destinationErr : cm 0 0 (createCallbackContractCallInput c o callbackInitiator callbackFunction destinationErr).
Proof. intros. unfold createCallbackContractCallInput. ck. Qed.
Hint Resolve cm_createCallbackContractCallInput : cmdb.
Lemma cm_executeSyncDestinationCall rd c : (forall i, cm 0 0 (rd i)) -> cm 0 0 (executeSyncDestinationCall rd c).
Proof. intros. unfold executeSyncDestinationCall. ck. Qed.
Hint Resolve cm_executeSyncDestinationCall : cmdb.
Lemma cm_executeSyncCallbackCall rd c destOutput destErr : (forall i, cm 0 0 (rd i)) -> cm 0 0 (executeSyncCallbackCall rd c destOutput destErr).
Proof. intros. unfold executeSyncCallbackCall. ck. Qed.
Hint Resolve cm_executeSyncCallbackCall : cmdb.
Lemma cm_processCallbackVMOutput callbackOutput callbackErr : cm 0 0 (processCallbackVMOutput callbackOutput callbackErr).
Proof. intros. unfold processCallbackVMOutput. ck. Qed.
Hint Resolve cm_processCallbackVMOutput : cmdb.
Lemma cm_sendAsyncCallToDestination c : cm 0 0 (sendAsyncCallToDestination c).
Proof. intros. unfold sendAsyncCallToDestination. ck. Qed.
Hint Resolve cm_sendAsyncCallToDestination : cmdb.
Lemma cm_sendCallbackToCurrentCaller  : cm 0 0 (sendCallbackToCurrentCaller ).
Proof. intros. unfold sendCallbackToCurrentCaller. ck. Qed.
Hint Resolve cm_sendCallbackToCurrentCaller : cmdb.
Lemma cm_sendStorageCallbackToDestination callerAddress returnData : cm 0 0 (sendStorageCallbackToDestination callerAddress returnData).
Proof. intros. unfold sendStorageCallbackToDestination. ck. Qed.
Hint Resolve cm_sendStorageCallbackToDestination : cmdb.
Lemma cm_handleAsyncCallBreakpoint rd : (forall i, cm 0 0 (rd i)) -> cm 0 0 (handleAsyncCallBreakpoint rd).
Proof. intros. unfold handleAsyncCallBreakpoint. ck. Qed.
Hint Resolve cm_handleAsyncCallBreakpoint : cmdb.
Lemma cm_handleBreakpoint rd : (forall i, cm 0 0 (rd i)) -> cm 0 0 (handleBreakpoint rd).
Proof. intros. unfold handleBreakpoint. ck. Qed.
Hint Resolve cm_handleBreakpoint : cmdb.
Lemma cm_callFunction run rd p : (forall p, cm 0 0 (run p)) -> (forall i, cm 0 0 (rd i)) -> cm 0 0 (callFunction run rd p).
Proof. intros. unfold callFunction. ck. Qed.
Hint Resolve cm_callFunction : cmdb.
Lemma cm_callbackAsync rd set_status c o executionErr : (forall i, cm 0 0 (rd i)) -> (forall s, cm 0 0 (set_status s)) -> cm 0 0 (callbackAsync rd set_status c o executionErr).
Proof. intros. unfold callbackAsync. ck. Qed.
Hint Resolve cm_callbackAsync : cmdb.
Lemma cm_processAsyncCall rd set_status c : (forall i, cm 0 0 (rd i)) -> (forall s, cm 0 0 (set_status s)) -> cm 0 0 (processAsyncCall rd set_status c).
Proof. intros. unfold processAsyncCall. ck. Qed.
Hint Resolve cm_processAsyncCall : cmdb.
Lemma cm_savePendingAsyncCalls p : cm 0 0 (savePendingAsyncCalls p).
Proof. intros. unfold savePendingAsyncCalls. ck. Qed.
Hint Resolve cm_savePendingAsyncCalls : cmdb.
Lemma cm_set_actx_map f : cm 0 0 (set_actx_map f).
Proof. intros. unfold set_actx_map. ck. Qed.
Hint Resolve cm_set_actx_map : cmdb.
Lemma cm_processAsyncCalls rd calls : (forall i, cm 0 0 (rd i)) -> cm 0 0 (processAsyncCalls rd calls).
Proof. intros Hrd. induction calls as [|[[id i] c] cs IH]; cbn [processAsyncCalls]; [apply cm_ret|]. ck. Qed.
Hint Resolve cm_processAsyncCalls : cmdb.
Lemma cm_sendAsyncCalls calls : cm 0 0 (sendAsyncCalls calls).
Proof. induction calls as [|c cs IH]; cbn [sendAsyncCalls]; [apply cm_ret|]. ck. Qed.
Hint Resolve cm_sendAsyncCalls : cmdb.
Lemma cm_processAsyncInfo rd : (forall i, cm 0 0 (rd i)) -> cm 0 0 (processAsyncInfo rd).
Proof. intros. unfold processAsyncInfo. ck. Qed.
Hint Resolve cm_processAsyncInfo : cmdb.
Lemma cm_readAsyncCell  : cm 0 0 (readAsyncCell ).
Proof. intros. unfold readAsyncCell. ck. Qed.
Hint Resolve cm_readAsyncCell : cmdb.
Lemma cm_processCallbackStack  : cm 0 0 (processCallbackStack ).
Proof. intros. unfold processCallbackStack. ck. Qed.
Hint Resolve cm_processCallbackStack : cmdb.
Lemma cm_getFunctionByCallType ctype : cm 0 0 (getFunctionByCallType ctype).
Proof. intros. unfold getFunctionByCallType. ck. Qed.
Hint Resolve cm_getFunctionByCallType : cmdb.
Lemma cm_checkFinalGasAfterExit  : cm 0 0 (checkFinalGasAfterExit ).
Proof. intros. unfold checkFinalGasAfterExit. ck. Qed.
Hint Resolve cm_checkFinalGasAfterExit : cmdb.
Lemma cm_callInitFunction run rd : (forall p, cm 0 0 (run p)) -> (forall i, cm 0 0 (rd i)) -> cm 0 0 (callInitFunction run rd).
Proof. intros. unfold callInitFunction. ck. Qed.
Hint Resolve cm_callInitFunction : cmdb.
Lemma cm_verifyAllowedFunctionCall  : cm 0 0 (verifyAllowedFunctionCall ).
Proof. intros. unfold verifyAllowedFunctionCall. ck. Qed.
Hint Resolve cm_verifyAllowedFunctionCall : cmdb.
Lemma cm_callSCMethod run rd : (forall p, cm 0 0 (run p)) -> (forall i, cm 0 0 (rd i)) -> cm 0 0 (callSCMethod run rd).
Proof. intros. unfold callSCMethod. ck. Qed.
Hint Resolve cm_callSCMethod : cmdb.
Lemma cm_callSCMethodIndirect run rd : (forall p, cm 0 0 (run p)) -> (forall i, cm 0 0 (rd i)) -> cm 0 0 (callSCMethodIndirect run rd).
Proof. intros. unfold callSCMethodIndirect. ck. Qed.
Hint Resolve cm_callSCMethodIndirect : cmdb.
Lemma cm_map_err {A} (m : M A) f : cm 0 0 m -> cm 0 0 (map_err m f).
Proof. intros Hm. unfold map_err. ck. Qed.
Lemma cm_orOutOfGas m : cm 0 0 m -> cm 0 0 (orOutOfGas m).
Proof. intros Hm. unfold orOutOfGas. ck. Qed.
Hint Resolve cm_map_err cm_orOutOfGas : cmdb.
Lemma cm_MustVerifyNextContractCode  : cm 0 0 (MustVerifyNextContractCode ).
Proof. intros. unfold MustVerifyNextContractCode. ck. Qed.
Hint Resolve cm_MustVerifyNextContractCode : cmdb.
Lemma cm_GetGasForExecution  : cm 0 0 (GetGasForExecution ).
Proof. intros. unfold GetGasForExecution. ck. Qed.
Hint Resolve cm_GetGasForExecution : cmdb.
Lemma cm_deployContract run rd dd : (forall p, cm 0 0 (run p)) -> (forall i, cm 0 0 (rd i)) -> cm 0 0 (deployContract run rd dd).
Proof. intros. unfold deployContract. ck. Qed.
Hint Resolve cm_deployContract : cmdb.
Lemma cm_failIfReturnCodeNotOk  : cm 0 0 (failIfReturnCodeNotOk ).
Proof. intros. unfold failIfReturnCodeNotOk. ck. Qed.
Hint Resolve cm_failIfReturnCodeNotOk : cmdb.
Lemma cm_executeUpgrade run rd i : (forall p, cm 0 0 (run p)) -> (forall i, cm 0 0 (rd i)) -> cm 0 0 (executeUpgrade run rd i).
Proof. intros. unfold executeUpgrade. ck. Qed.
Hint Resolve cm_executeUpgrade : cmdb.
Lemma cm_execute run rd i : (forall p, cm 0 0 (run p)) -> (forall i, cm 0 0 (rd i)) -> cm 0 0 (execute run rd i).
Proof. intros. unfold execute. ck. Qed.
Hint Resolve cm_execute : cmdb.
Lemma cm_finishExecuteOnDestContext executeErr : cm 0 0 (finishExecuteOnDestContext executeErr).
Proof. intros. unfold finishExecuteOnDestContext. ck. Qed.
Hint Resolve cm_finishExecuteOnDestContext : cmdb.
Lemma cm_pushDest i : cm 0 0 (pushDest i).
Proof. intros. unfold pushDest. ck. Qed.
Hint Resolve cm_pushDest : cmdb.
Lemma cm_destBody run rd i : (forall p, cm 0 0 (run p)) -> (forall i, cm 0 0 (rd i)) -> cm 0 0 (destBody run rd i).
Proof. intros. unfold destBody. ck. Qed.
Hint Resolve cm_destBody : cmdb.
Lemma cm_executeOnDestContextNoBuiltinFunction run rd i : (forall p, cm 0 0 (run p)) -> (forall i, cm 0 0 (rd i)) -> cm 0 0 (executeOnDestContextNoBuiltinFunction run rd i).
Proof. intros. unfold executeOnDestContextNoBuiltinFunction. ck. Qed.
Hint Resolve cm_executeOnDestContextNoBuiltinFunction : cmdb.
Lemma cm_ExecuteOnDestContext run rd i : (forall p, cm 0 0 (run p)) -> (forall i, cm 0 0 (rd i)) -> cm 0 0 (ExecuteOnDestContext run rd i).
Proof.
  intros Hrun Hrd. unfold ExecuteOnDestContext. eapply cm_bind; [apply cm_push|intros _]. eapply cm_bind.
  { apply cm_11. ck. }
  intros [[post o]|e].
  - eapply cm_bind; [apply cm_11; destruct post; ck|]. intros [[o' info] e]. eapply cm_bind; [|intros ?; apply cm_ret].
    destruct e; [apply cm_pop_set|apply cm_pop_discard].
  - eapply cm_bind; [apply cm_pop_set|intros _]. ck.
Qed.
Hint Resolve cm_ExecuteOnDestContext : cmdb.
Lemma cm_finishExecuteOnSameContext e : cm 1 0 (finishExecuteOnSameContext e).
Proof.
  unfold finishExecuteOnSameContext. eapply cm_bind; [apply cm_11, cm_gets; rd|intros code].
  destruct (negb _ || _).
  - do 4 (eapply cm_bind; [apply cm_11; ck|intros _]). apply cm_pop_set.
  - eapply cm_bind; [apply cm_11; ck|intros o]. do 3 (eapply cm_bind; [apply cm_11; ck|intros _]).
    eapply cm_bind; [apply cm_pop_discard|intros _]. ck.
Qed.
Hint Resolve cm_finishExecuteOnSameContext : cmdb.
Lemma cm_ExecuteOnSameContext run rd i : (forall p, cm 0 0 (run p)) -> (forall i, cm 0 0 (rd i)) -> cm 0 0 (ExecuteOnSameContext run rd i).
Proof.
  intros Hrun Hrd. unfold ExecuteOnSameContext. do 3 (eapply cm_bind; [ck|intros _]). eapply cm_bind; [ck|intros cur]. cbv zeta.
  do 3 (eapply cm_bind; [ck|intros _]). eapply cm_bind; [ck|intros v]. eapply cm_bind; [apply cm_push|intros _].
  apply cm_defer; [ck|intros [?|e]|].
  - apply cm_finishExecuteOnSameContext.
  - eapply cm_bind; [apply cm_finishExecuteOnSameContext|intros _]. apply cm_fail.
  - apply cm_finishExecuteOnSameContext.
Qed.
Hint Resolve cm_ExecuteOnSameContext : cmdb.
Lemma cm_CreateNewContract ed i : (forall i, cm 0 0 (ed i)) -> cm 0 0 (CreateNewContract ed i).
Proof. intros. unfold CreateNewContract. ck. Qed.
Hint Resolve cm_CreateNewContract : cmdb.
Lemma cm_performCodeDeployment run rd dd : (forall p, cm 0 0 (run p)) -> (forall i, cm 0 0 (rd i)) -> cm 0 0 (performCodeDeployment run rd dd).
Proof. intros. unfold performCodeDeployment. ck. Qed.
Hint Resolve cm_performCodeDeployment : cmdb.
Lemma cm_orErrorOutput m : cm 0 0 m -> cm 0 0 (orErrorOutput m).
Proof. intros. unfold orErrorOutput. ck. Qed.
Lemma cm_cleaning {A} (m : M A) : cm 0 0 m -> cm 0 0 (cleaning m).
Proof. intros. unfold cleaning. ck. Qed.
Hint Resolve cm_orErrorOutput cm_cleaning : cmdb.
Lemma cm_checkGasForGetCode v : cm 0 0 (checkGasForGetCode v).
Proof. intros. unfold checkGasForGetCode. ck. Qed.
Hint Resolve cm_checkGasForGetCode : cmdb.

(** ** The imported functions *)
Section calls.
Context (ed : edf) (es : call_input -> M unit) (Hd : forall i, cm 0 0 (ed i)) (Hs : forall i, cm 0 0 (es i)).
Hint Resolve Hd Hs : cmdb.
Lemma cm_exec_dest i : cm 0 0 (exec_dest ed i).
Proof. unfold exec_dest. ck. Qed.
Hint Resolve cm_exec_dest : cmdb.
Lemma cm_SetReadOnly b : cm 0 0 (SetReadOnly b).
Proof. unfold SetReadOnly. ck. Qed.
Hint Resolve cm_SetReadOnly : cmdb.
Lemma cm_big_op f : cm 0 0 (big_op f).
Proof.
  intros h Hb Ha h' r H. unfold big_op in *. change (h_big (T h)) with (h_big h). destruct (f (h_big h)) as [m v].
  injection H as <- <-. split; [exact Hb|]. split; [reflexivity|]. cbn. lia.
Qed.
Hint Resolve cm_big_op : cmdb.
Lemma cm_esdt_execute dest token nonce value g f args : cm 0 0 (esdt_execute ed dest token nonce value g f args).
Proof.
  unfold esdt_execute. intros h Hb Ha h' r H. unfold bind at 1, gets in H. unfold bind at 1, gets. cbv zeta in *.
  change (sc_address (T h)) with (sc_address h). change (h_world (T h)) with (h_world h). rewrite indirect_T.
  revert h Hb Ha h' r H.
  match goal with |- forall h, below h -> _ -> forall h' r, ?b = _ -> _ =>
    enough (forall s i w, cm 0 0 (t <- try (TransferESDT dest s token (u64 nonce) value (Some i)) ;;
      match t with
      | inr e => WithFault e ;;; ret 1
      | inl gas =>
          if AreInSameShard s dest && e_isSC E dest then
            x <- try (exec_dest ed (set_ci_vm (set_vi_gas gas (ci_vm i)) i)) ;;
            match x with
            | inl _ => ret 0
            | inr _ => modify (set_h_world w) ;;; ret 1
            end
          else ret 0
      end)) as X by (intros h Hb Ha h' r H; exact (X _ _ _ h Hb Ha h' r H)) end.
  intros s i w. ck.
Qed.
Hint Resolve cm_esdt_execute : cmdb.
Definition plain {B} (p : prim B) : Prop := match p with QGet _ => False | _ => True end.
Lemma cm_interp {B} (p : prim B) : plain p -> cm 0 0 (interp ed es p).
Proof. destruct p; intros Hp; try contradiction; cbn [interp]; ck. Qed.

Definition cc (c : cmd) : Prop := cm 0 0 (run_cmd ed es c).
Lemma cc_ret r : cc (CRet r).
Proof. apply cm_ret. Qed.
Lemma cc_panic : cc CPanic.
Proof. apply cm_panic. Qed.
Lemma cc_do {B} (p : prim B) k : plain p -> (forall x, cc (k x)) -> cc (CDo p k).
Proof. intros Hp Hk. unfold cc. cbn [run_cmd]. eapply cm_bind; [apply cm_try, cm_interp, Hp|exact Hk]. Qed.
Lemma cc_act {B} (p : prim B) k : plain p -> (forall b, cc (k b)) -> cc (act p k).
Proof. intros Hp Hk. apply cc_do; [exact Hp|]. intros [b|]; [apply Hk|apply cc_panic]. Qed.
Lemma cc_get {B} (f : host -> B) k : (forall h, f (T h) = f h) -> (forall b, cc (k b)) -> cc (ApiModel.get f k).
Proof.
  intros Hf Hk. unfold cc, ApiModel.get, act. cbn [run_cmd interp]. eapply cm_bind; [apply cm_try, cm_gets, Hf|].
  intros [b|]; [apply Hk|apply cc_panic].
Qed.
Lemma cc_fault e r : cc (fault e r).
Proof. apply cc_act; [exact I|]. intros; apply cc_ret. Qed.
Lemma cc_or_fault {B} (p : prim B) r k : plain p -> (forall b, cc (k b)) -> cc (or_fault p r k).
Proof. intros H1 H2. apply cc_do; [exact H1|]. intros [b|]; [apply H2|apply cc_fault]. Qed.
Lemma cc_res {B} (x : res B) r k : (forall b, cc (k b)) -> cc (res_or_fault x r k).
Proof. intros H. destruct x; [apply H|apply cc_fault|apply cc_panic]. Qed.
Lemma cc_load o l r k : (forall b, cc (k b)) -> cc (load o l r k).
Proof. intros H. apply cc_get; [intros; apply mem_T|]. intros b. apply cc_res, H. Qed.
Lemma cc_store o x r k : cc k -> cc (store o x r k).
Proof. intros H. apply cc_or_fault; [exact I|]. intros _. exact H. Qed.
Lemma cc_use g k : cc k -> cc (use g k).
Proof. intros H. apply cc_act; [exact I|]. intros _. exact H. Qed.
Lemma cc_args a b c k : (forall x, cc (k x)) -> cc (get_args a b c k).
Proof. apply cc_get. intros h. rewrite cur_mem_T. reflexivity. Qed.
Lemma cc_extract v a b c x e f i r k : (forall x, cc (k x)) -> cc (extract v a b c x e f i r k).
Proof. intros H. apply cc_get; [intros h; rewrite cur_mem_T; reflexivity|]. intros y. apply cc_res. intros z. apply cc_use, H. Qed.
Lemma cc_topics ptr n : forall i acc k, (forall l, cc (k l)) -> cc (load_topics ptr n i acc k).
Proof. induction n as [|n IH]; intros i acc k Hk; [apply Hk|]. apply cc_load. intros t. apply IH, Hk. Qed.
Lemma cc_extra vs k : cc k -> cc (extra_gas vs k).
Proof. intros Hk. induction vs as [|v vs IH]; cbn [extra_gas]; [exact Hk|]. destruct (_ <? _); [apply cc_use|]; exact IH. Qed.
Ltac hd c := lazymatch c with ?f _ => hd f | _ => c end.
Ltac ca := repeat (intros;
  lazymatch goal with
  | |- cc (CRet _) => apply cc_ret
  | |- cc CPanic => apply cc_panic
  | |- cc (CDo _ _) => apply cc_do; [exact I|]
  | |- cc (act _ _) => apply cc_act; [exact I|]
  | |- cc (ApiModel.get _ _) => apply cc_get; [rd|]
  | |- cc (fault _ _) => apply cc_fault
  | |- cc (or_fault _ _ _) => apply cc_or_fault; [exact I|]
  | |- cc (res_or_fault _ _ _) => apply cc_res
  | |- cc (load _ _ _ _) => apply cc_load
  | |- cc (store _ _ _ _) => apply cc_store
  | |- cc (use _ _) => apply cc_use
  | |- cc (get_args _ _ _ _) => apply cc_args
  | |- cc (extract _ _ _ _ _ _ _ _ _ _) => apply cc_extract
  | |- cc (load_topics _ _ _ _ _) => apply cc_topics
  | |- cc (extra_gas _ _) => apply cc_extra
  | |- cc (if ?b then _ else _) => destruct b
  | |- cc (match ?b with _ => _ end) => destruct b
  | |- cc (let _ := _ in _) => cbv zeta
  | |- cc ?c => let g := hd c in unfold g
  end).
Lemma cm_api c : cm 0 0 (run_cmd ed es (api c)).
Proof. change (cc (api c)). destruct c; unfold api; ca. Qed.
Lemma cm_runner p : cm 0 0 (runner ed es p).
Proof.
  unfold runner. induction p as [| |g k IH|o l k IH|o x k IH|k IH|c k IH]; cbn [run_prog]; ck.
  all: try apply cm_api.
Qed.
End calls.
Lemma cm_vm n : (forall i, cm 0 0 (vmDest n i)) /\ (forall i, cm 0 0 (vmSame n i)).
Proof.
  unfold vmDest, vmSame. induction n as [|n [IHd IHs]]; cbn [vm fst snd]; [split; intros i; apply cm_nofuel|].
  split; intros i; [apply cm_ExecuteOnDestContext|apply cm_ExecuteOnSameContext]; auto; intros; apply cm_runner; auto.
Qed.
Lemma cm_run n p : cm 0 0 (vmRun n p).
Proof. apply cm_runner; apply cm_vm. Qed.

(** ** Transactions *)
Lemma cm_performCodeDeployment' n dd : cm 0 0 (performCodeDeployment (vmRun n) (vmDest n) dd).
Proof. pose proof (cm_run n). destruct (cm_vm n) as [Hd Hs]. unfold performCodeDeployment. ck. Qed.
Hint Resolve cm_performCodeDeployment' : cmdb.
Lemma cm_call_body n i : cm 0 0 (call_body n i).
Proof. pose proof (cm_run n). destruct (cm_vm n) as [Hd Hs]. unfold call_body. apply cm_cleaning, cm_orErrorOutput. ck. Qed.
Lemma cm_upgrade_body n i : cm 0 0 (upgrade_body n i).
Proof. unfold upgrade_body. apply cm_cleaning, cm_orErrorOutput. ck. Qed.
Lemma cm_create_body n i : cm 0 0 (create_body n i).
Proof. unfold create_body. apply cm_cleaning, cm_orErrorOutput. ck. Qed.
End comm.
