(** The states in which code starts, with regard to instances. *)
From Verif Require Import VmModel WpProofs EffProofs EffFrameProofs EffWalkProofs EffTopProofs CallSpec KeepProofs CallProofs HeapSpec HeapProofs.

Section start.
Context `{E : env}.
Notation O := once_opts.
Notation fx := (fun h => (h_insts h, h_cur h, h_ist h, h_next h, h_stoprot h)).
Definition Q (h : host) : Prop := accounted h /\ unstarted O h /\ h_stoprot h = true.
Definition P (h : host) : Prop := accounted h /\ own_instance h.

Lemma preQ {A} (m : M A) : keeps fx m -> forall h h' a, Q h -> m h = (h', OOk a) -> Q h'.
Proof.
  intros Hm h h' a (A1 & U & S) H. apply Hm in H. injection H as H1 H2 H3 H4 H5.
  split; [apply (accounted_same h); assumption|]. split; [unfold unstarted in *; rewrite H2, H3; exact U|congruence].
Qed.
Lemma preP {A} (m : M A) : keeps fx m -> forall h h' a, P h -> m h = (h', OOk a) -> P h'.
Proof.
  intros Hm h h' a (A1 & j & x & X1 & X2 & X3) H. apply Hm in H. injection H as H1 H2 H3 H4 H5.
  split; [apply (accounted_same h); assumption|]. exists j, x. rewrite H1, H2, H3. auto.
Qed.
Lemma start_new c g n h h' a : StartWasmerInstance c g n h = (h', OOk a) -> h_cur h' = Some (h_next h).
Proof.
  unfold StartWasmerInstance. rewrite bind_gets. destruct (_ <=? _)%nat; [discriminate|]. rewrite bind_gets.
  set (hash := GetCodeHash h _). clearbody hash. intros H. unfold bind at 1 in H. unfold makeInstanceFromCompiledCode in H.
  assert (Hbc : makeInstanceFromContractByteCode c hash g n h = (h', OOk a) -> h_cur h' = Some (h_next h)).
  { clear H. intros H. unfold makeInstanceFromContractByteCode in H. destruct (e_compile E c) as [m|]; [|discriminate].
    rewrite (bind_ok _ _ h (fst (new_instance m g h)) tt) in H by reflexivity. cbv zeta in H. rewrite bind_modify in H.
    destruct n; [|injection H as <- _; reflexivity].
    lazymatch type of H with _ ?hh = _ => set (h2 := hh) in H end. change (h_cur h' = h_cur h2). clearbody h2.
    unfold bind, try in H. destruct (VerifyContractCode h2) as [h3 o] eqn:Hv.
    assert (Hk : keeps h_cur VerifyContractCode) by kp. apply Hk in Hv.
    destruct o as [u|e| |]; try discriminate; [injection H as <- _; exact Hv|].
    destruct (CleanWasmerInstance h3) as [h4 [?|?| |]]; discriminate. }
  destruct (negb (e_aot E)); [exact (Hbc H)|]. destruct (_ || _); [exact (Hbc H)|].
  rewrite bind_gets in H. destruct (h_cache h !! hash) as [code2|]; [|exact (Hbc H)].
  destruct (e_compile E code2) as [m|]; [|exact (Hbc H)].
  rewrite (bind_ok _ _ h (fst (new_instance m g h)) tt) in H by reflexivity. rewrite bind_modify in H. injection H as <- _. reflexivity.
Qed.
Lemma preStart c g n h h' a : Q h -> StartWasmerInstance c g n h = (h', OOk a) -> P h'.
Proof.
  intros (A1 & U & S) H. pose proof (start_new _ _ _ _ _ _ H) as Hc.
  pose proof (walk0_Start O once_codes true c g n h h' (OOk a) (once_good h S) U H ltac:(discriminate)) as He.
  pose proof (eff_accounted _ _ _ _ He A1) as A2. split; [exact A2|].
  destruct (ac_alive _ A2 (h_next h)) as [x Hx]; [left; exact Hc|]. exists (h_next h), x. split; [exact Hc|]. split; [exact Hx|].
  rewrite (k_ist _ _ _ _ _ (eff_kept O _ _ _ _ He (accounted_wf _ A1))). intros Hi.
  pose proof (ac_given _ A1 _ (ac_alive _ A1 _ (or_intror Hi))). lia.
Qed.
Lemma preStart_err c g n f h h' a : Q h -> map_err (StartWasmerInstance c g n) f h = (h', OOk a) -> P h'.
Proof.
  intros HQ H. unfold map_err, bind, try in H. destruct (StartWasmerInstance _ _ _ h) as [h1 [[]|e| |]] eqn:Hs; try discriminate.
  injection H as <- <-. exact (preStart _ _ _ _ _ _ HQ Hs).
Qed.
Lemma preUseGas g h h' a : Q h -> UseGas g h = (h', OOk a) -> Q h'.
Proof.
  intros (A1 & U & S) H.
  pose proof (walk_UseGas O (true, true) g h h' (OOk a) (once_good h S) H ltac:(discriminate)) as He. cbn [snd pan] in He.
  split; [exact (eff_accounted _ _ _ _ He A1)|].
  assert (Hk : keeps (fun h => (h_cur h, h_ist h, h_stoprot h)) (UseGas g)) by kp.
  apply Hk in H. injection H as H1 H2 H3. split; [unfold unstarted in *; rewrite H1, H2; exact U|congruence].
Qed.

Lemma fx_deduct c b p : keeps fx (deductInitialGas c b p).
Proof. kp. Qed.
Lemma fx_deductE c : keeps fx (DeductInitialGasForExecution c).
Proof. unfold DeductInitialGasForExecution. destruct (e_aot E); apply fx_deduct. Qed.
Lemma fx_map_err {A} (m : M A) f : keeps fx m -> keeps fx (map_err m f).
Proof. intros H. unfold map_err. apply keeps_bind; [apply keeps_try, H|]. kp. Qed.

Context (rd : edf).
Lemma st_callFunction p : starts P P (fun run => callFunction run rd p).
Proof. unfold callFunction. apply starts_after, starts_run. Qed.
Lemma st_callInit : starts P P (fun run => callInitFunction run rd).
Proof.
  unfold callInitFunction. apply (starts_before P P P); [apply preP; kp|]. intros [p|]; [|apply starts_const].
  apply starts_after, st_callFunction.
Qed.
Lemma st_indirect : starts P P (fun run => callSCMethodIndirect run rd).
Proof.
  unfold callSCMethodIndirect. apply (starts_before P P P); [apply preP, keeps_try; kp|].
  intros [p|e]; [apply st_callFunction|apply starts_const].
Qed.
Lemma st_deploy d : starts Q P (fun run => deployContract run rd d).
Proof.
  unfold deployContract. apply (starts_before P Q Q).
  { apply preQ. unfold orOutOfGas, DeductInitialGasForDirectDeployment. apply keeps_bind; [apply keeps_try, fx_deduct|]. intros [u|e]; kp. }
  intros _. apply (starts_before P Q Q); [apply preQ; kp|intros _]. apply (starts_before P Q Q); [apply preQ; kp|intros g].
  apply (starts_before P Q P); [intros h h' a; apply preStart_err|]. intros _. apply starts_after, st_callInit.
Qed.
Lemma st_upgrade i : starts Q P (fun run => executeUpgrade run rd i).
Proof.
  unfold executeUpgrade. apply (starts_before P Q Q); [apply preQ; kp|intros w].
  apply (starts_before P Q Q); [apply preQ, keeps_lift|intros _].
  apply (starts_before P Q Q); [apply preQ; kp|intros [code meta]]. apply starts_after, st_deploy.
Qed.
Lemma st_execute i : starts Q P (fun run => execute run rd i).
Proof.
  unfold execute. apply (starts_before P Q Q); [apply preQ; kp|intros fn].
  apply (starts_before P Q Q); [apply preQ; kp|intros _]. apply (starts_before P Q Q); [intros h h' a; apply preUseGas|intros _].
  destruct (beq _ _); [apply st_upgrade|].
  apply (starts_before P Q Q); [apply preQ; kp|intros c].
  apply (starts_before P Q Q); [apply preQ, fx_deductE|intros _]. apply (starts_before P Q Q); [apply preQ; kp|intros g].
  apply (starts_before P Q P); [intros h h' a; apply preStart|intros _].
  apply starts_after, st_indirect.
Qed.
Lemma st_destBody i : starts Q P (fun run => destBody run rd i).
Proof.
  unfold destBody. apply starts_after, starts_try.
  apply (starts_before P Q Q); [|intros _; apply st_execute].
  destruct (_ || _); [apply preQ; kp|apply preQ; kp].
Qed.
Lemma st_callSC : starts P P (fun run => callSCMethod run rd).
Proof.
  unfold callSCMethod. apply (starts_before P P P); [apply preP; kp|intros _].
  apply (starts_before P P P); [apply preP; kp|intros c].
  apply (starts_before P P P); [apply preP, keeps_try; kp|].
  intros [[p|]|e]; [|apply starts_const..]. apply starts_after, st_callFunction.
Qed.
Lemma st_doCall v : starts Q P (fun run =>
    checkGasForGetCode v ;;;
    contract <- map_err GetSCCode (fun _ => ErrContractNotFound) ;;
    map_err (DeductInitialGasForExecution contract) (fun _ => ErrNotEnoughGas) ;;;
    g <- GetGasForExecution ;;
    map_err (StartWasmerInstance contract g false) (fun _ => ErrContractInvalid) ;;;
    callSCMethod run rd ;;;
    o <- GetVMOutput ;;
    CleanWasmerInstance ;;;
    ret o).
Proof.
  apply (starts_before P Q Q); [apply preQ; kp|intros _].
  apply (starts_before P Q Q); [apply preQ, fx_map_err; kp|intros c].
  apply (starts_before P Q Q); [apply preQ, fx_map_err, fx_deductE|intros _].
  apply (starts_before P Q Q); [apply preQ; kp|intros g].
  apply (starts_before P Q P); [intros h h' a; apply preStart_err|intros _]. apply starts_after, st_callSC.
Qed.
Lemma st_perform d : starts Q P (fun run => performCodeDeployment run rd d).
Proof. unfold performCodeDeployment. apply starts_after, st_deploy. Qed.

Lemma pushed_Q h h1 : accounted h -> h_stoprot h = true -> h_insts h1 = h_insts h -> h_cur h1 = h_cur h ->
  h_ist h1 = h_cur h :: h_ist h -> h_next h1 = h_next h -> h_stoprot h1 = true -> Q h1.
Proof.
  intros [A F G] S H1 H2 H3 H4 H5. split; [|split; [|exact H5]].
  - constructor; unfold refers; rewrite ?H1, ?H2, ?H3, ?H4; cbn [In].
    + intros j Hj. apply A. unfold refers. tauto.
    + intros j Hj. apply F in Hj. unfold refers in Hj. tauto.
    + exact G.
  - intros _. rewrite H2, H3. reflexivity.
Qed.
Lemma own_nb i h : accounted h -> h_stoprot h = true ->
  starts_only_in P (fun run => executeOnDestContextNoBuiltinFunction run rd i) h.
Proof.
  intros A S run1 run2 Hr. unfold executeOnDestContextNoBuiltinFunction. rewrite !(bind_ok _ _ _ _ _ (pushDest_eq i h)).
  unfold deferring.
  rewrite (st_destBody (unlocked (dest_input i h)) run1 run2 Hr (destPush i h)); [reflexivity|].
  apply (pushed_Q h); try reflexivity; assumption.
Qed.
Lemma own_dest i h : accounted h -> h_stoprot h = true -> starts_only_in P (fun run => ExecuteOnDestContext run rd i) h.
Proof.
  intros A S run1 run2 Hr. unfold ExecuteOnDestContext. rewrite !(bind_ok _ _ h (bcPush h) tt) by reflexivity.
  lazymatch goal with |- bind ?t _ _ = _ => set (m := t) end.
  destruct (m (bcPush h)) as [h1 o1] eqn:Hm.
  assert (K : o1 <> OFuel -> accounted h1 /\ h_stoprot h1 = true).
  { intros Ho1. unfold m in Hm. destruct (e_isBuiltin _ _); [|injection Hm as <- <-; split; [apply (accounted_same h); try reflexivity; exact A|exact S]].
    unfold bind, try in Hm. destruct (handleBuiltinFunctionCall i (bcPush h)) as [h2 o2] eqn:Hb.
    assert (h2 = h1) as -> by (destruct o2 as [[? ?]|?| |]; injection Hm as <- <-; reflexivity).
    assert (Ho2 : o2 <> OFuel) by (intros ->; injection Hm as <-; auto).
    destruct (handleBuiltin_eff O (true, true) i (bcPush h) h1 o2 (once_good (bcPush h) S) Hb Ho2) as [He _].
    split; [apply (eff_accounted _ _ _ _ He), (accounted_same h); try reflexivity; exact A|].
    assert (Hk : keeps h_stoprot (handleBuiltinFunctionCall i)) by kp. apply Hk in Hb. rewrite Hb. exact S. }
  apply (bind_cong _ _ _ _ _ _ Hm). intros [[post o]|e] ->; [|reflexivity].
  destruct (K ltac:(discriminate)) as [K1 K2].
  apply bind_head. destruct post as [p|]; [|reflexivity]. exact (own_nb p h1 K1 K2 run1 run2 Hr).
Qed.
Lemma own_same i h : accounted h -> h_stoprot h = true -> starts_only_in P (fun run => ExecuteOnSameContext run rd i) h.
Proof.
  intros A S run1 run2 Hr. destruct (e_isBuiltin E (ci_fn i)) eqn:Hbi.
  { unfold ExecuteOnSameContext. rewrite Hbi. reflexivity. }
  rewrite !(execSame_unfold _ _ i h Hbi). cbv zeta. set (j := unlocked (dest_input i h)).
  assert (Hd : (TransferValueOnly (ci_rcpt j) (vi_caller (ci_vm j)) (vi_value (ci_vm j)) false ;;; execute run1 rd j) (samePush i h)
             = (TransferValueOnly (ci_rcpt j) (vi_caller (ci_vm j)) (vi_value (ci_vm j)) false ;;; execute run2 rd j) (samePush i h)).
  { assert (Hst : starts Q P (fun run =>
      TransferValueOnly (ci_rcpt j) (vi_caller (ci_vm j)) (vi_value (ci_vm j)) false ;;; execute run rd j)).
    { apply (starts_before P Q Q); [apply preQ; kp|]. intros _. apply st_execute. }
    apply Hst; [exact Hr|]. apply (pushed_Q h); try reflexivity; assumption. }
  unfold deferring. rewrite Hd. reflexivity.
Qed.
Lemma idle_Q h : no_stacks h -> h_insts h = ∅ -> h_stoprot h = true -> Q (init0 h).
Proof.
  intros N I S. destruct (idle_init0 h N I) as [A Hi]. split; [exact A|]. split; [apply unstarted_init0, idle_unstarted, N|].
  destruct (init0_ok h) as (I0 & _). rewrite I0. exact S.
Qed.
Lemma Q_same h h' : h_cur h' = h_cur h -> h_ist h' = h_ist h -> h_insts h' = h_insts h -> h_next h' = h_next h ->
  h_stoprot h' = h_stoprot h -> Q h -> Q h'.
Proof.
  intros H1 H2 H3 H4 H5 (A & U & S). split; [apply (accounted_same h); assumption|].
  split; [unfold unstarted in *; rewrite H1, H2; exact U|congruence].
Qed.
Lemma own_call i h : no_stacks h -> h_insts h = ∅ -> h_stoprot h = true ->
  starts_only_in P (fun run => RunSmartContractCallIn run rd i) h.
Proof.
  intros N I S run1 run2 Hr. unfold RunSmartContractCallIn. pose proof (idle_Q h N I S) as HQ.
  assert (HQ0 : Q (start (call_frame i) (met0 (ci_vm i)) (ci_rcpt i) (vi_value (ci_vm i)) (init0 h)))
    by (apply (Q_same (init0 h)); try reflexivity; exact HQ).
  destruct (beq _ _).
  - rewrite !doUpgrade_eq, !(cleaning_ext _ _ _ _ (opening_run _ _ _ (init0_rt _))). apply cleaning_ext.
    assert (Hst : starts Q P (fun run =>
      '(code, meta) <- ExtractCodeUpgradeFromArgs ;;
      performCodeDeployment run rd (mkDeploy code meta (ci_rcpt i) (vi_caller (ci_vm i))))).
    { apply (starts_before P Q Q); [apply preQ; kp|intros [code meta]]. apply st_perform. }
    apply Hst; [exact Hr|exact HQ0].
  - rewrite !doCall_eq, !(cleaning_ext _ _ _ _ (opening_run _ _ _ (init0_rt _))). apply cleaning_ext.
    apply (st_doCall _ run1 run2 Hr _ HQ0).
Qed.
Lemma own_create i h : no_stacks h -> h_insts h = ∅ -> h_stoprot h = true ->
  starts_only_in P (fun run => doRunSmartContractCreate run rd i) h.
Proof.
  intros N I S run1 run2 Hr. rewrite !doCreate_eq. pose proof (idle_Q h N I S) as HQ. pose proof (init0_rt h) as Hrt.
  revert HQ Hrt. generalize (init0 h). intros h0 HQ Hrt.
  destruct (NewAddress (vi_caller (cc_vm i)) h0) as [h1 o] eqn:Hn.
  pose proof (k_NewAddress _ _ _ _ Hn) as Hk. injection Hk as K1 K2 K3.
  assert (Hk2 : keeps fx (NewAddress (vi_caller (cc_vm i)))) by kp. pose proof (Hk2 _ _ _ Hn) as Hx. injection Hx as X1 X2 X3 X4 X5.
  destruct o as [a|e| |]; try (apply cleaning_ext; unfold bind; rewrite Hn; reflexivity).
  rewrite !(create_ext _ _ _ _ _ _ Hn (eq_trans K3 Hrt)). apply cleaning_ext.
  apply (st_perform _ run1 run2 Hr). apply (Q_same h0); try assumption.
Qed.
End start.
