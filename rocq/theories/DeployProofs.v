(** Proofs about deployments and the code that is started. *)
From Verif Require Import MathProofs VmModel WpProofs EffProofs EffFrameProofs EffWalkProofs EffTopProofs CallSpec KeepProofs CallProofs
  CallDataProofs OutProofs GasAsyncProofs ClassProofs CodeSpec IdentProofs DeploySpec.
From Coq Require Import ZifyBool ZifyNat ZifyN.

Section deploy.
Context `{E : env} (HE : env_ok E).

Lemma verify_well_formed m : verifyModule m = ROk tt -> well_formed m.
Proof.
  unfold verifyModule. destruct (wm_hasmem m) eqn:Hm; [|discriminate]. cbn [negb].
  destruct (verifyFunctions m) as [[]| |] eqn:Hv; try discriminate. intros _. split; [exact Hm|].
  apply (verifyFunctions_spec m HE) in Hv. rewrite List.Forall_forall in Hv. intros name p Hin.
  destruct (Hv name (in_map fst _ _ Hin)) as [H1 H2]. split; [|exact H2]. apply valid_name_spec, H1.
Qed.

(** * Starting new code *)
Definition runs_new (code : bytes) (hs : host) : Prop :=
  exists m, e_compile E code = Some m /\ well_formed m /\ running_module hs = Some m.

Lemma cur_inst_mod h h' p : cur_inst h = (h', OOk p) -> h' = h /\ running_module h = Some (in_mod (snd p)).
Proof.
  unfold cur_inst, running_module. destruct (h_cur h); [|discriminate]. destruct (h_insts h !! _); [|discriminate].
  intros [= <- <-]. split; reflexivity.
Qed.
Lemma Start_new code g h h' : h_verify h = true -> StartWasmerInstance code g true h = (h', OOk tt) -> runs_new code h'.
Proof.
  intros Hv H. unfold StartWasmerInstance in H. rewrite bind_gets in H. destruct (_ <=? _)%nat.
  { rewrite bind_modify in H. discriminate H. }
  rewrite bind_gets in H.
  assert (Hc : forall hash, makeInstanceFromCompiledCode hash g true h = (h, OOk false)).
  { intros hash. unfold makeInstanceFromCompiledCode. destruct (negb _); reflexivity. }
  rewrite (bind_ok _ _ _ _ _ (Hc _)) in H. unfold makeInstanceFromContractByteCode in H.
  destruct (e_compile E code) as [m|] eqn:Hm; [|rewrite bind_modify in H; discriminate H].
  apply ok_bind in H as (h1 & [] & H1 & H). cbv zeta in H. rewrite bind_modify in H.
  apply ok_bind in H as (h2 & r & H2 & H). unfold try in H2.
  destruct (VerifyContractCode _) as [h3 o] eqn:Hvc.
  destruct o as [[]|e| |]; try discriminate H2; injection H2 as <- <-.
  2:{ apply ok_bind in H as (h4 & [] & _ & H). discriminate H. }
  injection H as <-. unfold VerifyContractCode in Hvc. rewrite bind_gets in Hvc.
  assert (Hv1 : h_verify (set_h_cache (<[e_sha256 E code := code]> (h_cache h1)) h1) = true).
  { injection H1 as <-. exact Hv. }
  cbn [orb] in Hvc. rewrite Hv1 in Hvc. cbn [negb] in Hvc. rewrite bind_modify in Hvc.
  apply ok_bind in Hvc as (h4 & [c x] & Hci & Hvc). apply cur_inst_mod in Hci as [-> Hrm]. cbn [snd] in Hrm.
  assert (Hx : running_module h1 = Some (in_mod x)) by exact Hrm.
  assert (Hmm : in_mod x = m).
  { injection H1 as <-. unfold running_module in Hx. cbn in Hx. rewrite lookup_insert in Hx. cbn in Hx. congruence. }
  exists m. split; [exact Hm|]. unfold lift in Hvc. destruct (verifyModule (in_mod x)) as [[]| |] eqn:Hvm; try discriminate Hvc.
  injection Hvc as <-. split; [apply verify_well_formed; rewrite <-Hmm; exact Hvm|]. rewrite <-Hmm. exact Hrm.
Qed.
Lemma map_err_inv {A} (m : M A) f h h' a : map_err m f h = (h', OOk a) -> m h = (h', OOk a).
Proof.
  unfold map_err. intros H. apply ok_bind in H as (h1 & r & H1 & H). unfold try in H1. destruct (m h) as [h2 o].
  destruct o; try discriminate H1; injection H1 as <- <-; try discriminate H. injection H as <- <-. reflexivity.
Qed.

Context (rd : edf).
Definition verifies (h : host) : Prop := h_verify h = true.
Lemma any_before {A} (Q' : host -> Prop) (m : M A) : (forall h h' a, m h = (h', OOk a) -> Q' h') -> forall h h' a, True -> m h = (h', OOk a) -> Q' h'.
Proof. intros H h h' a _. apply H. Qed.
Lemma GetInit_same h h' a : GetInitFunction h = (h', OOk a) -> h' = h.
Proof. unfold GetInitFunction. intros H. apply ok_bind in H as (h1 & [c x] & H1 & H). apply cur_inst_mod in H1 as [-> _]. injection H as <- _. reflexivity. Qed.
Lemma GetFunction_same h h' a : GetFunctionToCall h = (h', OOk a) -> h' = h.
Proof.
  unfold GetFunctionToCall. intros H. apply ok_bind in H as (h1 & [c x] & H1 & H). apply cur_inst_mod in H1 as [-> _].
  rewrite bind_gets in H. destruct (export _ _); [injection H as <- _; reflexivity|]. destruct (beq _ _); discriminate H.
Qed.
Lemma wf_init P : starts P P (fun run => callInitFunction run rd).
Proof.
  unfold callInitFunction. apply (starts_before _ _ P); [intros h h' a HP H; apply GetInit_same in H as ->; exact HP|].
  intros [p|]; [|apply starts_const]. apply starts_after. unfold callFunction. apply starts_after, starts_run.
Qed.
(** where a deployment starts code: only in the verified new module *)
Lemma wf_deploy d : starts (fun _ => True) (runs_new (di_code d)) (fun run => deployContract run rd d).
Proof.
  unfold deployContract. apply (starts_before _ _ (fun _ => True)); [intros; exact I|intros _].
  apply (starts_before _ _ verifies).
  { intros h h' [] _ H. unfold MustVerifyNextContractCode in H. injection H as <-. reflexivity. }
  intros _. apply (starts_before _ _ verifies).
  { intros h h' a HP H. unfold GetGasForExecution in H. injection H as <- _. exact HP. }
  intros g. apply (starts_before _ _ (runs_new (di_code d))).
  - intros h h' [] Hv H. apply map_err_inv in H. exact (Start_new _ _ _ _ Hv H).
  - intros _. apply starts_after, wf_init.
Qed.
Lemma deploy_ok run d h h' : deployContract run rd d h = (h', OOk tt) -> deployable (di_code d).
Proof.
  unfold deployContract. intros H. apply ok_bind in H as (h1 & [] & _ & H). unfold MustVerifyNextContractCode in H.
  rewrite bind_modify in H. unfold GetGasForExecution in H. rewrite bind_gets in H.
  apply ok_bind in H as (h2 & [] & H2 & _). apply map_err_inv in H2.
  destruct (Start_new _ _ (set_h_verify true h1) _ eq_refl H2) as (m & H3 & H4 & _). exists m. split; assumption.
Qed.

(** ** Transactions *)
Lemma starts_here {A} (P : host -> Prop) (m : (prog -> M bool) -> M A) h : starts (fun _ => True) P m -> starts_only_in P m h.
Proof. intros H run1 run2 Hr. apply (H run1 run2 Hr h I). Qed.

Lemma wf_perform d : starts (fun _ => True) (runs_new (di_code d)) (fun run => performCodeDeployment run rd d).
Proof. unfold performCodeDeployment. apply starts_after, wf_deploy. Qed.
Lemma create_starts i h : starts_only_in (runs_new (cc_code i)) (fun run => doRunSmartContractCreate run rd i) h.
Proof.
  intros run1 run2 Hr. rewrite !doCreate_eq. apply cleaning_ext.
  pose proof (init0_rt h) as Hrt. revert Hrt. generalize (init0 h). intros h0 Hrt.
  destruct (NewAddress (vi_caller (cc_vm i)) h0) as [h1 o] eqn:Hn.
  pose proof (k_NewAddress _ _ _ _ Hn) as Hk. injection Hk as K1 K2 K3.
  destruct o as [a|e| |]; try (unfold bind; rewrite Hn; reflexivity).
  rewrite !(bind_ok _ _ _ _ _ Hn), !(opening_create_run _ _ _ _ (eq_trans K3 Hrt)).
  exact (starts_here _ _ _ (wf_perform (mkDeploy (cc_code i) (cc_meta i) a (vi_caller (cc_vm i)))) run1 run2 Hr).
Qed.
Definition code_arg (args : list bytes) : bytes := default [] (args !! 0%nat).
Lemma Extract_ok h h' c m : ExtractCodeUpgradeFromArgs h = (h', OOk (c, m)) -> vi_args (r_input (h_rt h)) !! 0%nat = Some c.
Proof.
  unfold ExtractCodeUpgradeFromArgs. rewrite bind_gets. destruct (vi_args _) as [|c' [|m' l]]; [discriminate..|].
  intros [= _ <- <-]. reflexivity.
Qed.
Lemma upgrade_starts i h : ci_fn i = UpgradeFunctionName ->
  starts_only_in (fun hs => exists code, vi_args (ci_vm i) !! 0%nat = Some code /\ runs_new code hs) (fun run => RunSmartContractCallIn run rd i) h.
Proof.
  intros Hf. unfold RunSmartContractCallIn. rewrite Hf. unfold beq. rewrite bool_decide_true by reflexivity.
  intros run1 run2 Hr. rewrite !doUpgrade_eq. apply cleaning_ext. rewrite !(opening_run _ _ _ (init0_rt _)).
  set (h0 := start _ _ _ _ _). assert (Ha : vi_args (r_input (h_rt h0)) = vi_args (ci_vm i)) by reflexivity. clearbody h0.
  unfold bind. destruct (ExtractCodeUpgradeFromArgs h0) as [h1 [[c m]|e| |]] eqn:He; try reflexivity.
  apply Extract_ok in He. rewrite Ha in He.
  apply (starts_here _ _ h1 (wf_perform (mkDeploy c m (ci_rcpt i) (vi_caller (ci_vm i)))) run1 run2).
  intros p hs Hs. apply Hr. exists c. split; assumption.
Qed.

Lemma clean_out_ok (m : M vm_output) h h' o : cleaning (orErrorOutput m) h = (h', OOk o) ->
  (exists h1, m h = (h1, OOk o)) \/ exists h1 h2 e, m h = (h1, OErr e) /\ CreateVMOutputInCaseOfError e h1 = (h2, OOk o).
Proof.
  unfold cleaning, deferring, orErrorOutput. unfold bind at 1, try. destruct (m h) as [h1 [a|e| |]] eqn:Hm.
  - intros H. cbn in H. apply ok_bind in H as (h2 & [] & _ & H). injection H as <- <-. left. eauto.
  - destruct (CreateVMOutputInCaseOfError e h1) as [h2 [a|e'| |]] eqn:Hc; intros H.
    + cbn in H. apply ok_bind in H as (h3 & [] & _ & H). injection H as <- <-. right. eauto 6.
    + apply ok_bind in H as (h3 & [] & _ & H). discriminate H.
    + destruct (CleanWasmerInstance h2) as [h3 []]; discriminate H.
    + discriminate H.
  - destruct (CleanWasmerInstance h1) as [h3 []]; discriminate.
  - discriminate.
Qed.
End deploy.

Section txs.
Context `{E : env} (HE : env_ok E).
Lemma error_not_ok e h h' o : CreateVMOutputInCaseOfError e h = (h', OOk o) -> o_code o <> RcOk.
Proof. intros H. exact (CreateErr_code _ _ _ _ H). Qed.
Lemma create_deployable n i h h' o : RunSmartContractCreate n i h = (h', OOk o) -> o_code o = RcOk -> deployable (cc_code i).
Proof.
  rewrite create_unfold, doCreate_eq. intros H Hok. apply clean_out_ok in H as [(h1 & H)|(h1 & h2 & e & _ & H)].
  2:{ destruct (error_not_ok _ _ _ _ H Hok). }
  apply ok_bind in H as (h2 & a & Hn & H).
  pose proof (k_NewAddress _ _ _ _ Hn) as Hk. injection Hk as K1 K2 K3.
  rewrite opening_create_run in H by (rewrite K3; apply init0_rt).
  unfold performCodeDeployment in H. apply ok_bind in H as (h3 & [] & H & _). exact (deploy_ok HE _ _ (mkDeploy _ _ _ _) _ _ H).
Qed.
Lemma upgrade_deployable n i h h' o : ci_fn i = UpgradeFunctionName -> RunSmartContractCall n i h = (h', OOk o) -> o_code o = RcOk ->
  exists code, vi_args (ci_vm i) !! 0%nat = Some code /\ deployable code.
Proof.
  intros Hf. unfold RunSmartContractCall, RunSmartContractCallIn. rewrite Hf. unfold beq. rewrite bool_decide_true by reflexivity.
  rewrite doUpgrade_eq. intros H Hok. apply clean_out_ok in H as [(h1 & H)|(h1 & h2 & e & _ & H)].
  2:{ destruct (error_not_ok _ _ _ _ H Hok). }
  rewrite (opening_run _ _ _ (init0_rt _)) in H. apply ok_bind in H as (h2 & [c m] & He & H).
  apply Extract_ok in He. exists c. split; [exact He|].
  unfold performCodeDeployment in H. apply ok_bind in H as (h3 & [] & H & _). exact (deploy_ok HE _ _ (mkDeploy _ _ _ _) _ _ H).
Qed.
End txs.

(** * Upgrades by contracts *)
From Verif Require Import OutSpec GasSpec InitProofs.
Section up.
Context `{E : env} (HE : env_ok E).
Lemma upgradeable_iff m : meta_upgradeable m = true <-> upgradeable m.
Proof.
  unfold meta_upgradeable, meta_bit, upgradeable. split.
  - destruct m as [|b [|c [|? ?]]]; try discriminate. cbn. intros H. exists b, c. split; [reflexivity|exact H].
  - intros (b & c & -> & H). cbn. exact H.
Qed.
Lemma permission_iff w i : checkUpgradePermission w i = ROk tt <-> may_upgrade w (ci_rcpt i) (vi_caller (ci_vm i)).
Proof.
  unfold checkUpgradePermission, GetUserAccount, may_upgrade, beq.
  destruct (w_accounts w !! ci_rcpt i) as [u|].
  - cbn [mbind res_bind]. destruct (meta_upgradeable (ua_meta u)) eqn:Hm.
    + cbn [andb]. case_bool_decide as Ho; split; try discriminate.
      * intros _. exists u. split; [reflexivity|]. split; [apply upgradeable_iff, Hm|congruence].
      * reflexivity.
      * intros (u' & [= <-] & _ & Hu). congruence.
    + cbn [andb]. split; [discriminate|]. intros (u' & [= <-] & Hu & _). apply upgradeable_iff in Hu. congruence.
  - destruct (e_missing_err E); cbn [mbind res_bind]; (split; [discriminate|]); intros (u & Hu & _); discriminate Hu.
Qed.

Notation fu := (fun h : host => (List.filter is_run (h_trace h), h_codeupd h, h_world h)).
Notation fc := (fun h : host => (List.filter is_run (h_trace h), h_codeupd h)).
Hint Extern 1 (keeps _ (GetOutputAccount _)) => apply keeps_GetOutputAccount; reflexivity : keeps.
Lemma u_Transfer d s v c : keeps fu (TransferValueOnly d s v c).
Proof. kp. Qed.
Lemma u_Clean : keeps fc CleanWasmerInstance.
Proof. intros h h' r H. unfold CleanWasmerInstance in H. destruct (h_cur h); injection H as <- <-; reflexivity. Qed.
Lemma u_popInst : keeps fc popInstance.
Proof.
  intros h h' r H. unfold popInstance in H. destruct (h_ist h) as [|o l]; [injection H as <- <-; reflexivity|].
  destruct (bool_decide _); [injection H as <- <-; reflexivity|].
  assert (K : keeps fc (CleanWasmerInstance;;; modify (set_h_cur o))) by (apply keeps_bind; [exact u_Clean|intros; apply keeps_modify; reflexivity]).
  exact (K _ _ _ H).
Qed.
Lemma u_popRt : keeps fc runtime_PopSetActiveState.
Proof. intros h h' r H. unfold runtime_PopSetActiveState in H. destruct (h_rtst h); [injection H as <- <-; reflexivity|]. exact (u_popInst _ _ _ H). Qed.
Lemma u_CreateErr e : keeps fc (CreateVMOutputInCaseOfError e).
Proof. kp. Qed.
Lemma u_GetVMOutput : keeps fc GetVMOutput.
Proof. kp. Qed.
Lemma u_bcpop : keeps fc blockchain_PopSetActiveState.
Proof. apply keeps_modify. intros h. destruct (h_bcst h); reflexivity. Qed.
Hint Resolve u_Clean u_popRt u_CreateErr u_GetVMOutput u_bcpop : keeps.
Lemma u_finish e : keeps fc (finishExecuteOnDestContext e).
Proof. kp; cbv zeta; repeat case_match; reflexivity. Qed.
Lemma u_finishSame e : keeps fc (finishExecuteOnSameContext e).
Proof. kp; cbv zeta; repeat case_match; reflexivity. Qed.

(** ** Where an upgrade starts code *)
Lemma k_world_use g : keeps h_world (UseGas g).
Proof. kp. Qed.
Lemma k_args_use g : keeps (fun h => vi_args (r_input (h_rt h))) (UseGas g).
Proof. kp. Qed.
Definition upgrade_state (w : world) (i : call_input) (args : list bytes) (hs : host) : Prop :=
  may_upgrade w (ci_rcpt i) (vi_caller (ci_vm i)) /\ exists code, args !! 0%nat = Some code /\ runs_new code hs.
Lemma up_execute rd i w args : ci_fn i = UpgradeFunctionName ->
  starts (fun h => h_world h = w /\ vi_args (r_input (h_rt h)) = args) (upgrade_state w i args) (fun run => execute run rd i).
Proof.
  intros Hf. set (Q := fun h => h_world h = w /\ vi_args (r_input (h_rt h)) = args).
  assert (pre : forall {A} (m : M A), keeps (fun h => (h_world h, vi_args (r_input (h_rt h)))) m -> forall h h' a, Q h -> m h = (h', OOk a) -> Q h').
  { intros A m Hm h h' a [Q1 Q2] H. apply Hm in H. injection H as K1 K2. split; congruence. }
  unfold execute. apply (starts_before _ _ Q); [apply pre; kp|intros fn].
  apply (starts_before _ _ Q); [apply pre; kp|intros _]. apply (starts_before _ _ Q); [apply pre; kp|intros _].
  rewrite Hf. unfold beq. rewrite bool_decide_true by reflexivity. unfold executeUpgrade.
  intros run1 run2 Hr h [Q1 Q2]. rewrite !bind_gets, Q1. unfold bind at 1 4. unfold lift.
  destruct (checkUpgradePermission w i) as [[]| |] eqn:Hp; [|reflexivity..]. apply permission_iff in Hp.
  unfold bind. destruct (ExtractCodeUpgradeFromArgs h) as [h1 [[c m]|e| |]] eqn:He; try reflexivity.
  apply Extract_ok in He. rewrite Q2 in He.
  assert (Hd : deployContract run1 rd (mkDeploy c m (ci_rcpt i) (vi_caller (ci_vm i))) h1 =
               deployContract run2 rd (mkDeploy c m (ci_rcpt i) (vi_caller (ci_vm i))) h1).
  { apply (wf_deploy HE rd (mkDeploy c m (ci_rcpt i) (vi_caller (ci_vm i))) run1 run2); [|exact I].
    intros p hs Hs. apply Hr. split; [exact Hp|]. exists c. split; assumption. }
  rewrite Hd. reflexivity.
Qed.
Lemma unl i h : ci_fn (unlocked (dest_input i h)) = ci_fn i /\ ci_rcpt (unlocked (dest_input i h)) = ci_rcpt i /\
  vi_caller (ci_vm (unlocked (dest_input i h))) = vi_caller (ci_vm i) /\ vi_args (r_input (dest_frame i h)) = vi_args (ci_vm i).
Proof.
  destruct (copyTx_same (r_input (h_rt h)) i) as (R1 & R2 & R3 & R4 & R5 & R6 & R7 & _ & _ & R8).
  repeat split; try assumption. unfold unlocked, dest_input. cbn [ci_vm set_ci_vm].
  unfold unlockGasIfAsyncCallback. destruct (bool_decide _); exact R4.
Qed.
End up.

Section up2.
Context `{E : env} (HE : env_ok E).
Notation fu := (fun h : host => (List.filter is_run (h_trace h), h_codeupd h, h_world h)).
Notation fc := (fun h : host => (List.filter is_run (h_trace h), h_codeupd h)).
Notation fwa := (fun h : host => (h_world h, vi_args (r_input (h_rt h)))).
Lemma wa_Transfer d s v c : keeps fwa (TransferValueOnly d s v c).
Proof. kp. Qed.
Lemma wa_UseGas g : keeps fwa (UseGas g).
Proof. kp. Qed.
Lemma u_UseGas g : keeps fu (UseGas g).
Proof. kp. Qed.
Lemma wa_pre {A} (m : M A) w args : keeps fwa m -> forall h h' a, (h_world h = w /\ vi_args (r_input (h_rt h)) = args) -> m h = (h', OOk a) ->
  h_world h' = w /\ vi_args (r_input (h_rt h')) = args.
Proof. intros Hm h h' a [Q1 Q2] H. apply Hm in H. injection H as K1 K2. split; congruence. Qed.

Lemma nb_upgrade_starts rd i h : ci_fn i = UpgradeFunctionName ->
  starts_only_in (upgrade_state (h_world h) i (vi_args (ci_vm i))) (fun run => executeOnDestContextNoBuiltinFunction run rd i) h.
Proof.
  intros Hf run1 run2 Hr. unfold executeOnDestContextNoBuiltinFunction. rewrite !(bind_ok _ _ _ _ _ (pushDest_eq i h)).
  destruct (unl i h) as (U1 & U2 & U3 & U4). unfold deferring.
  assert (Hst : starts (fun hs => h_world hs = h_world h /\ vi_args (r_input (h_rt hs)) = vi_args (ci_vm i))
    (upgrade_state (h_world h) i (vi_args (ci_vm i))) (fun run => destBody run rd (unlocked (dest_input i h)))).
  { unfold destBody. apply starts_after, starts_try. eapply starts_before; [|intros _].
    2:{ pose proof (up_execute HE rd (unlocked (dest_input i h)) (h_world h) (vi_args (ci_vm i)) (eq_trans U1 Hf)) as K.
        unfold upgrade_state in *. rewrite U2, U3 in K. exact K. }
    destruct (_ || _); apply wa_pre; [apply wa_Transfer|kp]. }
  rewrite (Hst run1 run2 Hr (destPush i h)); [reflexivity|]. split; [reflexivity|exact U4].
Qed.
Lemma dest_upgrade_starts rd i h : e_isBuiltin E (ci_fn i) = false -> ci_fn i = UpgradeFunctionName ->
  starts_only_in (upgrade_state (h_world h) i (vi_args (ci_vm i))) (fun run => ExecuteOnDestContext run rd i) h.
Proof.
  intros Hb Hf run1 run2 Hr. unfold ExecuteOnDestContext. rewrite !(bind_ok _ _ h (bcPush h) tt) by reflexivity.
  rewrite Hb. rewrite !bind_ret. apply bind_head. exact (nb_upgrade_starts rd i (bcPush h) Hf run1 run2 Hr).
Qed.
Lemma same_upgrade_starts rd i h : ci_fn i = UpgradeFunctionName ->
  starts_only_in (upgrade_state (h_world h) i (vi_args (ci_vm i))) (fun run => ExecuteOnSameContext run rd i) h.
Proof.
  intros Hf run1 run2 Hr. destruct (e_isBuiltin E (ci_fn i)) eqn:Hbi.
  { unfold ExecuteOnSameContext. rewrite Hbi. reflexivity. }
  rewrite !(execSame_unfold _ _ i h Hbi). cbv zeta. destruct (unl i h) as (U1 & U2 & U3 & U4). set (j := unlocked (dest_input i h)) in *.
  assert (Hst : starts (fun hs => h_world hs = h_world h /\ vi_args (r_input (h_rt hs)) = vi_args (ci_vm i))
    (upgrade_state (h_world h) i (vi_args (ci_vm i))) (fun run =>
      TransferValueOnly (ci_rcpt j) (vi_caller (ci_vm j)) (vi_value (ci_vm j)) false ;;; execute run rd j)).
  { eapply starts_before; [|intros _].
    2:{ pose proof (up_execute HE rd j (h_world h) (vi_args (ci_vm i)) (eq_trans U1 Hf)) as K.
        unfold upgrade_state in *. rewrite U2, U3 in K. exact K. }
    apply wa_pre, wa_Transfer. }
  unfold deferring. rewrite (Hst run1 run2 Hr (samePush i h)); [reflexivity|]. split; [reflexivity|exact U4].
Qed.

(** ** Results of upgrades *)
Lemma execute_upgrade_ok run rd i h h' : ci_fn i = UpgradeFunctionName -> execute run rd i h = (h', OOk tt) ->
  may_upgrade (h_world h) (ci_rcpt i) (vi_caller (ci_vm i)) /\
  exists code, vi_args (r_input (h_rt h)) !! 0%nat = Some code /\ deployable code.
Proof.
  intros Hf H. unfold execute in H. rewrite bind_gets in H. apply ok_bind in H as (h1 & [] & H1 & H).
  assert (h1 = h) as -> by (unfold fail_if in H1; destruct (_ && _); [discriminate H1|injection H1 as <-; reflexivity]).
  apply ok_bind in H as (h2 & [] & H2 & H). pose proof (wa_UseGas _ _ _ _ H2) as Hk.
  injection Hk as K1 K2. rewrite Hf in H. unfold beq in H. rewrite bool_decide_true in H by reflexivity.
  unfold executeUpgrade in H. rewrite bind_gets in H. apply ok_bind in H as (h3 & [] & H3 & H).
  unfold lift in H3. destruct (checkUpgradePermission (h_world h2) i) as [[]| |] eqn:Hp; try discriminate H3. injection H3 as <-.
  apply permission_iff in Hp. rewrite K1 in Hp. split; [exact Hp|].
  apply ok_bind in H as (h4 & [c m] & H4 & H). apply Extract_ok in H4. rewrite K2 in H4. exists c. split; [exact H4|].
  apply ok_bind in H as (h5 & [] & H5 & _). exact (deploy_ok HE _ _ (mkDeploy _ _ _ _) _ _ H5).
Qed.
Lemma body_ok run rd i h hb info : destBody run rd i h = (hb, OOk (info, None)) ->
  exists h0 h1, execute run rd i h0 = (h1, OOk tt) /\ h_world h0 = h_world h /\ vi_args (r_input (h_rt h0)) = vi_args (r_input (h_rt h)).
Proof.
  intros H. unfold destBody in H. apply ok_bind in H as (h2 & r & H2 & H). unfold try in H2.
  destruct (bind _ _ h) as [h3 o3] eqn:Hx. destruct o3 as [[]|e| |]; try discriminate H2; injection H2 as <- <-; [|discriminate H].
  apply ok_bind in Hx as (h4 & [] & H4 & Hx). exists h4, h3. split; [exact Hx|].
  assert (Hk : forall tr : M unit, keeps fwa tr -> tr h = (h4, OOk tt) -> h_world h4 = h_world h /\ vi_args (r_input (h_rt h4)) = vi_args (r_input (h_rt h))).
  { intros tr Ht H0. apply Ht in H0. injection H0 as K1 K2. split; assumption. }
  eapply Hk; [|exact H4]. destruct (_ || _); [apply wa_Transfer|kp].
Qed.
Lemma dest_upgrade_ok n i h h' o info : host_ok h -> e_isBuiltin E (ci_fn i) = false -> ci_fn i = UpgradeFunctionName ->
  vmDest n i h = (h', OOk (o, info, None)) ->
  may_upgrade (h_world h) (ci_rcpt i) (vi_caller (ci_vm i)) /\ exists code, vi_args (ci_vm i) !! 0%nat = Some code /\ deployable code.
Proof.
  intros [Hs _] Hb Hf H. destruct (plain_dest_ok n i h h' o info None Hb H) as (n' & h2 & Hx & _).
  destruct (nb_shape n' i (bcPush h) h2 _ Hs Hx ltac:(discriminate)) as (hb & bo & h1 & o1 & Hbo & Hbf & Hco & _ & _ & ro & Hro & Hres).
  destruct Hres as [(-> & x & Hdr & Hxe)|[Hxe _]]; [|discriminate Hxe]. injection Hxe as <-.
  destruct bo as [[info' [e|]]|e| |]; try discriminate Hdr.
  apply body_ok in Hbo as (h3 & h4 & Hex & W & A). destruct (unl i (bcPush h)) as (U1 & U2 & U3 & U4).
  apply execute_upgrade_ok in Hex; [|rewrite U1; exact Hf]. rewrite U2, U3, W, A in Hex.
  change (vi_args (r_input (h_rt (destPush i (bcPush h))))) with (vi_args (r_input (dest_frame i (bcPush h)))) in Hex. rewrite U4 in Hex. exact Hex.
Qed.
Lemma same_upgrade_ok n i h h' : ci_fn i = UpgradeFunctionName -> vmSame n i h = (h', OOk tt) ->
  may_upgrade (h_world h) (ci_rcpt i) (vi_caller (ci_vm i)) /\ exists code, vi_args (ci_vm i) !! 0%nat = Some code /\ deployable code.
Proof.
  intros Hf H. destruct n as [|n]; [discriminate H|].
  change (vmSame (S n) i h) with (ExecuteOnSameContext (vmRun n) (vmDest n) i h) in H.
  destruct (e_isBuiltin E (ci_fn i)) eqn:Hb.
  { unfold ExecuteOnSameContext in H. rewrite Hb in H. discriminate H. }
  rewrite (execSame_unfold _ _ i h Hb) in H. cbv zeta in H. destruct (unl i h) as (U1 & U2 & U3 & U4).
  set (j := unlocked (dest_input i h)) in *. unfold deferring in H.
  destruct (bind _ _ (samePush i h)) as [h3 o3] eqn:Hx. destruct o3 as [[]|e| |].
  - apply ok_bind in Hx as (h4 & [] & H4 & Hx). apply execute_upgrade_ok in Hx; [|congruence].
    apply wa_Transfer in H4. injection H4 as K1 K2.
    assert (A : vi_args (r_input (h_rt h4)) = vi_args (ci_vm i)) by (etransitivity; [exact K2|exact U4]).
    rewrite K1, A, U2, U3 in Hx. exact Hx.
  - unfold bind in H. destruct (finishExecuteOnSameContext (Some e) h3) as [h5 []]; discriminate H.
  - destruct (finishExecuteOnSameContext None h3) as [h5 []]; discriminate H.
  - discriminate H.
Qed.

(** ** Refused upgrades *)
Lemma execute_refused run rd i h h' o : ci_fn i = UpgradeFunctionName -> ~ may_upgrade (h_world h) (ci_rcpt i) (vi_caller (ci_vm i)) ->
  execute run rd i h = (h', o) -> fc h' = fc h /\ ((exists e, o = OErr e) \/ o = OPanic \/ o = OFuel).
Proof.
  intros Hf Hm H. unfold execute in H. rewrite bind_gets in H. unfold bind at 1, fail_if at 1 in H.
  destruct (_ && _); [injection H as <- <-; eauto|]. cbn [ret] in H. unfold bind at 1 in H.
  destruct (UseGas _ h) as [h2 o2] eqn:H2. pose proof (u_UseGas _ _ _ _ H2) as Hk.
  injection Hk as K1 K2 K3. assert (Hc : fc h2 = fc h) by (cbn beta; congruence).
  destruct o2; [|injection H as <- <-; split; [exact Hc|eauto]..].
  rewrite Hf in H. unfold beq in H. rewrite bool_decide_true in H by reflexivity.
  unfold executeUpgrade in H. rewrite bind_gets, K3 in H. unfold bind at 1, lift in H.
  destruct (checkUpgradePermission (h_world h) i) as [[]| |] eqn:Hp.
  - apply permission_iff in Hp. contradiction.
  - injection H as <- <-. eauto.
  - injection H as <- <-. eauto.
Qed.
Lemma body_refused run rd i h hb bo : ci_fn i = UpgradeFunctionName -> ~ may_upgrade (h_world h) (ci_rcpt i) (vi_caller (ci_vm i)) ->
  destBody run rd i h = (hb, bo) -> bo <> OPanic -> bo <> OFuel -> (exists e, bo = OOk (None, Some e)) /\ fc hb = fc h.
Proof.
  intros Hf Hm H H1 H2. unfold destBody in H. unfold bind at 1 in H. unfold try at 1 in H.
  assert (Hk : forall (tr : M unit), keeps fu tr -> forall h3 o3, (tr ;;; execute run rd i) h = (h3, o3) ->
     fc h3 = fc h /\ ((exists e, o3 = OErr e) \/ o3 = OPanic \/ o3 = OFuel)).
  { intros tr Ht h3 o3 Hx. unfold bind in Hx. destruct (tr h) as [h4 o4] eqn:H4.
    pose proof (Ht _ _ _ H4) as Hf4. injection Hf4 as F1 F2 F3. assert (Hc : fc h4 = fc h) by (cbn beta; congruence).
    destruct o4; [|injection Hx as <- <-; split; [exact Hc|eauto]..].
    apply execute_refused in Hx; [|exact Hf|rewrite F3; exact Hm]. destruct Hx as [Hx Ho]. split; [congruence|exact Ho]. }
  lazymatch type of H with context [(?tr ;;; execute run rd i) h] => specialize (Hk tr); destruct ((tr ;;; execute run rd i) h) as [h3 o3] eqn:H3 end.
  specialize (Hk ltac:(destruct (_ || _); [apply u_Transfer|kp]) _ _ eq_refl).
  destruct Hk as [Hc [[e ->]|[-> | ->]]]; [injection H as <- <-; eauto|injection H as <- <-; contradiction..].
Qed.
Lemma dest_refused n i h h' r : host_ok h -> e_isBuiltin E (ci_fn i) = false -> ci_fn i = UpgradeFunctionName ->
  ~ may_upgrade (h_world h) (ci_rcpt i) (vi_caller (ci_vm i)) -> vmDest n i h = (h', r) -> r <> OPanic -> r <> OFuel ->
  (exists o e, r = OOk (Some o, None, Some e)) /\ nothing_ran h h' /\ h_codeupd h' = h_codeupd h /\ h_world h' = h_world h /\
  same_output (h_out h) (h_out h').
Proof.
  intros Hok Hb Hf Hm H H1 H2. pose proof H as Hall. destruct n as [|n]; [injection H as <- <-; contradiction|].
  rewrite (plain_dest n i h Hb) in H. unfold bind at 1 in H.
  destruct (executeOnDestContextNoBuiltinFunction _ _ i (bcPush h)) as [h2 o2] eqn:Hx.
  assert (Ho2 : o2 <> OFuel) by (intros ->; injection H as <- <-; contradiction).
  assert (Hp2 : o2 <> OPanic) by (intros ->; injection H as <- <-; contradiction).
  destruct (nb_shape n i (bcPush h) h2 o2 (proj1 Hok) Hx Ho2) as (hb & bo & h1 & o & Hbo & Hbf & Hco & _ & _ & ro & Hro & Hres). cbv zeta in Hro.
  destruct Hres as [(-> & x & Hdr & ->)|[-> _]]; [|contradiction].
  assert (Np : bo <> OPanic) by (intros ->; discriminate Hdr).
  destruct (unl i (bcPush h)) as (U1 & U2 & U3 & U4).
  assert (Hm' : ~ may_upgrade (h_world (destPush i (bcPush h))) (ci_rcpt (unlocked (dest_input i (bcPush h)))) (vi_caller (ci_vm (unlocked (dest_input i (bcPush h)))))).
  { rewrite U2, U3. exact Hm. }
  destruct (body_refused _ _ _ _ _ _ (eq_trans U1 Hf) Hm' Hbo Np Hbf) as ((e & ->) & Hrun). injection Hdr as <-.
  assert (Hr2 : fc h2 = fc h).
  { unfold executeOnDestContextNoBuiltinFunction in Hx. rewrite (bind_ok _ _ _ _ _ (pushDest_eq i (bcPush h))) in Hx. unfold deferring in Hx.
    rewrite Hbo in Hx. cbn beta iota in Hx.
    unfold bind in Hx. destruct (finishExecuteOnDestContext (Some e) hb) as [h5 o5] eqn:H5. pose proof (u_finish _ _ _ _ H5) as K. cbn beta in K.
    assert (K2 : fc h5 = fc h) by (rewrite K; exact Hrun).
    destruct o5; inversion Hx; subst; exact K2. }
  rewrite (bind_ok _ _ _ _ _ (bcPopSet_ok h2)) in H. injection H as <- <-. split; [eauto|].
  pose proof (eq_trans (u_bcpop h2 _ _ (bcPopSet_ok h2)) Hr2) as Hr3. injection Hr3 as R1 R2. split; [exact R1|]. split; [exact R2|].
  destruct (dest_failed_all _ i h _ _ _ _ Hok Hb Hall) as (A1 & A2 & _). split; [exact A2|exact A1].
Qed.
End up2.
