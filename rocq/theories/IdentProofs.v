(** Proofs for C57. *)
From Verif Require Import VmModel WpProofs EffProofs EffFrameProofs EffWalkProofs EffTopProofs CallSpec KeepProofs CallProofs
  StoSpec CodecSpec CodecProofs InvSpec KindProofs IdentSpec.
From Verif Require StoProofs.
From Coq Require Import ZifyBool ZifyNat ZifyN.

#[local] Instance esdt_dec : EqDecision esdt_transfer.
Proof. solve_decision. Defined.

(** * The frame in which code starts: the arguments *)
Notation fargs := (fun h => vi_args (r_input (h_rt h))).
Section args.
Context `{E : env} (rd : edf).

Lemma a_CleanWasmer : keeps fargs CleanWasmerInstance.
Proof. intros h h' r H. unfold CleanWasmerInstance in H. destruct (h_cur h); injection H as <- <-; reflexivity. Qed.
Hint Resolve a_CleanWasmer : keeps.
Lemma a_new_instance m g : keeps fargs (new_instance m g).
Proof. intros h h' r [= <- <-]. reflexivity. Qed.
Hint Resolve a_new_instance : keeps.
Lemma a_Start c g n : keeps fargs (StartWasmerInstance c g n).
Proof. kp. Qed.

Definition has (A : list bytes) (h : host) : Prop := vi_args (r_input (h_rt h)) = A.
Lemma preA A {B} (m : M B) : keeps fargs m -> forall h h' a, has A h -> m h = (h', OOk a) -> has A h'.
Proof. intros Hm h h' a H Hh. apply Hm in Hh. unfold has in *. etransitivity; [exact Hh|exact H]. Qed.

Lemma sa_callFunction A p : starts (has A) (has A) (fun run => callFunction run rd p).
Proof. unfold callFunction. apply starts_after, starts_run. Qed.
Lemma sa_callInit A : starts (has A) (has A) (fun run => callInitFunction run rd).
Proof.
  unfold callInitFunction. apply (starts_before _ _ (has A)); [apply preA; kp|]. intros [p|]; [|apply starts_const].
  apply starts_after, sa_callFunction.
Qed.
Lemma sa_deploy A d : starts (has A) (has A) (fun run => deployContract run rd d).
Proof.
  unfold deployContract. apply (starts_before _ _ (has A)); [apply preA; kp|intros _].
  apply (starts_before _ _ (has A)); [apply preA; kp|intros _]. apply (starts_before _ _ (has A)); [apply preA; kp|intros g].
  apply (starts_before _ _ (has A)).
  - apply preA. unfold map_err. apply keeps_bind; [apply keeps_try, a_Start|]. kp.
  - intros _. apply starts_after, sa_callInit.
Qed.
Lemma Extract_args A h h' p : has A h -> ExtractCodeUpgradeFromArgs h = (h', OOk p) -> has (drop 2 A) h'.
Proof.
  unfold has, ExtractCodeUpgradeFromArgs. rewrite bind_gets. intros <-.
  destruct (vi_args _) as [|c [|m l]]; [discriminate..|]. intros [= <- <-]. reflexivity.
Qed.
Lemma sa_execute A i : starts (has A) (has (served_arguments (ci_fn i) A)) (fun run => execute run rd i).
Proof.
  unfold execute. apply (starts_before _ _ (has A)); [apply preA; kp|intros fn].
  apply (starts_before _ _ (has A)); [apply preA; kp|intros _]. apply (starts_before _ _ (has A)); [apply preA; kp|intros _].
  unfold served_arguments. change (str "upgradeContract") with UpgradeFunctionName. unfold beq.
  case_bool_decide.
  - unfold executeUpgrade. apply (starts_before _ _ (has A)); [apply preA; kp|intros w].
    apply (starts_before _ _ (has A)); [apply preA; kp|intros _].
    apply (starts_before _ _ (has (drop 2 A))); [intros; eapply Extract_args; eassumption|intros [code meta]].
    apply starts_after, sa_deploy.
  - apply (starts_before _ _ (has A)); [apply preA; kp|intros c].
    apply (starts_before _ _ (has A)); [apply preA; kp|intros _]. apply (starts_before _ _ (has A)); [apply preA; kp|intros g].
    apply (starts_before _ _ (has A)); [apply preA, a_Start|intros _]. apply starts_after.
    unfold callSCMethodIndirect. apply (starts_before _ _ (has A)); [apply preA; kp|].
    intros [p|e]; [apply sa_callFunction|apply starts_const].
Qed.
Lemma sa_destBody A i : starts (has A) (has (served_arguments (ci_fn i) A)) (fun run => destBody run rd i).
Proof.
  unfold destBody. apply starts_after, starts_try.
  apply (starts_before _ _ (has A)); [|intros _; apply sa_execute].
  destruct (_ || _); apply preA; kp.
Qed.

(** ** Nested calls *)
Lemma args_nb i h :
  starts_only_in (has (served_arguments (ci_fn i) (vi_args (ci_vm i)))) (fun run => executeOnDestContextNoBuiltinFunction run rd i) h.
Proof.
  intros run1 run2 Hr. unfold executeOnDestContextNoBuiltinFunction. rewrite !(bind_ok _ _ _ _ _ (pushDest_eq i h)).
  destruct (copyTx_same (r_input (h_rt h)) i) as (R1 & R2 & R3 & R4 & R5 & R6 & R7 & _ & _ & R8).
  unfold deferring.
  rewrite (sa_destBody (vi_args (ci_vm i)) (unlocked (dest_input i h)) run1 run2) with (h := destPush i h); [reflexivity| |].
  - intros p hs H. apply Hr. change (ci_fn (unlocked (dest_input i h))) with (ci_fn (copyTxHashesFromContext (r_input (h_rt h)) i)) in H.
    rewrite R2 in H. exact H.
  - exact R5.
Qed.
Lemma args_dest i h :
  starts_only_in (has (served_arguments (ci_fn i) (vi_args (ci_vm i)))) (fun run => ExecuteOnDestContext run rd i) h \/
  e_isBuiltin E (ci_fn i) = true.
Proof.
  destruct (e_isBuiltin E (ci_fn i)) eqn:Hbi; [right; reflexivity|left].
  intros run1 run2 Hr. unfold ExecuteOnDestContext. rewrite !(bind_ok _ _ h (bcPush h) tt) by reflexivity.
  rewrite Hbi. rewrite !bind_ret. apply bind_head. exact (args_nb i (bcPush h) run1 run2 Hr).
Qed.
Lemma args_same i h :
  starts_only_in (has (served_arguments (ci_fn i) (vi_args (ci_vm i)))) (fun run => ExecuteOnSameContext run rd i) h.
Proof.
  intros run1 run2 Hr. destruct (e_isBuiltin E (ci_fn i)) eqn:Hbi.
  { unfold ExecuteOnSameContext. rewrite Hbi. reflexivity. }
  rewrite !(execSame_unfold _ _ i h Hbi). cbv zeta. set (j := unlocked (dest_input i h)).
  destruct (copyTx_same (r_input (h_rt h)) i) as (R1 & R2 & R3 & R4 & R5 & R6 & R7 & _ & _ & R8).
  assert (Hd : (TransferValueOnly (ci_rcpt j) (vi_caller (ci_vm j)) (vi_value (ci_vm j)) false ;;; execute run1 rd j) (samePush i h)
             = (TransferValueOnly (ci_rcpt j) (vi_caller (ci_vm j)) (vi_value (ci_vm j)) false ;;; execute run2 rd j) (samePush i h)).
  { assert (Hst : starts (has (vi_args (ci_vm i))) (has (served_arguments (ci_fn j) (vi_args (ci_vm i)))) (fun run =>
      TransferValueOnly (ci_rcpt j) (vi_caller (ci_vm j)) (vi_value (ci_vm j)) false ;;; execute run rd j)).
    { apply (starts_before _ _ (has (vi_args (ci_vm i)))); [apply preA; kp|intros _; apply sa_execute]. }
    apply Hst.
    - intros p hs H. apply Hr. change (ci_fn j) with (ci_fn (copyTxHashesFromContext (r_input (h_rt h)) i)) in H.
      rewrite R2 in H. exact H.
    - exact R5. }
  unfold deferring. rewrite Hd. reflexivity.
Qed.

(** ** Transactions *)
Lemma args_call i h :
  starts_only_in (has (served_arguments (ci_fn i) (vi_args (ci_vm i)))) (fun run => RunSmartContractCallIn run rd i) h.
Proof.
  intros run1 run2 Hr. unfold RunSmartContractCallIn. unfold served_arguments in Hr.
  change (str "upgradeContract") with UpgradeFunctionName in Hr. unfold beq.
  set (hs0 := start (call_frame i) (met0 (ci_vm i)) (ci_rcpt i) (vi_value (ci_vm i)) (init0 h)) in *.
  assert (H0 : has (vi_args (ci_vm i)) hs0) by reflexivity.
  case_bool_decide as Hf.
  - rewrite !doUpgrade_eq, !(cleaning_ext _ _ _ _ (opening_run _ _ _ (init0_rt _))). apply cleaning_ext.
    assert (Hst : starts (has (vi_args (ci_vm i))) (has (drop 2 (vi_args (ci_vm i)))) (fun run =>
      '(code, meta) <- ExtractCodeUpgradeFromArgs ;;
      performCodeDeployment run rd (mkDeploy code meta (ci_rcpt i) (vi_caller (ci_vm i))))).
    { apply (starts_before _ _ (has (drop 2 (vi_args (ci_vm i))))); [intros; eapply Extract_args; eassumption|intros [code meta]].
      unfold performCodeDeployment. apply starts_after, sa_deploy. }
    apply Hst; [exact Hr|exact H0].
  - rewrite !doCall_eq, !(cleaning_ext _ _ _ _ (opening_run _ _ _ (init0_rt _))). apply cleaning_ext. fold hs0.
    revert H0. generalize hs0. intros h0 H0. revert h0 H0.
    assert (Hst : forall v, starts (has (vi_args (ci_vm i))) (has (vi_args (ci_vm i))) (fun run =>
      checkGasForGetCode v ;;;
      contract <- map_err GetSCCode (fun _ => ErrContractNotFound) ;;
      map_err (DeductInitialGasForExecution contract) (fun _ => ErrNotEnoughGas) ;;;
      g <- GetGasForExecution ;;
      map_err (StartWasmerInstance contract g false) (fun _ => ErrContractInvalid) ;;;
      callSCMethod run rd ;;;
      o <- GetVMOutput ;;
      CleanWasmerInstance ;;;
      ret o)).
    { intros v. set (A := vi_args (ci_vm i)).
      apply (starts_before _ _ (has A)); [apply preA; kp|intros _].
      apply (starts_before _ _ (has A)); [apply preA; kp|intros c].
      apply (starts_before _ _ (has A)); [apply preA; kp|intros _].
      apply (starts_before _ _ (has A)); [apply preA; kp|intros g].
      apply (starts_before _ _ (has A)).
      { apply preA. unfold map_err. apply keeps_bind; [apply keeps_try, a_Start|]. kp. }
      intros _. apply starts_after. unfold callSCMethod.
      apply (starts_before _ _ (has A)); [apply preA; kp|intros _].
      apply (starts_before _ _ (has A)); [apply preA; kp|intros c'].
      apply (starts_before _ _ (has A)); [apply preA; kp|].
      intros [[p|]|e]; [|apply starts_const..]. apply starts_after, sa_callFunction. }
    exact (Hst _ run1 run2 Hr).
Qed.
Lemma args_create i h :
  starts_only_in (has (vi_args (cc_vm i))) (fun run => doRunSmartContractCreate run rd i) h.
Proof.
  intros run1 run2 Hr. rewrite !doCreate_eq. pose proof (init0_rt h) as Hrt.
  revert Hrt. generalize (init0 h). intros h0 Hrt.
  destruct (NewAddress (vi_caller (cc_vm i)) h0) as [h1 o] eqn:Hn.
  pose proof (k_NewAddress _ _ _ _ Hn) as Hk. injection Hk as K1 K2 K3.
  destruct o as [a|e| |]; try (apply cleaning_ext; unfold bind; rewrite Hn; reflexivity).
  rewrite !(create_ext _ _ _ _ _ _ Hn (eq_trans K3 Hrt)). apply cleaning_ext.
  assert (Hst : starts (has (vi_args (cc_vm i))) (has (vi_args (cc_vm i))) (fun run =>
    performCodeDeployment run rd (mkDeploy (cc_code i) (cc_meta i) a (vi_caller (cc_vm i))))).
  { unfold performCodeDeployment. apply starts_after, sa_deploy. }
  apply Hst; [exact Hr|reflexivity].
Qed.

(** two properties of the states in which code starts *)
Lemma starts_and {B} A (Q : host -> Prop) (m : (prog -> M bool) -> M B) h :
  starts_only_in (has A) m h -> starts_only_in Q m h -> starts_only_in (fun hs => Q hs /\ has A hs) m h.
Proof.
  intros H1 H2 run1 run2 Hr.
  set (run3 := fun p hs => if decide (vi_args (r_input (h_rt hs)) = A) then run1 p hs else run2 p hs).
  transitivity (m run3 h).
  - apply H1. intros p hs Hs. unfold run3. rewrite decide_True by exact Hs. reflexivity.
  - apply H2. intros p hs Hs. unfold run3. destruct (decide _) as [Ha|]; [|reflexivity]. apply Hr. split; assumption.
Qed.
Lemma starts_weaken {B} (P Q : host -> Prop) (m : (prog -> M bool) -> M B) h :
  (forall hs, P hs -> Q hs) -> starts_only_in P m h -> starts_only_in Q m h.
Proof. intros HPQ H run1 run2 Hr. apply H. intros p hs Hs. apply Hr, HPQ, Hs. Qed.

Lemma serves_intro i ro rest hs :
  entered i ro rest hs -> has (served_arguments (ci_fn i) (vi_args (ci_vm i))) hs -> serves i hs.
Proof. intros [] H. constructor; assumption. Qed.
Lemma serves_call i h : starts_only_in (serves i) (fun run => RunSmartContractCallIn run rd i) h.
Proof.
  refine (starts_weaken _ _ _ _ _ (starts_and _ _ _ _ (args_call i h) (starts_call i rd h))).
  intros hs [[He _] Ha]. eapply serves_intro; eassumption.
Qed.
Lemma serves_dest i h : e_isBuiltin E (ci_fn i) = false ->
  starts_only_in (serves i) (fun run => ExecuteOnDestContext run rd i) h.
Proof.
  intros Hb. destruct (args_dest i h) as [Ha|]; [|congruence].
  refine (starts_weaken _ _ _ _ _ (starts_and _ _ _ _ Ha (starts_dest_plain i rd h Hb))).
  intros hs [[He _] Hh]. eapply serves_intro; eassumption.
Qed.
Lemma esdt_same i h : starts_only_in (fun hs => vi_esdt (r_input (h_rt hs)) = vi_esdt (ci_vm i)) (fun run => ExecuteOnSameContext run rd i) h.
Proof.
  intros run1 run2 Hr. destruct (e_isBuiltin E (ci_fn i)) eqn:Hbi.
  { unfold ExecuteOnSameContext. rewrite Hbi. reflexivity. }
  rewrite !(execSame_unfold _ _ i h Hbi). cbv zeta. set (j := unlocked (dest_input i h)).
  assert (Hd : (TransferValueOnly (ci_rcpt j) (vi_caller (ci_vm j)) (vi_value (ci_vm j)) false ;;; execute run1 rd j) (samePush i h)
             = (TransferValueOnly (ci_rcpt j) (vi_caller (ci_vm j)) (vi_value (ci_vm j)) false ;;; execute run2 rd j) (samePush i h)).
  { assert (Hst : starts (fun hs => fent hs = fent (samePush i h)) (fun hs => fent hs = fent (samePush i h) /\ shallow hs) (fun run =>
      TransferValueOnly (ci_rcpt j) (vi_caller (ci_vm j)) (vi_value (ci_vm j)) false ;;; execute run rd j)).
    { apply (starts_before _ _ (fun hs => fent hs = fent (samePush i h))).
      - intros h1 h2 a H1 H2. etransitivity; [exact (k_Transfer _ _ _ _ _ _ _ H2)|exact H1].
      - intros _. apply st_execute. }
    apply Hst; [|reflexivity]. intros p hs [Hq Hs]. apply Hr. injection Hq as H1 H2 H3 H4 H5 H6 H7 H8 H9.
    destruct (copyTx_same (r_input (h_rt h)) i) as (R1 & R2 & R3 & R4 & R5 & R6 & R7 & _ & _ & R8).
    rewrite H7. exact R8. }
  unfold deferring. rewrite Hd. reflexivity.
Qed.
Lemma starts_dec {B} (P Q : host -> Prop) {D : forall hs, Decision (P hs)} (m : (prog -> M bool) -> M B) h :
  starts_only_in P m h -> starts_only_in Q m h -> starts_only_in (fun hs => Q hs /\ P hs) m h.
Proof.
  intros H1 H2 run1 run2 Hr.
  set (run3 := fun p hs => if decide (P hs) then run1 p hs else run2 p hs).
  transitivity (m run3 h).
  - apply H1. intros p hs Hs. unfold run3. rewrite decide_True by exact Hs. reflexivity.
  - apply H2. intros p hs Hs. unfold run3. destruct (decide _) as [Ha|]; [|reflexivity]. apply Hr. split; assumption.
Qed.
Lemma serves_same i h : starts_only_in (serves i) (fun run => ExecuteOnSameContext run rd i) h.
Proof.
  eapply starts_weaken; [|apply starts_and; [apply args_same|apply (starts_dec (fun hs => vi_esdt (r_input (h_rt hs)) = vi_esdt (ci_vm i))); [intros; apply list_eq_dec|apply esdt_same|apply starts_same]]].
  intros hs [[(H1 & H2 & H3 & H4 & H5 & H6 & H7 & H8) He] Ha]. constructor; assumption.
Qed.
Lemma serves_create i h :
  starts_only_in (fun hs => vi_caller (r_input (h_rt hs)) = vi_caller (cc_vm i) /\ vi_value (r_input (h_rt hs)) = vi_value (cc_vm i) /\
    vi_args (r_input (h_rt hs)) = vi_args (cc_vm i)) (fun run => doRunSmartContractCreate run rd i) h.
Proof.
  refine (starts_weaken _ _ _ _ _ (starts_and _ _ _ _ (args_create i h) (starts_create i rd h))).
  intros hs [(H1 & H2 & H3 & H4 & H5 & H6 & H7) Ha]. split; [exact H4|]. split; [exact H5|exact Ha].
Qed.
End args.

(** * The input of nested calls made by API functions *)
Section inputs.
Context `{E : env} (byC : bool) (ed1 ed2 : edf) (es1 es2 : call_input -> M unit).
Let genuine (i : call_input) (h : host) : Prop :=
  vi_caller (ci_vm i) = r_addr (h_rt h) \/ byC = true /\ vi_caller (ci_vm i) = vi_caller (r_input (h_rt h)).
Context (Hd : forall i h, genuine i h -> ed1 i h = ed2 i h) (Hs : forall i h, genuine i h -> es1 i h = es2 i h).
Notation frt := (fun h => h_rt h).

Lemma agree_bind {A B} (m1 m2 : M A) (k1 k2 : A -> M B) h :
  m1 h = m2 h -> (forall a h1, m2 h = (h1, OOk a) -> k1 a h1 = k2 a h1) -> bind m1 k1 h = bind m2 k2 h.
Proof. intros H Hk. unfold bind. rewrite H. destruct (m2 h) as [h1 [a|e| |]]; try reflexivity. apply Hk. reflexivity. Qed.
Lemma agree_try {A} (m1 m2 : M A) h : m1 h = m2 h -> try m1 h = try m2 h.
Proof. intros H. unfold try. rewrite H. reflexivity. Qed.
Lemma agree_exec i h : genuine i h -> exec_dest ed1 i h = exec_dest ed2 i h.
Proof. intros H. apply agree_bind; [apply Hd, H|reflexivity]. Qed.
Lemma agree_create i h : vi_caller (cc_vm i) = r_addr (h_rt h) -> CreateNewContract ed1 i h = CreateNewContract ed2 i h.
Proof.
  intros Hc. unfold CreateNewContract. cbv zeta.
  assert (Hstep : forall {A B} (m : M A) (k1 k2 : A -> M B) h0, keeps frt m -> h_rt h0 = h_rt h ->
    (forall a h1, h_rt h1 = h_rt h -> k1 a h1 = k2 a h1) -> bind m k1 h0 = bind m k2 h0).
  { intros A B m k1 k2 h0 Hm H0 Hk. apply agree_bind; [reflexivity|]. intros a h1 H1. apply Hk.
    apply Hm in H1. congruence. }
  apply Hstep; [kp|reflexivity|intros _ h1 H1]. apply Hstep; [kp|exact H1|intros ro h2 H2].
  apply Hstep; [kp|exact H2|intros _ h3 H3]. apply Hstep; [kp|exact H3|intros a h4 H4].
  apply Hstep; [kp|exact H4|intros ex h5 H5]. apply Hstep; [kp|exact H5|intros _ h6 H6].
  apply Hstep; [kp|exact H6|intros _ h7 H7]. apply Hstep; [kp|exact H7|intros _ h8 H8].
  apply agree_bind; [|reflexivity]. apply Hd. left. rewrite H8. exact Hc.
Qed.
Lemma k_TransferESDT d s t n v i : keeps frt (TransferESDT d s t n v i).
Proof. kp. Qed.
Lemma agree_esdt d t n v g f a h : esdt_execute ed1 d t n v g f a h = esdt_execute ed2 d t n v g f a h.
Proof.
  unfold esdt_execute. rewrite !bind_gets. cbv zeta. apply agree_bind; [reflexivity|].
  intros [gas|e] h1 H1; [|reflexivity]. assert (Hrt : h_rt h1 = h_rt h).
  { apply (keeps_try _ _ (k_TransferESDT _ _ _ _ _ _)) in H1. exact H1. }
  destruct (_ && _); [|reflexivity]. apply agree_bind; [|reflexivity]. apply agree_try, agree_exec.
  left. rewrite Hrt. reflexivity.
Qed.
Definition no_bycaller (p : kind) : bool := match p with KByCaller => byC | _ => true end.
Lemma agree_interp {B} (p : prim B) h : no_bycaller (prim_kind p) = true -> interp ed1 es1 p h = interp ed2 es2 p h.
Proof.
  destruct p; intros Hp; try reflexivity; cbn [interp].
  - apply agree_bind; [reflexivity|]. intros i h1 [= <- <-]. apply agree_exec. destruct byCaller; [right|left; reflexivity].
    split; [exact Hp|reflexivity].
  - apply agree_bind; [reflexivity|]. intros i h1 [= <- <-]. apply Hs. left. reflexivity.
  - apply agree_bind; [reflexivity|]. intros i h1 [= <- <-]. apply agree_bind; [reflexivity|]. intros [] h2 [= <-].
    apply agree_bind; [apply agree_try, Hs; left; reflexivity|reflexivity].
  - apply agree_esdt.
  - apply agree_bind; [reflexivity|]. intros i h1 [= <- <-]. apply agree_create. reflexivity.
Qed.
Lemma agree_cmd c : cmd_all no_bycaller c -> forall h, run_cmd ed1 es1 c h = run_cmd ed2 es2 c h.
Proof.
  induction c as [r| |B p k IH]; intros Hc h; [reflexivity..|]. destruct Hc as [Hp Hk]. cbn [run_cmd].
  apply agree_bind; [apply agree_try, agree_interp, Hp|]. intros x h1 _. apply IH, Hk.
Qed.
End inputs.
Lemma cmd_all_weaken (P Q : kind -> bool) c : (forall k, P k = true -> Q k = true) -> cmd_all P c -> cmd_all Q c.
Proof.
  intros HPQ. induction c as [r| |B p k IH]; [exact (fun _ => I)..|]. intros [Hp Hk]. split; [apply HPQ, Hp|]. intros x. apply IH, Hk.
Qed.
Lemma agree_api `{E : env} c ed1 ed2 es1 es2 h :
  let genuine (i : call_input) (hs : host) :=
    vi_caller (ci_vm i) = r_addr (h_rt hs) \/ is_bycaller c /\ vi_caller (ci_vm i) = vi_caller (r_input (h_rt hs)) in
  (forall i hs, genuine i hs -> ed1 i hs = ed2 i hs) -> (forall i hs, genuine i hs -> es1 i hs = es2 i hs) ->
  run_cmd ed1 es1 (api c) h = run_cmd ed2 es2 (api c) h.
Proof.
  intros genuine Hd Hs. assert (Hb : api_kind c KByCaller = true -> is_bycaller c) by (destruct c; try discriminate; exact (fun _ => I)).
  apply (agree_cmd (api_kind c KByCaller) ed1 ed2 es1 es2).
  - intros i hs [Hi|[H1 H2]]; apply Hd; [left; exact Hi|right; split; [exact (Hb H1)|exact H2]].
  - intros i hs [Hi|[H1 H2]]; apply Hs; [left; exact Hi|right; split; [exact (Hb H1)|exact H2]].
  - apply (cmd_all_weaken (api_kind c)); [|apply api_kinds]. intros k Hk. destruct k; try reflexivity. exact Hk.
Qed.

(** * Readers *)
Section readers.
Context `{E : env} (HE : env_ok E).
Lemma pad32_amount z : 0 <= z -> go_len (be_encode z) -> amount z (pad32 (be_encode z)).
Proof.
  intros Hz Hl. unfold amount. destruct (Z.eq_dec z 0) as [->|Hz0].
  { split; [reflexivity|]. split; [lia|reflexivity]. }
  unfold pad32. destruct (c55_pad (be_encode z) BalanceLen) as (d' & -> & Hv & Hlen & k & Hk); [unfold in_i64, BalanceLen, max_i64, min_i64; lia|exact Hl|].
  change (default [] (Some d')) with d'. split; [|split; [|lia]].
  - rewrite Hv, <-be_decode_value, be_decode_encode. lia.
  - intros Hb. assert (Hne : be_encode z <> []) by (rewrite be_encode_nil; lia).
    rewrite (Hlen Hne). assert (blen (be_encode z) <= 32); [|unfold BalanceLen; lia].
    pose proof (no_lead0_bound _ Hne (be_encode_lead z)) as Hbd. rewrite be_decode_encode in Hbd.
    destruct (Z.le_gt_cases (blen (be_encode z)) 32) as [|Hgt]; [assumption|exfalso].
    assert (256 ^ 32 <= 256 ^ (blen (be_encode z) - 1)) by (apply Z.pow_le_mono_r; lia).
    change (256 ^ 32) with (2 ^ 256) in *. lia.
Qed.

Lemma run_pay ed es c k h i x : running_as h i x -> StoProofs.pts_ok x ->
  exists g, run_cmd ed es (charge c k) h = run_cmd ed es k (with_inst i (set_in_points g x) h).
Proof. intros H Hp. rewrite (StoProofs.run_charge _ _ HE _ _ _ _ _ H Hp). eexists. reflexivity. Qed.

Lemma own_intro h i x m g b : running_as h i x ->
  only_own h (set_h_big b (with_inst i (set_in_mem m (set_in_points g x)) h)).
Proof. intros [H1 H2]. exists i, x, m, g, b. split; [exact H1|]. split; [exact H2|reflexivity]. Qed.
Lemma own_mem h i x m g : running_as h i x -> only_own h (with_inst i (set_in_mem m (set_in_points g x)) h).
Proof. intros H. pose proof (own_intro h i x m g (h_big h) H) as Ho. destruct h. exact Ho. Qed.
Lemma own_gas h i x g : running_as h i x -> only_own h (with_inst i (set_in_points g x) h).
Proof. intros H. pose proof (own_mem h i x (in_mem x) g H) as Ho. destruct x. exact Ho. Qed.
Lemma own_big h i x g b : running_as h i x -> only_own h (set_h_big b (with_inst i (set_in_points g x) h)).
Proof. intros H. pose proof (own_intro h i x (in_mem x) g b H) as Ho. destruct x. exact Ho. Qed.

(** the common shape: pay, fetch, store, return *)
Lemma read_store ed es c o d k r h m m' i x :
  running_as h i x -> StoProofs.pts_ok x -> in_mem x = m -> MemStore m o d = (m', ROk tt) ->
  (forall h1, h_rt h1 = h_rt h -> run_cmd ed es k h1 = run_cmd ed es (store o d (-1) (CRet r)) h1 \/
                                  run_cmd ed es k h1 = run_cmd ed es (store o d 0 (CRet r)) h1) ->
  exists h', run_cmd ed es (charge c k) h = (h', OOk r) /\ cur_mem h' = ROk m' /\ only_own h h'.
Proof.
  intros H Hp Hm Hs Hk. destruct (run_pay ed es c k h i x H Hp) as [g ->].
  set (x1 := set_in_points g x). pose proof (running_with_inst _ _ _ x1 H) as H1.
  assert (Hst : interp ed es (QMemStore o d) (with_inst i x1 h) = (with_inst i (set_in_mem m' x1) (with_inst i x1 h), OOk tt)).
  { cbn [interp]. apply (StoProofs.mem_store_run _ i x1 _ _ m' tt H1). change (in_mem x1) with (in_mem x). rewrite Hm. exact Hs. }
  exists (with_inst i (set_in_mem m' x1) h).
  split; [|split].
  - destruct (Hk (with_inst i x1 h) eq_refl) as [-> | ->]; unfold store; erewrite StoProofs.run_or_fault_ok by exact Hst;
      rewrite with_inst_with_inst; reflexivity.
  - rewrite (cur_mem_run _ _ _ (running_with_inst _ _ _ (set_in_mem m' x1) H)). reflexivity.
  - apply own_mem, H.
Qed.

Lemma memory_reader fuel c h : calling h -> memory_question c (r_input (h_rt h)) ->
  0 <= vi_value (r_input (h_rt h)) -> go_len (be_encode (vi_value (r_input (h_rt h)))) ->
  0 <= et_value (first_token (r_input (h_rt h))) -> go_len (be_encode (et_value (first_token (r_input (h_rt h))))) ->
  exists o d r, memory_answer c (r_input (h_rt h)) o d r /\
    forall m m', cur_mem h = ROk m -> MemStore m (i32 o) d = (m', ROk tt) ->
    exists h', vmApi fuel c h = (h', OOk r) /\ cur_mem h' = ROk m' /\ only_own h h'.
Proof.
  intros (i & x & Hc & Hi & Hp & _) Hq Hv Hvl He Hel. assert (H : running_as h i x) by (split; assumption).
  assert (Hcm : cur_mem h = ROk (in_mem x)) by (apply (cur_mem_run _ _ _ H)).
  destruct c; try contradiction.
  - (* getArgument *) cbn in Hq. set (n := Z.to_nat (i32 id)) in *.
    destruct (vi_args (r_input (h_rt h)) !! n) as [a|] eqn:Ha; [|apply lookup_ge_None in Ha; lia].
    eexists _, a, _. split; [split; [reflexivity|split; [lia|split; [exact Ha|reflexivity]]]|].
    intros m m' Hm Hs. rewrite Hcm in Hm. injection Hm as Hm.
    refine (read_store _ _ _ _ _ _ _ _ m m' i x H Hp Hm Hs _). intros h1 H1. left. rewrite run_get. unfold vm_in. rewrite H1.
    replace (i32 id <? 0) with false by lia. fold n. rewrite Ha. reflexivity.
  - (* getCaller *) eexists _, _, _. split; [split; [reflexivity|split; reflexivity]|].
    intros m m' Hm Hs. rewrite Hcm in Hm. injection Hm as Hm.
    refine (read_store _ _ _ _ _ _ _ _ m m' i x H Hp Hm Hs _). intros h1 H1. right. rewrite run_get. unfold vm_in. rewrite H1. reflexivity.
  - eexists _, _, _. split; [split; [reflexivity|split; [apply pad32_amount; assumption|reflexivity]]|].
    intros m m' Hm Hs. rewrite Hcm in Hm. injection Hm as Hm.
    refine (read_store _ _ _ _ _ _ _ _ m m' i x H Hp Hm Hs _). intros h1 H1. left. rewrite run_get. unfold vm_in. rewrite H1. reflexivity.
  - set (v := et_value (first_token (r_input (h_rt h)))) in *.
    assert (Ha : amount v (if 0 <? v then pad32 (be_encode v) else [])).
    { destruct (Z.ltb_spec 0 v); [apply pad32_amount; assumption|]. replace v with 0 by lia. split; [reflexivity|]. split; [lia|reflexivity]. }
    eexists _, _, _. split; [split; [reflexivity|split; [exact Ha|reflexivity]]|].
    intros m m' Hm Hs. rewrite Hcm in Hm. injection Hm as Hm.
    refine (read_store _ _ _ _ _ _ _ _ m m' i x H Hp Hm Hs _). intros h1 H1. left. rewrite run_get.
    change (et_value (first_esdt h1)) with (et_value (first_token (r_input (h_rt h1)))). rewrite H1. reflexivity.
  - eexists _, _, _. split; [split; [reflexivity|split; reflexivity]|].
    intros m m' Hm Hs. rewrite Hcm in Hm. injection Hm as Hm.
    refine (read_store _ _ _ _ _ _ _ _ m m' i x H Hp Hm Hs _). intros h1 H1. left. rewrite run_get.
    change (et_name (first_esdt h1)) with (et_name (first_token (r_input (h_rt h1)))). rewrite H1. reflexivity.
Qed.

Lemma number_reader fuel c h r : counting h -> number_answer c (r_input (h_rt h)) = Some r ->
  exists h', vmApi fuel c h = (h', OOk r) /\ only_own h h' /\ cur_mem h' = cur_mem h /\ h_big h' = h_big h.
Proof.
  intros (i & x & Hc & Hi & Hp) Hq. assert (H : running_as h i x) by (split; assumption).
  assert (Hsh : forall cst k, (forall h1, h_rt h1 = h_rt h -> run_cmd (vmDest fuel) (vmSame fuel) k h1 = (h1, OOk r)) ->
    exists h', run_cmd (vmDest fuel) (vmSame fuel) (charge cst k) h = (h', OOk r) /\ only_own h h' /\ cur_mem h' = cur_mem h /\ h_big h' = h_big h).
  { intros cst k Hk. destruct (run_pay (vmDest fuel) (vmSame fuel) cst k h i x H Hp) as [g ->]. eexists. split; [apply Hk; reflexivity|].
    split; [apply own_gas, H|]. split; [|reflexivity].
    rewrite (cur_mem_run _ _ _ H), (cur_mem_run _ _ _ (running_with_inst _ _ _ _ H)). reflexivity. }
  destruct c; try discriminate; cbn [number_answer] in Hq; unfold vmApi; cbn [api]; apply Hsh; intros h1 H1; rewrite run_get; unfold vm_in.
  - injection Hq as <-. rewrite H1. reflexivity.
  - rewrite H1. destruct ((0 <=? i32 id) && _) eqn:Hb; [discriminate|]. injection Hq as <-.
    destruct (Z.ltb_spec (i32 id) 0); [reflexivity|].
    rewrite (proj2 (lookup_ge_None _ (Z.to_nat (i32 id)))) by lia. reflexivity.
  - injection Hq as <-. rewrite H1. reflexivity.
  - rewrite H1. destruct ((vi_value _ <=? 0) && _) eqn:Hb; [|discriminate]. injection Hq as <-.
    apply andb_true_iff in Hb as [Hb1 Hb2]. replace (0 <? _) with false by lia. apply bool_decide_eq_true in Hb2. rewrite Hb2. reflexivity.
  - injection Hq as <-. change (et_nonce (first_esdt h1)) with (et_nonce (first_token (r_input (h_rt h1)))). rewrite H1. reflexivity.
  - injection Hq as <-. change (et_type (first_esdt h1)) with (et_type (first_token (r_input (h_rt h1)))). rewrite H1. reflexivity.
Qed.

Lemma handle_reader fuel c h d v : counting h -> Z.of_nat (length (vi_args (r_input (h_rt h)))) <= max_i32 ->
  handle_answer c (r_input (h_rt h)) = Some (d, v) ->
  exists h', vmApi fuel c h = (h', OOk 0) /\ only_own h h' /\ cur_mem h' = cur_mem h /\
    h_big h' !! d = Some v /\ forall y, y <> d -> h_big h' !! y = h_big h !! y.
Proof.
  intros (i & x & Hc & Hi & Hp) Hn Hq. assert (H : running_as h i x) by (split; assumption).
  assert (Hsh : forall cst k, (forall h1, h_rt h1 = h_rt h -> exists b, run_cmd (vmDest fuel) (vmSame fuel) k h1 = (set_h_big (<[d := v]> b) h1, OOk 0) /\
       forall y, y <> d -> b !! y = h_big h1 !! y) ->
    exists h', run_cmd (vmDest fuel) (vmSame fuel) (charge cst k) h = (h', OOk 0) /\ only_own h h' /\ cur_mem h' = cur_mem h /\
      h_big h' !! d = Some v /\ forall y, y <> d -> h_big h' !! y = h_big h !! y).
  { intros cst k Hk. destruct (run_pay (vmDest fuel) (vmSame fuel) cst k h i x H Hp) as [g ->].
    destruct (Hk (with_inst i (set_in_points g x) h) eq_refl) as (b & -> & Hb). eexists. split; [reflexivity|].
    split; [apply own_big, H|]. split; [|split].
    - rewrite (cur_mem_run _ _ _ H). pose proof (running_with_inst _ _ _ (set_in_points g x) H) as H1. exact (cur_mem_run _ _ _ H1).
    - apply lookup_insert.
    - intros y Hy. cbn [h_big set_h_big]. rewrite lookup_insert_ne by congruence. apply Hb, Hy. }
  assert (Harg : forall f id dst a, i32 id <? 0 = false -> vi_args (r_input (h_rt h)) !! Z.to_nat (i32 id) = Some a -> d = i32 dst -> v = f a ->
    forall cst, exists h', run_cmd (vmDest fuel) (vmSame fuel) (bigInt_argument cst f (i32 id) (i32 dst)) h = (h', OOk 0) /\ only_own h h' /\
      cur_mem h' = cur_mem h /\ h_big h' !! d = Some v /\ forall y, y <> d -> h_big h' !! y = h_big h !! y).
  { intros f id dst a H0 Ha -> -> cst. apply Hsh. intros h1 H1. rewrite run_get. unfold vm_in. rewrite H1.
    pose proof (lookup_lt_Some _ _ _ Ha) as Hlt.
    assert (Hz : zlen (vi_args (r_input (h_rt h))) = Z.of_nat (length (vi_args (r_input (h_rt h))))).
    { unfold zlen. apply i32_id. unfold in_i32, min_i32. lia. }
    rewrite Hz. replace (_ <=? i32 id) with false by lia.
    unfold act at 1. rewrite run_do. cbn [interp]. unfold big_op. destruct (big_get (h_big h1) (i32 dst)) as [b z] eqn:Hbg.
    assert (Hgi : gindex (vi_args (r_input (h_rt h))) (i32 id) = ROk a).
    { unfold gindex. rewrite H0, Ha. reflexivity. }
    rewrite Hgi. unfold act. rewrite run_do. cbn [interp]. exists b. split; [reflexivity|].
    intros y Hy. unfold big_get in Hbg. destruct (h_big h1 !! i32 dst) eqn:Hl; injection Hbg as <- <-; [reflexivity|].
    apply lookup_insert_ne. congruence. }
  destruct c; try discriminate; cbn [handle_answer] in Hq; unfold vmApi; cbn [api].
  - destruct (i32 id <? 0) eqn:H0; [discriminate|]. destruct (vi_args (r_input (h_rt h)) !! Z.to_nat (i32 id)) as [a|] eqn:Ha; [|discriminate]. injection Hq as <- <-.
    eapply Harg; try eassumption; try reflexivity. symmetry. apply be_decode_value.
  - destruct (i32 id <? 0) eqn:H0; [discriminate|]. destruct (vi_args (r_input (h_rt h)) !! Z.to_nat (i32 id)) as [a|] eqn:Ha; [|discriminate]. injection Hq as <- <-.
    eapply Harg; try eassumption; try reflexivity. symmetry. apply twos_decode_value.
  - injection Hq as <- <-. apply Hsh. intros h1 H1. rewrite run_get. unfold vm_in. rewrite H1. exists (h_big h1). split; reflexivity.
  - injection Hq as <- <-. apply Hsh. intros h1 H1. rewrite run_get.
    change (et_value (first_esdt h1)) with (et_value (first_token (r_input (h_rt h1)))). rewrite H1. exists (h_big h1). split; reflexivity.
Qed.
End readers.

(** * The frame between the API calls of one piece of code *)
Section between.
Context `{E : env} (n : nat).
Definition same_call (h hs : host) : Prop :=
  r_input (h_rt hs) = r_input (h_rt h) /\ r_addr (h_rt hs) = r_addr (h_rt h) /\ host_ok hs.
Lemma cur_inst_same h h' a : cur_inst h = (h', OOk a) -> h' = h.
Proof. unfold cur_inst. destruct (h_cur h); [|discriminate]. destruct (h_insts h !! _); [|discriminate]. intros [= <- _]. reflexivity. Qed.
Lemma upd_inst_call h f h' a : upd_inst f h = (h', OOk a) -> same_call h h \/ True -> host_ok h -> same_call h h'.
Proof.
  intros H _ [H1 H2]. unfold upd_inst, bind in H. destruct (cur_inst h) as [h1 [[i x]|e| |]] eqn:Hc; try discriminate.
  apply cur_inst_same in Hc as ->. injection H as <- <-. split; [reflexivity|]. split; [reflexivity|]. split; assumption.
Qed.
Lemma same_call_trans a b c : same_call a b -> same_call b c -> same_call a c.
Proof. intros (H1 & H2 & H3) (K1 & K2 & K3). split; [congruence|]. split; [congruence|assumption]. Qed.
Lemma run_prog_same (api2 : api_call -> M Z) h0 :
  (forall c hs, same_call h0 hs -> vmApi n c hs = api2 c hs) ->
  forall p h, same_call h0 h -> run_prog (vmApi n) p h = run_prog api2 p h.
Proof.
  intros Ha. fix IH 1. intros p h Hs. destruct p as [| |pts k|o l k|o d k|k|c k]; cbn [run_prog]; try reflexivity.
  - apply agree_bind; [reflexivity|]. intros [i x] h1 H1. apply cur_inst_same in H1 as ->.
    apply agree_bind; [reflexivity|]. intros u h2 H2. destruct (_ <? _); [reflexivity|]. apply IH.
    eapply same_call_trans; [exact Hs|]. eapply upd_inst_call; [exact H2|right; exact I|apply Hs].
  - apply agree_bind; [reflexivity|]. intros [i x] h1 H1. apply cur_inst_same in H1 as ->. destruct (_ && _); [|reflexivity]. apply IH, Hs.
  - apply agree_bind; [reflexivity|]. intros [i x] h1 H1. apply cur_inst_same in H1 as ->. destruct (_ && _); [|reflexivity].
    apply agree_bind; [reflexivity|]. intros u h2 H2. apply IH.
    eapply same_call_trans; [exact Hs|]. eapply upd_inst_call; [exact H2|right; exact I|apply Hs].
  - apply agree_bind; [reflexivity|]. intros [i x] h1 H1. apply cur_inst_same in H1 as ->. destruct (m_grow _); [|apply IH, Hs].
    apply agree_bind; [reflexivity|]. intros u h2 H2. apply IH.
    eapply same_call_trans; [exact Hs|]. eapply upd_inst_call; [exact H2|right; exact I|apply Hs].
  - apply agree_bind; [apply Ha, Hs|]. intros r h1 H1. rewrite <-(Ha c h Hs) in H1.
    assert (Hs1 : same_call h h1).
    { destruct (api_all n c h h1 (OOk r) (proj2 (proj2 Hs)) H1 ltac:(discriminate)) as (F & _ & Hok). split; [apply F|]. split; [apply F|exact Hok]. }
    apply agree_bind; [reflexivity|]. intros bp h2 H2. unfold GetRuntimeBreakpointValue, bind in H2.
    destruct (cur_inst h1) as [h3 [[i x]|e| |]] eqn:Hc; try discriminate. apply cur_inst_same in Hc as ->. injection H2 as <- <-.
    destruct (_ =? _); [|reflexivity]. apply IH. eapply same_call_trans; eassumption.
Qed.
End between.
