(** Parts of the state that a computation leaves alone, and the states in which
    the host starts contract code. *)
From Verif Require Import VmModel WpProofs EffProofs EffFrameProofs EffWalkProofs EffTopProofs CallSpec.
From Verif Require Export KeepsProofs.

Section parts.
Context `{E : env}.
Notation fbig := (fun h => (h_big h, h_ist h, h_stoaddr h, h_rtst h, h_bigst h, h_rt h)).

Lemma k_TransferValueOnly d s v c : keeps fbig (TransferValueOnly d s v c).
Proof. kp. Qed.
Lemma k_handleBuiltin i : keeps fbig (handleBuiltinFunctionCall i).
Proof. kp. Qed.
Lemma k_CreateErr e : keeps fbig (CreateVMOutputInCaseOfError e).
Proof. kp. Qed.
End parts.

(** * Where contract code is started

    [starts Q P m]: from a state with [Q], [m run] starts contract code (calls
    [run]) only in states with [P]: runners that agree there give the same
    execution. *)
Definition starts {A} (Q P : host -> Prop) (m : (prog -> M bool) -> M A) : Prop :=
  forall run1 run2, (forall p h, P h -> run1 p h = run2 p h) -> forall h, Q h -> m run1 h = m run2 h.

Section starts.
Context (P : host -> Prop).
Lemma starts_const {A} Q (m : M A) : starts Q P (fun _ => m).
Proof. intros run1 run2 _ h _. reflexivity. Qed.
(** before: the code run by [m] does not contain a start and makes [Q'] of [Q] *)
Lemma starts_before {A B} (Q Q' : host -> Prop) (m : M A) (k : (prog -> M bool) -> A -> M B) :
  (forall h h' a, Q h -> m h = (h', OOk a) -> Q' h') -> (forall a, starts Q' P (fun run => k run a)) ->
  starts Q P (fun run => bind m (k run)).
Proof.
  intros Hm Hk run1 run2 Hr h HQ. unfold bind. destruct (m h) as [h1 [a|e| |]] eqn:Hmh; try reflexivity.
  apply (Hk a run1 run2 Hr). exact (Hm h h1 a HQ Hmh).
Qed.
Lemma starts_after {A B} Q (m : (prog -> M bool) -> M A) (k : A -> M B) :
  starts Q P m -> starts Q P (fun run => bind (m run) k).
Proof. intros Hm run1 run2 Hr h HQ. unfold bind. rewrite (Hm run1 run2 Hr h HQ). reflexivity. Qed.
Lemma starts_try {A} Q (m : (prog -> M bool) -> M A) : starts Q P m -> starts Q P (fun run => try (m run)).
Proof. intros Hm run1 run2 Hr h HQ. unfold try. rewrite (Hm run1 run2 Hr h HQ). reflexivity. Qed.
Lemma starts_run {p} : starts P P (fun run => run p).
Proof. intros run1 run2 Hr h HQ. apply Hr, HQ. Qed.
Lemma keeps_pre {X A} (f : host -> X) (m : M A) (Q : host -> Prop) :
  keeps f m -> (forall h h', f h' = f h -> Q h -> Q h') -> forall h h' a, Q h -> m h = (h', OOk a) -> Q h'.
Proof. intros Hk HQ h h' a Hh H. apply Hk in H. eapply HQ; eauto. Qed.
End starts.

Notation fent := (fun h => (h_big h, h_ist h, h_stoaddr h, r_addr (h_rt h), vi_caller (r_input (h_rt h)),
   vi_value (r_input (h_rt h)), vi_esdt (r_input (h_rt h)), vi_ctype (r_input (h_rt h)), r_ro (h_rt h))).
Section exec.
Context `{E : env}.

Lemma k_CleanWasmer : keeps fent CleanWasmerInstance.
Proof. intros h h' r H. unfold CleanWasmerInstance in H. destruct (h_cur h); injection H as <- <-; reflexivity. Qed.
Hint Resolve k_CleanWasmer : keeps.
Lemma k_new_instance m g : keeps fent (new_instance m g).
Proof. intros h h' r [= <- <-]. reflexivity. Qed.
Hint Resolve k_new_instance : keeps.
Lemma k_Start c g n : keeps fent (StartWasmerInstance c g n).
Proof. kp. Qed.
Lemma Start_shallow c g n h h' a : StartWasmerInstance c g n h = (h', OOk a) -> shallow h'.
Proof.
  intros H. pose proof (k_Start _ _ _ _ _ _ H) as Hk. injection Hk as H1 H2 H3 H4 H5 H6 H7 H8 H9.
  unfold shallow. replace (h_ist h') with (h_ist h) by congruence. unfold StartWasmerInstance in H. rewrite bind_gets in H.
  destruct (_ <=? _)%nat eqn:Hl; [discriminate|]. apply Nat.leb_gt in Hl. exact Hl.
Qed.
Lemma k_GetInit : keeps fent GetInitFunction.
Proof. kp. Qed.
Lemma k_GetFunction : keeps fent GetFunctionToCall.
Proof. kp. Qed.
Lemma k_Extract : keeps fent ExtractCodeUpgradeFromArgs.
Proof. kp. Qed.
Lemma k_deduct d : keeps fent (orOutOfGas (DeductInitialGasForDirectDeployment d)).
Proof. kp. Qed.
Lemma k_deductE c : keeps fent (DeductInitialGasForExecution c).
Proof. kp. Qed.
Lemma k_GetSCCode : keeps fent GetSCCode.
Proof. kp. Qed.
Lemma k_byType t : keeps fent (getFunctionByCallType t).
Proof. kp. Qed.
Lemma k_UseGas g : keeps fent (UseGas g).
Proof. kp. Qed.
Lemma k_Transfer d s v c : keeps fent (TransferValueOnly d s v c).
Proof. kp. Qed.

Section in_frame.
Context (v0 : gmap Z Z * list (option nat) * bytes * bytes * bytes * Z * list esdt_transfer * call_type * bool) (rd : edf).
Let Q := fun h : host => fent h = v0.
Let P := fun h : host => fent h = v0 /\ shallow h.
Local Lemma preQ {A} (m : M A) : keeps fent m -> forall h h' a, Q h -> m h = (h', OOk a) -> Q h'.
Proof. intros Hm. apply (keeps_pre fent); [exact Hm|]. intros h h' H1 H2. unfold Q in *. etransitivity; [exact H1|exact H2]. Qed.
Local Lemma preP {A} (m : M A) : keeps fent m -> forall h h' a, P h -> m h = (h', OOk a) -> P h'.
Proof.
  intros Hm h h' a [HQ Hs] H. split; [exact (preQ m Hm h h' a HQ H)|]. apply Hm in H.
  injection H as H1 H2 H3 H4 H5 H6 H7 H8 H9. unfold shallow in *. rewrite H2. exact Hs.
Qed.
Local Lemma preStart {A} (m : M A) : keeps fent m -> (forall h h' a, m h = (h', OOk a) -> shallow h') ->
  forall h h' a, Q h -> m h = (h', OOk a) -> P h'.
Proof. intros Hm Hs h h' a HQ H. split; [eapply preQ; eauto|eapply Hs, H]. Qed.

Lemma st_callFunction p : starts P P (fun run => callFunction run rd p).
Proof. unfold callFunction. apply starts_after, starts_run. Qed.
Lemma st_callInit : starts P P (fun run => callInitFunction run rd).
Proof.
  unfold callInitFunction. apply (starts_before P P P); [apply preP, k_GetInit|]. intros [p|]; [|apply starts_const].
  apply starts_after, st_callFunction.
Qed.
Lemma st_indirect : starts P P (fun run => callSCMethodIndirect run rd).
Proof.
  unfold callSCMethodIndirect. apply (starts_before P P P); [apply preP, keeps_try, k_GetFunction|].
  intros [p|e]; [apply st_callFunction|apply starts_const].
Qed.
Lemma st_deploy d : starts Q P (fun run => deployContract run rd d).
Proof.
  unfold deployContract. apply (starts_before P Q Q); [apply preQ, k_deduct|intros _].
  apply (starts_before P Q Q); [apply preQ; kp|intros _]. apply (starts_before P Q Q); [apply preQ; kp|intros g].
  apply (starts_before P Q P).
  - apply preStart.
    + unfold map_err. apply keeps_bind; [apply keeps_try, k_Start|]. kp.
    + intros h h' a H. unfold map_err, bind, try in H. destruct (StartWasmerInstance _ _ _ h) as [h1 [[]|e| |]] eqn:Hs; try discriminate.
      injection H as <- <-. eapply Start_shallow, Hs.
  - intros _. apply starts_after, st_callInit.
Qed.
Lemma st_upgrade i : starts Q P (fun run => executeUpgrade run rd i).
Proof.
  unfold executeUpgrade. apply (starts_before P Q Q); [apply preQ; kp|intros w].
  apply (starts_before P Q Q); [apply preQ; kp|intros _].
  apply (starts_before P Q Q); [apply preQ, k_Extract|intros [code meta]]. apply starts_after, st_deploy.
Qed.
Lemma st_execute i : starts Q P (fun run => execute run rd i).
Proof.
  unfold execute. apply (starts_before P Q Q); [apply preQ; kp|intros fn].
  apply (starts_before P Q Q); [apply preQ; kp|intros _]. apply (starts_before P Q Q); [apply preQ, k_UseGas|intros _].
  destruct (beq _ _); [apply st_upgrade|].
  apply (starts_before P Q Q); [apply preQ, k_GetSCCode|intros c].
  apply (starts_before P Q Q); [apply preQ, k_deductE|intros _]. apply (starts_before P Q Q); [apply preQ; kp|intros g].
  apply (starts_before P Q P); [apply preStart; [apply k_Start|intros; eapply Start_shallow; eauto]|intros _].
  apply starts_after, st_indirect.
Qed.
Lemma st_destBody i : starts Q P (fun run => destBody run rd i).
Proof.
  unfold destBody. apply starts_after, starts_try.
  apply (starts_before P Q Q); [|intros _; apply st_execute].
  destruct (_ || _); [apply preQ, k_Transfer|apply preQ; kp].
Qed.
Lemma st_callSC : starts P P (fun run => callSCMethod run rd).
Proof.
  unfold callSCMethod. apply (starts_before P P P); [apply preP; kp|intros _].
  apply (starts_before P P P); [apply preP; kp|intros c].
  apply (starts_before P P P); [apply preP, keeps_try, k_byType|].
  intros [[p|]|e]; [|apply starts_const..]. apply starts_after, st_callFunction.
Qed.

Lemma st_map_err_start c g n f : forall h h' a, Q h -> map_err (StartWasmerInstance c g n) f h = (h', OOk a) -> P h'.
Proof.
  apply preStart.
  - unfold map_err. apply keeps_bind; [apply keeps_try, k_Start|]. kp.
  - intros h h' a H. unfold map_err, bind, try in H. destruct (StartWasmerInstance _ _ _ h) as [h1 [[]|e| |]] eqn:Hs; try discriminate.
    injection H as <- <-. eapply Start_shallow, Hs.
Qed.
Lemma k_map_err {A} (m : M A) f : keeps fent m -> keeps fent (map_err m f).
Proof. intros H. unfold map_err. apply keeps_bind; [apply keeps_try, H|]. kp. Qed.
Lemma st_doCall v : starts Q P (fun run =>
    checkGasForGetCode v ;;;
    contract <- map_err GetSCCode (fun _ => ErrContractNotFound) ;;
    map_err (DeductInitialGasForExecution contract) (fun _ => ErrNotEnoughGas) ;;;
    g <- GetGasForExecution ;;
    map_err (StartWasmerInstance contract g false) (fun _ => ErrContractInvalid) ;;;
    callSCMethod run rd ;;;
    o <- GetVMOutput ;;
    CleanWasmerInstance ;;;
    ret o).
Proof.
  apply (starts_before P Q Q); [apply preQ; kp|intros _].
  apply (starts_before P Q Q); [apply preQ, k_map_err, k_GetSCCode|intros c].
  apply (starts_before P Q Q); [apply preQ, k_map_err, k_deductE|intros _].
  apply (starts_before P Q Q); [apply preQ; kp|intros g].
  apply (starts_before P Q P); [apply st_map_err_start|intros _]. apply starts_after, st_callSC.
Qed.
Lemma st_perform d : starts Q P (fun run => performCodeDeployment run rd d).
Proof. unfold performCodeDeployment. apply starts_after, st_deploy. Qed.
End in_frame.


Lemma fent_entered i ro rest h h' : fent h' = fent h -> entered i ro rest h -> entered i ro rest h'.
Proof. intros [= H1 H2 H3 H4 H5 H6 H7 H8 H9] []. constructor; congruence. Qed.
Lemma entered_push i h : entered i (r_ro (h_rt h)) (h_cur h :: h_ist h) (destPush i h).
Proof.
  destruct (copyTx_same (r_input (h_rt h)) i) as (R1 & R2 & R3 & R4 & R5 & R6 & R7 & _ & _ & R8).
  constructor; try reflexivity; assumption.
Qed.

(** the states in which a call on the destination's context starts code *)
Lemma starts_nb i rd h :
  starts_only_in (fun hs => entered i (r_ro (h_rt h)) (h_cur h :: h_ist h) hs /\ shallow hs)
    (fun run => executeOnDestContextNoBuiltinFunction run rd i) h.
Proof.
  intros run1 run2 Hr. unfold executeOnDestContextNoBuiltinFunction. rewrite !(bind_ok _ _ _ _ _ (pushDest_eq i h)).
  unfold deferring.
  rewrite (st_destBody (fent (destPush i h)) rd (unlocked (dest_input i h)) run1 run2) with (h := destPush i h); [reflexivity| |reflexivity].
  intros p hs [Hq Hs]. apply Hr. split; [|exact Hs]. exact (fent_entered _ _ _ _ _ Hq (entered_push i h)).
Qed.

(** * Calls on the same context: the big-integer store is shared *)
Lemma starts_same i rd h :
  starts_only_in (fun hs => h_ist hs = h_cur h :: h_ist h /\ h_big hs = h_big h /\ h_stoaddr hs = h_stoaddr h /\
      r_addr (h_rt hs) = ci_rcpt i /\ vi_caller (r_input (h_rt hs)) = vi_caller (ci_vm i) /\
      vi_value (r_input (h_rt hs)) = vi_value (ci_vm i) /\ r_ro (h_rt hs) = r_ro (h_rt h) /\ shallow hs)
    (fun run => ExecuteOnSameContext run rd i) h.
Proof.
  intros run1 run2 Hr. destruct (e_isBuiltin E (ci_fn i)) eqn:Hbi.
  { unfold ExecuteOnSameContext. rewrite Hbi. reflexivity. }
  rewrite !(execSame_unfold _ _ i h Hbi). cbv zeta. set (j := unlocked (dest_input i h)).
  assert (Hd : (TransferValueOnly (ci_rcpt j) (vi_caller (ci_vm j)) (vi_value (ci_vm j)) false ;;; execute run1 rd j) (samePush i h)
             = (TransferValueOnly (ci_rcpt j) (vi_caller (ci_vm j)) (vi_value (ci_vm j)) false ;;; execute run2 rd j) (samePush i h)).
  { assert (Hst : starts (fun hs => fent hs = fent (samePush i h)) (fun hs => fent hs = fent (samePush i h) /\ shallow hs) (fun run =>
      TransferValueOnly (ci_rcpt j) (vi_caller (ci_vm j)) (vi_value (ci_vm j)) false ;;; execute run rd j)).
    { apply (starts_before _ _ (fun hs => fent hs = fent (samePush i h))).
      - apply preQ, k_Transfer.
      - intros _. apply st_execute. }
    apply Hst; [|reflexivity]. intros p hs [Hq Hs]. apply Hr. injection Hq as H1 H2 H3 H4 H5 H6 H7 H8 H9.
    destruct (copyTx_same (r_input (h_rt h)) i) as (R1 & R2 & R3 & R4 & R5 & R6 & R7 & _ & _ & R8).
    split; [exact H2|]. split; [exact H1|]. split; [exact H3|]. split; [rewrite H4; assumption|]. split; [rewrite H5; assumption|].
    split; [rewrite H6; assumption|]. split; [rewrite H9; reflexivity|exact Hs]. }
  unfold deferring. rewrite Hd. reflexivity.
Qed.

(** * Entry points *)
Lemma init0_parts h : h_big (init0 h) = ∅ /\ h_ist (init0 h) = h_ist h.
Proof. Transparent init0. split; reflexivity. Opaque init0. Qed.
Lemma entered_start i h : h_big h = ∅ ->
  entered i false (h_ist h) (start (call_frame i) (met0 (ci_vm i)) (ci_rcpt i) (vi_value (ci_vm i)) h).
Proof. intros Hb. constructor; try reflexivity. exact Hb. Qed.
Lemma starts_call i rd h :
  starts_only_in (fun hs => entered i false (h_ist h) hs /\ shallow hs) (fun run => RunSmartContractCallIn run rd i) h.
Proof.
  intros run1 run2 Hr. unfold RunSmartContractCallIn. destruct (init0_parts h) as [Hb Hi].
  pose proof (entered_start i (init0 h) Hb) as Hen. rewrite Hi in Hen.
  set (hs0 := start (call_frame i) (met0 (ci_vm i)) (ci_rcpt i) (vi_value (ci_vm i)) (init0 h)) in *.
  assert (Hr' : forall p hs, fent hs = fent hs0 /\ shallow hs -> run1 p hs = run2 p hs).
  { intros p hs [Hq Hs]. apply Hr. split; [exact (fent_entered _ _ _ _ _ Hq Hen)|exact Hs]. }
  destruct (beq _ _).
  - rewrite !doUpgrade_eq, !(cleaning_ext _ _ _ _ (opening_run _ _ _ (init0_rt _))). apply cleaning_ext.
    assert (Hst : starts (fun hs => fent hs = fent hs0) (fun hs => fent hs = fent hs0 /\ shallow hs) (fun run =>
      '(code, meta) <- ExtractCodeUpgradeFromArgs ;;
      performCodeDeployment run rd (mkDeploy code meta (ci_rcpt i) (vi_caller (ci_vm i))))).
    { apply (starts_before _ _ (fun hs => fent hs = fent hs0)); [apply preQ, k_Extract|intros [code meta]]. apply st_perform. }
    apply Hst; [exact Hr'|reflexivity].
  - rewrite !doCall_eq, !(cleaning_ext _ _ _ _ (opening_run _ _ _ (init0_rt _))). apply cleaning_ext.
    apply (st_doCall (fent hs0) rd _ run1 run2 Hr' hs0 eq_refl).
Qed.
Lemma k_NewAddress a : keeps (fun h => (h_big h, h_ist h, h_rt h)) (NewAddress a).
Proof. kp. Qed.
Lemma starts_create i rd h :
  starts_only_in (fun hs => h_big hs = ∅ /\ h_ist hs = h_ist h /\ r_ro (h_rt hs) = false /\
      vi_caller (r_input (h_rt hs)) = vi_caller (cc_vm i) /\ vi_value (r_input (h_rt hs)) = vi_value (cc_vm i) /\
      h_stoaddr hs = r_addr (h_rt hs) /\ shallow hs) (fun run => doRunSmartContractCreate run rd i) h.
Proof.
  intros run1 run2 Hr. rewrite !doCreate_eq. destruct (init0_parts h) as [Hb Hi]. pose proof (init0_rt h) as Hrt.
  revert Hb Hi Hrt. generalize (init0 h). intros h0 Hb Hi Hrt.
  destruct (NewAddress (vi_caller (cc_vm i)) h0) as [h1 o] eqn:Hn.
  pose proof (k_NewAddress _ _ _ _ Hn) as Hk. injection Hk as K1 K2 K3.
  destruct o as [a|e| |]; try (apply cleaning_ext; unfold bind; rewrite Hn; reflexivity).
  rewrite !(create_ext _ _ _ _ _ _ Hn (eq_trans K3 Hrt)). apply cleaning_ext.
  set (hs0 := start _ _ _ _ h1). apply (st_perform (fent hs0) rd _ run1 run2); [|reflexivity].
  intros p hs [Hq Hs]. apply Hr. injection Hq as H1 H2 H3 H4 H5 H6 H7 H8 H9.
  split; [rewrite H1; etransitivity; [exact K1|exact Hb]|]. split; [rewrite H2; etransitivity; [exact K2|exact Hi]|].
  split; [rewrite H9; reflexivity|]. split; [rewrite H5; reflexivity|]. split; [rewrite H6; reflexivity|].
  split; [rewrite H3, H4; reflexivity|exact Hs].
Qed.
End exec.
