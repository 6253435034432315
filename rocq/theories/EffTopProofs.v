(** Transactions: what the entry points do, as an [eff] between a start state
    and the removal of the instance. *)
From Verif Require Import VmModel WpProofs EffProofs EffFrameProofs EffWalkProofs KeepsProofs.

Definition init0 (h : host) : host := fst (initContexts h).
(** AddTxValueToAccount *)
Definition addTx (a : bytes) (v : Z) (h : host) : host :=
  set_accounts (<[a := let x := default NewVMOutputAccount (accounts h !! a) in set_oa_delta (oa_delta x + v) x]>
                  (accounts h)) h.
Definition start (f : frame) (m : metering) (a : bytes) (v : Z) (h : host) : host :=
  stoSet a (addTx a v (set_h_met m (set_h_rt f h))).
Definition clean (h : host) : host := fst (CleanWasmerInstance h).

Lemma clean_ok h : CleanWasmerInstance h = (clean h, OOk tt).
Proof. unfold clean, CleanWasmerInstance. destruct (h_cur h); reflexivity. Qed.
Lemma clean_cur h : h_cur (clean h) = None.
Proof. unfold clean, CleanWasmerInstance. destruct (h_cur h) eqn:Hc; [reflexivity|exact Hc]. Qed.
Lemma clean_clean h : clean (clean h) = clean h.
Proof.
  unfold clean at 1. unfold CleanWasmerInstance. rewrite clean_cur. reflexivity.
Qed.
Lemma AddTx_ok a v h : AddTxValueToAccount a v h = (addTx a v h, OOk tt).
Proof.
  unfold AddTxValueToAccount, GetOutputAccount, addTx. unfold bind at 1.
  destruct (accounts h !! a) as [x|] eqn:Ha; cbn [default].
  - unfold upd_account, modify. f_equal. f_equal. apply map_eq. intros a'. destruct (decide (a = a')) as [<-|].
    + rewrite lookup_alter, lookup_insert, Ha. reflexivity.
    + rewrite lookup_alter_ne, lookup_insert_ne by assumption. reflexivity.
  - unfold upd_account, modify. f_equal. cbn [accounts set_accounts h_out set_h_out o_accounts set_o_accounts].
    change (accounts (set_accounts (<[a:=NewVMOutputAccount]> (accounts h)) h)) with (<[a:=NewVMOutputAccount]> (accounts h)).
    rewrite alter_insert. reflexivity.
Qed.

Definition call_frame (i : call_input) : frame :=
  mkFrame (ci_vm i) (ci_rcpt i) (ci_fn i) false None (mkAinfo (vi_caller (ci_vm i)) [] ∅).
Definition create_frame (i : create_input) (a : bytes) : frame :=
  set_r_addr a (set_r_input (cc_vm i) frame0).

Lemma bind_panic {A B} (m : M A) (k : A -> M B) h h1 : m h = (h1, OPanic) -> bind m k h = (h1, OPanic).
Proof. intros H. unfold bind. rewrite H. reflexivity. Qed.
Definition keeps_rt {A} (m : M A) : Prop := forall h h' r, m h = (h', r) -> h_rt h' = h_rt h.
Lemma keeps_rt_bind {A B} (m : M A) (k : A -> M B) : keeps_rt m -> (forall a, keeps_rt (k a)) -> keeps_rt (bind m k).
Proof.
  intros Hm Hk h h' r H. unfold bind in H. destruct (m h) as [h1 o] eqn:Hmh. apply Hm in Hmh. rewrite <-Hmh.
  destruct o; [apply Hk in H; exact H|injection H as <- <-; reflexivity..].
Qed.
Lemma NewAddress_rt `{E : env} a : keeps_rt (NewAddress a).
Proof.
  assert (Hl : forall A (x : res A), keeps_rt (lift x)).
  { intros A [] h h' r [= <- <-]; reflexivity. }
  apply keeps_rt_bind; [|intros n; apply Hl]. apply keeps_rt_bind.
  { intros h h' r. unfold GetOutputAccount. destruct (accounts h !! a); intros [= <- <-]; reflexivity. }
  intros [x n]. destruct (negb _); [intros h h' r [= <- <-]; reflexivity|].
  apply keeps_rt_bind; [intros h h' r [= <- <-]; reflexivity|intros w].
  apply keeps_rt_bind; [apply Hl|intros [u|] h h' r [= <- <-]; reflexivity].
Qed.

Lemma init_ok h : initContexts h = (init0 h, OOk tt).
Proof. reflexivity. Qed.
Lemma init_bind {B} (k : unit -> M B) h : bind initContexts k h = k tt (init0 h).
Proof. apply bind_ok, init_ok. Qed.
Global Opaque init0.

(** the common beginning of the entry points *)
Definition opening {A} (i : call_input) (m : vm_input -> M A) : M A :=
  runtime_InitStateFromContractCallInput i ;;;
  v <- metering_InitStateFromContractCallInput (ci_vm i) ;;
  AddTxValueToAccount (ci_rcpt i) (vi_value (ci_vm i)) ;;;
  storage_SetAddress (ci_rcpt i) ;;; m v.
Lemma opening_run {A} i (m : vm_input -> M A) h :
  h_rt h = frame0 ->
  opening i m h = m (unlockGasIfAsyncCallback (ci_vm i))
    (start (call_frame i) (met0 (ci_vm i)) (ci_rcpt i) (vi_value (ci_vm i)) h).
Proof.
  intros Hrt. unfold opening. unfold runtime_InitStateFromContractCallInput at 1. rewrite bind_modify, Hrt.
  change (mkFrame _ _ _ _ _ _) with (call_frame i).
  unfold metering_InitStateFromContractCallInput. cbv zeta. rewrite bind_assoc, bind_modify, bind_ret.
  set (h2 := set_h_met _ _). rewrite (bind_ok _ _ _ _ _ (AddTx_ok _ _ h2)). reflexivity.
Qed.
Definition opening_create {A} (i : create_input) (a : bytes) (m : M A) : M A :=
  modify (fun h => set_h_rt (set_r_addr a (set_r_input (cc_vm i) (h_rt h))) h) ;;;
  metering_InitStateFromContractCallInput (cc_vm i) ;;;
  AddTxValueToAccount a (vi_value (cc_vm i)) ;;;
  storage_SetAddress a ;;; m.
Lemma opening_create_run {A} i a (m : M A) h :
  h_rt h = frame0 ->
  opening_create i a m h = m (start (create_frame i a) (met0 (cc_vm i)) a (vi_value (cc_vm i)) h).
Proof.
  intros Hrt. unfold opening_create. rewrite bind_modify, Hrt.
  change (set_r_addr a (set_r_input (cc_vm i) frame0)) with (create_frame i a).
  unfold metering_InitStateFromContractCallInput. cbv zeta. rewrite bind_assoc, bind_modify, bind_ret.
  set (h2 := set_h_met _ _). rewrite (bind_ok _ _ _ _ _ (AddTx_ok _ _ h2)). reflexivity.
Qed.
Lemma cleaning_ext (m m' : M vm_output) `{E : env} h h1 :
  m h = m' h1 -> cleaning (orErrorOutput m) h = cleaning (orErrorOutput m') h1.
Proof.
  intros H. unfold cleaning, deferring, orErrorOutput, bind, try. rewrite H. reflexivity.
Qed.
Lemma cleaning_fuel {A} (m : M A) (k : A -> M vm_output) `{E : env} h h1 :
  m h = (h1, OFuel) -> cleaning (orErrorOutput (bind m k)) h = (h1, OFuel).
Proof. intros H. unfold cleaning, deferring, orErrorOutput, bind, try. rewrite H. reflexivity. Qed.
Lemma init0_rt h : h_rt (init0 h) = frame0.
Proof. Transparent init0. reflexivity. Opaque init0. Qed.
Lemma doCall_eq `{E : env} run rd i h : doRunSmartContractCall run rd i h = cleaning (orErrorOutput (opening i (fun v =>
    checkGasForGetCode v ;;;
    contract <- map_err GetSCCode (fun _ => ErrContractNotFound) ;;
    map_err (DeductInitialGasForExecution contract) (fun _ => ErrNotEnoughGas) ;;;
    g <- GetGasForExecution ;;
    map_err (StartWasmerInstance contract g false) (fun _ => ErrContractInvalid) ;;;
    callSCMethod run rd ;;;
    o <- GetVMOutput ;;
    CleanWasmerInstance ;;;
    ret o))) (init0 h).
Proof. unfold doRunSmartContractCall. rewrite init_bind. reflexivity. Qed.
Lemma doUpgrade_eq `{E : env} run rd i h : doRunSmartContractUpgrade run rd i h = cleaning (orErrorOutput (opening i (fun _ =>
    '(code, meta) <- ExtractCodeUpgradeFromArgs ;;
    performCodeDeployment run rd (mkDeploy code meta (ci_rcpt i) (vi_caller (ci_vm i)))))) (init0 h).
Proof. unfold doRunSmartContractUpgrade. rewrite init_bind. reflexivity. Qed.
Lemma create_unfold `{E : env} n i : RunSmartContractCreate n i = doRunSmartContractCreate (vmRun n) (vmDest n) i.
Proof. reflexivity. Qed.
Lemma doCreate_eq `{E : env} run rd i h : doRunSmartContractCreate run rd i h = cleaning (orErrorOutput (
    a <- NewAddress (vi_caller (cc_vm i)) ;;
    opening_create i a (performCodeDeployment run rd (mkDeploy (cc_code i) (cc_meta i) a (vi_caller (cc_vm i)))))) (init0 h).
Proof. unfold doRunSmartContractCreate. rewrite init_bind. reflexivity. Qed.

Section top.
Context `{E : env} (O : opts).
Hypothesis codes_ok : forall code m, e_compile E code = Some m -> mod_ok O m.

Lemma good_clean p h : good O p h -> good O p (clean h).
Proof.
  unfold clean, CleanWasmerInstance. destruct (h_cur h); [|auto]. intros [H1 H2]. split; [exact H1|].
  eapply mods_sub; [|exact H2]. cbn. apply delete_subseteq.
Qed.

(** the body of an entry point; it removes the instance only when it succeeds *)
Definition ends_at (m : M vm_output) (h : host) : Prop :=
  forall h' r, m h = (h', r) -> r <> OFuel ->
    exists h2, eff O true h h2 (pan r) /\ (h' = h2 \/ h' = clean h2 /\ exists o, r = OOk o).
Definition ends_clean (m : M vm_output) : Prop := forall h, good O true h -> ends_at m h.
Lemma ends_clean_walk m : walk O (true, true) m -> ends_clean m.
Proof. intros Hm h Hg h' r H Hr. exists h'. split; [exact (Hm h h' r Hg H Hr)|auto]. Qed.
Lemma ends_clean_bind {A} (m : M A) k : walk O (true, true) m -> (forall a, ends_clean (k a)) -> ends_clean (bind m k).
Proof.
  intros Hm Hk h Hg h' r H Hr. unfold bind in H. destruct (m h) as [h1 o] eqn:Hmh.
  assert (Ho : o <> OFuel) by (intros ->; congruence).
  pose proof (Hm h h1 o Hg Hmh Ho) as H1. cbn [snd fst] in H1. destruct o as [a|e| |].
  - destruct (Hk a h1 (eff_good O true _ _ _ _ H1 Hg) h' r H Hr) as (h2 & H2 & Hc).
    exists h2. split; [eapply eff_seq; eauto|exact Hc].
  - injection H as <- <-. eauto.
  - injection H as <- <-. eauto.
  - congruence.
Qed.
Definition ends_clean0 (m : M vm_output) : Prop := forall h, good O true h -> unstarted O h -> ends_at m h.
Lemma ends_clean0_pre {A} (m : M A) k :
  walk O (true, true) m -> keeps (fun h => (h_cur h, h_ist h)) m -> (forall a, ends_clean0 (k a)) -> ends_clean0 (bind m k).
Proof.
  intros Hm Hc Hk h Hg Hu h' r H Hr. unfold bind in H. destruct (m h) as [h1 o] eqn:Hmh.
  assert (Ho : o <> OFuel) by (intros ->; congruence).
  pose proof (Hm h h1 o Hg Hmh Ho) as H1. cbn [snd fst] in H1. pose proof (Hc h h1 o Hmh) as U. injection U as U1 U2.
  destruct o as [a|e| |].
  - destruct (Hk a h1 (eff_good O true _ _ _ _ H1 Hg) ltac:(intros Ho1; specialize (Hu Ho1); congruence) h' r H Hr) as (h2 & H2 & Hc2).
    exists h2. split; [eapply eff_seq; eauto|exact Hc2].
  - injection H as <- <-. eauto.
  - injection H as <- <-. eauto.
  - congruence.
Qed.
Lemma ends_clean0_post {A} (m : M A) k : walk0 O true m -> (forall a, ends_clean (k a)) -> ends_clean0 (bind m k).
Proof.
  intros Hm Hk h Hg Hu h' r H Hr. unfold bind in H. destruct (m h) as [h1 o] eqn:Hmh.
  assert (Ho : o <> OFuel) by (intros ->; congruence).
  pose proof (Hm h h1 o Hg Hu Hmh Ho) as H1. cbn [snd fst] in H1. destruct o as [a|e| |].
  - destruct (Hk a h1 (eff_good O true _ _ _ _ H1 Hg) h' r H Hr) as (h2 & H2 & Hc).
    exists h2. split; [eapply eff_seq; eauto|exact Hc].
  - injection H as <- <-. eauto.
  - injection H as <- <-. eauto.
  - congruence.
Qed.
Lemma ends_clean_output : ends_clean (o <- GetVMOutput ;; CleanWasmerInstance ;;; ret o).
Proof.
  apply ends_clean_bind; [apply walk_GetVMOutput|]. intros o h Hg h' r H Hr.
  rewrite (bind_ok _ _ _ _ _ (clean_ok h)) in H. injection H as <- <-. exists h. split; [apply E_refl|eauto].
Qed.

Lemma cleaning_top m h h' r :
  ends_at m h -> good O true h -> cleaning (orErrorOutput m) h = (h', r) -> r <> OFuel ->
  exists h2, eff O true h h2 (pan r) /\ h' = clean h2.
Proof.
  intros Hm Hg H Hr. unfold cleaning, deferring in H.
  destruct (orErrorOutput m h) as [h1 o] eqn:Ho.
  unfold orErrorOutput in Ho. unfold bind, try in Ho. destruct (m h) as [h0 o0] eqn:Hm0.
  destruct o0 as [x|e| |]; cbv beta iota in Ho.
  - injection Ho as <- <-. rewrite (bind_ok _ _ _ _ _ (clean_ok h0)) in H. injection H as <- <-.
    destruct (Hm h0 (OOk x) Hm0) as (h2 & He & [->|[-> _]]); [discriminate|eauto|].
    exists h2. split; [exact He|]. apply clean_clean.
  - destruct (CreateErr_ok O e h0) as (h2 & x & Hx). rewrite Hx in Ho. injection Ho as <- <-.
    rewrite (bind_ok _ _ _ _ _ (clean_ok h2)) in H. injection H as <- <-.
    destruct (Hm h0 (OErr e) Hm0) as (h3 & He & [->|[_ [? ?]]]); [discriminate| |discriminate].
    exists h2. split; [|reflexivity]. eapply eff_seq; [exact He|].
    apply (walk_CreateErr O (true, true) e h3 h2 (OOk x)); [exact (eff_good O true _ _ _ _ He Hg)|exact Hx|discriminate].
  - injection Ho as <- <-. rewrite clean_ok in H. injection H as <- <-.
    destruct (Hm h0 OPanic Hm0) as (h2 & He & [->|[_ [? ?]]]); [discriminate|eauto|discriminate].
  - injection Ho as <- <-. injection H as <- <-. congruence.
Qed.

Section starts.
Context (run : prog -> M bool) (rd : edf).
Hypothesis Hrun : forall l p, prog_ok O p -> walk O (true, l) (run p).
Hypothesis Hrd : walk_ed O rd.

Lemma ends_deploy d : ends_clean0 (performCodeDeployment run rd d).
Proof.
  unfold performCodeDeployment. apply ends_clean0_post; [|intros _; apply ends_clean_output].
  apply walk0_deploy; assumption.
Qed.
Lemma ends_call v : ends_clean0 (
    checkGasForGetCode v ;;;
    contract <- map_err GetSCCode (fun _ => ErrContractNotFound) ;;
    map_err (DeductInitialGasForExecution contract) (fun _ => ErrNotEnoughGas) ;;;
    g <- GetGasForExecution ;;
    map_err (StartWasmerInstance contract g false) (fun _ => ErrContractInvalid) ;;;
    callSCMethod run rd ;;;
    o <- GetVMOutput ;;
    CleanWasmerInstance ;;;
    ret o).
Proof.
  apply ends_clean0_pre; [apply walk_fail_if|kp|intros _].
  apply ends_clean0_pre; [apply walk_map_err, walk_GetSCCode|kp|intros contract].
  apply ends_clean0_pre; [apply walk_map_err, walk_deductExec, codes_ok| |intros _].
  { unfold map_err, DeductInitialGasForExecution. apply keeps_bind; [|intros [u|e]; kp]. apply keeps_try. destruct (e_aot E); apply keeps_cur_deduct. }
  apply ends_clean0_pre; [apply walk_gets|kp|intros g].
  apply ends_clean0_post; [apply walk0_map_err, walk0_Start, codes_ok|intros _].
  apply ends_clean_bind; [apply walk_callSC; assumption|intros _]. apply ends_clean_output.
Qed.
Lemma ends_upgrade i : ends_clean0 (
    '(code, meta) <- ExtractCodeUpgradeFromArgs ;;
    performCodeDeployment run rd (mkDeploy code meta (ci_rcpt i) (vi_caller (ci_vm i)))).
Proof.
  apply ends_clean0_pre; [apply walk_ExtractCode|kp|intros [code meta]]. apply ends_deploy.
Qed.
End starts.

Lemma good_init0 h : good O true h -> good O true (init0 h).
Proof. Transparent init0. intros H. exact H. Opaque init0. Qed.
Lemma ends_err a h0 h1 (k : bytes -> M vm_output) e :
  good O true h0 -> NewAddress a h0 = (h1, OErr e) -> ends_at (bind (NewAddress a) k) h0.
Proof.
  intros Hg Hn h' r H Hr. rewrite (bind_err _ _ _ _ _ Hn) in H. injection H as <- <-. exists h1. split; [|auto].
  apply (walk_NewAddress O (true, true) _ _ _ _ Hg Hn). discriminate.
Qed.
Lemma ends_panic a h0 h1 (k : bytes -> M vm_output) :
  good O true h0 -> NewAddress a h0 = (h1, OPanic) -> ends_at (bind (NewAddress a) k) h0.
Proof.
  intros Hg Hn h' r H Hr. rewrite (bind_panic _ _ _ _ Hn) in H. injection H as <- <-. exists h1. split; [|auto].
  apply (walk_NewAddress O (true, true) _ _ _ _ Hg Hn). discriminate.
Qed.
Lemma good_start f m a v h : good O true h -> good O true (start f m a v h).
Proof. intros H. exact H. Qed.

Lemma unstarted_start f m a v h : unstarted O h -> unstarted O (start f m a v (init0 h)).
Proof. Transparent init0. intros H. exact H. Opaque init0. Qed.
Lemma unstarted_init0 h : unstarted O h -> unstarted O (init0 h).
Proof. Transparent init0. intros H. exact H. Opaque init0. Qed.
Lemma call_top0 n i h h' r :
  good O true h -> unstarted O h -> RunSmartContractCall n i h = (h', r) -> r <> OFuel ->
  exists h2, eff O true (start (call_frame i) (met0 (ci_vm i)) (ci_rcpt i) (vi_value (ci_vm i)) (init0 h)) h2 (pan r) /\
    h' = clean h2.
Proof.
  intros Hg Hu H Hr. unfold RunSmartContractCall, RunSmartContractCallIn in H.
  destruct (walk_vm O codes_ok n) as [Hd Hs].
  assert (Hrun : forall l p, prog_ok O p -> walk O (true, l) (vmRun n p)) by (intros; apply walk_vmRun; assumption).
  assert (Hg1 := good_start (call_frame i) (met0 (ci_vm i)) (ci_rcpt i) (vi_value (ci_vm i)) _ (good_init0 _ Hg)).
  destruct (beq _ _).
  - rewrite doUpgrade_eq, (cleaning_ext _ _ _ _ (opening_run _ _ _ (init0_rt _))) in H.
    eapply cleaning_top; [|exact Hg1|exact H|exact Hr]. apply ends_upgrade; [assumption..|]. apply unstarted_start, Hu.
  - rewrite doCall_eq, (cleaning_ext _ _ _ _ (opening_run _ _ _ (init0_rt _))) in H.
    eapply cleaning_top; [|exact Hg1|exact H|exact Hr]. apply ends_call; [assumption..|]. apply unstarted_start, Hu.
Qed.

Lemma create_ext run rd i h h1 a :
  NewAddress (vi_caller (cc_vm i)) h = (h1, OOk a) -> h_rt h1 = frame0 ->
  cleaning (orErrorOutput (
    a <- NewAddress (vi_caller (cc_vm i)) ;;
    opening_create i a (performCodeDeployment run rd (mkDeploy (cc_code i) (cc_meta i) a (vi_caller (cc_vm i)))))) h
  = cleaning (orErrorOutput (performCodeDeployment run rd (mkDeploy (cc_code i) (cc_meta i) a (vi_caller (cc_vm i)))))
    (start (create_frame i a) (met0 (cc_vm i)) a (vi_value (cc_vm i)) h1).
Proof.
  intros Hn Hrt. apply cleaning_ext. rewrite (bind_ok _ _ _ _ _ Hn). apply (opening_create_run _ _ _ _ Hrt).
Qed.
Lemma cleaning_err m h h1 h' e o : m h = (h1, OErr e) -> cleaning (orErrorOutput m) h = (h', OOk o) ->
  exists e h4 h5, CreateVMOutputInCaseOfError e h4 = (h5, OOk o).
Proof.
  intros Hm H. unfold cleaning, deferring, orErrorOutput, bind, try in H. rewrite Hm in H. cbv beta iota in H.
  destruct (CreateErr_ok O e h1) as (h5 & x & Hx). rewrite Hx in H. rewrite clean_ok in H. injection H as _ <-. eauto.
Qed.
Lemma cleaning_panic m h h1 h' o : m h = (h1, OPanic) -> cleaning (orErrorOutput m) h = (h', OOk o) -> False.
Proof.
  intros Hm H. unfold cleaning, deferring, orErrorOutput, bind, try in H. rewrite Hm in H. cbv beta iota in H.
  rewrite clean_ok in H. discriminate.
Qed.
Lemma create_top_aux n i h0 h' r :
  good O true h0 -> unstarted O h0 -> h_rt h0 = frame0 -> cleaning (orErrorOutput (
    a <- NewAddress (vi_caller (cc_vm i)) ;;
    opening_create i a (performCodeDeployment (vmRun n) (vmDest n)
      (mkDeploy (cc_code i) (cc_meta i) a (vi_caller (cc_vm i)))))) h0 = (h', r) -> r <> OFuel ->
  exists h1 b1, eff O true h0 h1 b1 /\
    ((h' = clean h1 /\ b1 = pan r /\ forall o, r = OOk o -> exists e h4 h5, CreateVMOutputInCaseOfError e h4 = (h5, OOk o)) \/
     exists a h2, b1 = false /\ eff O true (start (create_frame i a) (met0 (cc_vm i)) a (vi_value (cc_vm i)) h1) h2 (pan r) /\
       h' = clean h2 /\ NewAddress (vi_caller (cc_vm i)) h0 = (h1, OOk a)).
Proof.
  intros Hg0 Hu0 Hrt0 Hc Hr. destruct (walk_vm O codes_ok n) as [Hd Hs].
  assert (Hrun : forall l p, prog_ok O p -> walk O (true, l) (vmRun n p)) by (intros; apply walk_vmRun; assumption).
  destruct (NewAddress (vi_caller (cc_vm i)) h0) as [h1 o] eqn:Hn.
  destruct o as [a|e| |].
  - assert (He : eff O true h0 h1 false)
      by (apply (walk_NewAddress O (true, true) _ _ _ _ Hg0 Hn); discriminate).
    assert (Hrt : h_rt h1 = frame0). { rewrite (NewAddress_rt _ _ _ _ Hn). exact Hrt0. }
    exists h1, false. split; [exact He|]. right. exists a.
    assert (Hg1 := good_start (create_frame i a) (met0 (cc_vm i)) a (vi_value (cc_vm i)) _ (eff_good O true _ _ _ _ He Hg0)).
    assert (Hc1 := create_ext (vmRun n) (vmDest n) _ _ _ _ Hn Hrt). rewrite Hc in Hc1. symmetry in Hc1.
    destruct (fun H => cleaning_top _ _ _ _ H Hg1 Hc1 Hr) as (h3 & He3 & ->); [apply ends_deploy; [assumption..|]|eauto 8].
    assert (Hk : keeps (fun h => (h_cur h, h_ist h)) (NewAddress (vi_caller (cc_vm i)))) by kp.
    apply Hk in Hn. injection Hn as N1 N2. intros Ho1. specialize (Hu0 Ho1). cbn. congruence.
  - destruct (cleaning_top _ _ _ _ (ends_err _ _ _ _ e Hg0 Hn) Hg0 Hc Hr) as (h3 & He3 & Hh').
    exists h3, (pan r). split; [exact He3|]. left. split; [exact Hh'|]. split; [reflexivity|]. intros o ->.
    exact (cleaning_err _ _ _ _ _ _ (bind_err _ _ _ _ _ Hn) Hc).
  - destruct (cleaning_top _ _ _ _ (ends_panic _ _ _ _ Hg0 Hn) Hg0 Hc Hr) as (h3 & He3 & Hh').
    exists h3, (pan r). split; [exact He3|]. left. split; [exact Hh'|]. split; [reflexivity|]. intros o ->. exfalso.
    exact (cleaning_panic _ _ _ _ _ (bind_panic _ _ _ _ Hn) Hc).
  - exfalso. rewrite (cleaning_fuel _ _ _ _ Hn) in Hc. congruence.
Qed.
Lemma create_top0 n i h h' r :
  good O true h -> unstarted O h -> RunSmartContractCreate n i h = (h', r) -> r <> OFuel ->
  exists h1 b1, eff O true (init0 h) h1 b1 /\
    ((h' = clean h1 /\ b1 = pan r /\ forall o, r = OOk o -> exists e h4 h5, CreateVMOutputInCaseOfError e h4 = (h5, OOk o)) \/
     exists a h2, b1 = false /\ eff O true (start (create_frame i a) (met0 (cc_vm i)) a (vi_value (cc_vm i)) h1) h2 (pan r) /\
       h' = clean h2 /\ NewAddress (vi_caller (cc_vm i)) (init0 h) = (h1, OOk a)).
Proof.
  intros Hg Hu Hc Hr. rewrite create_unfold, doCreate_eq in Hc.
  exact (create_top_aux n i (init0 h) h' r (good_init0 _ Hg) (unstarted_init0 h Hu) (init0_rt h) Hc Hr).
Qed.
End top.

Section lax_top.
Context `{E : env} (O : opts) `{L : !lax O}.
Hypothesis codes_ok : forall code m, e_compile E code = Some m -> mod_ok O m.
Lemma call_top n i h h' r :
  good O true h -> RunSmartContractCall n i h = (h', r) -> r <> OFuel ->
  exists h2, eff O true (start (call_frame i) (met0 (ci_vm i)) (ci_rcpt i) (vi_value (ci_vm i)) (init0 h)) h2 (pan r) /\
    h' = clean h2.
Proof. intros Hg. apply call_top0; [exact codes_ok|exact Hg|apply lax_unstarted; exact L]. Qed.
Lemma create_top n i h h' r :
  good O true h -> RunSmartContractCreate n i h = (h', r) -> r <> OFuel ->
  exists h1 b1, eff O true (init0 h) h1 b1 /\
    ((h' = clean h1 /\ b1 = pan r /\ forall o, r = OOk o -> exists e h4 h5, CreateVMOutputInCaseOfError e h4 = (h5, OOk o)) \/
     exists a h2, b1 = false /\ eff O true (start (create_frame i a) (met0 (cc_vm i)) a (vi_value (cc_vm i)) h1) h2 (pan r) /\
       h' = clean h2 /\ NewAddress (vi_caller (cc_vm i)) (init0 h) = (h1, OOk a)).
Proof. intros Hg. apply create_top0; [exact codes_ok|exact Hg|apply lax_unstarted; exact L]. Qed.
End lax_top.
