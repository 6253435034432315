(** What has been reported stays. *)
From Verif Require Import VmModel WpProofs EffProofs EffFrameProofs EffWalkProofs EffTopProofs CallSpec KeepProofs CallProofs TxProofs CodeProofs GasAsyncProofs GasApiProofs LastSpec.

Lemma still_refl o : still_reported o o.
Proof. split; [exists []|exists [], []]; rewrite ?app_nil_r; reflexivity. Qed.
Lemma still_same o o' : o_logs o' = o_logs o -> o_retdata o' = o_retdata o -> still_reported o o'.
Proof. intros H1 H2. split; [exists []|exists [], []]; rewrite ?app_nil_r; assumption. Qed.
Lemma still_trans o1 o2 o3 : still_reported o1 o2 -> still_reported o2 o3 -> still_reported o1 o3.
Proof.
  intros [[l1 H1] (b1 & r1 & K1)] [[l2 H2] (b2 & r2 & K2)]. split.
  - exists (l1 ++ l2). rewrite H2, H1, app_assoc. reflexivity.
  - exists (b2 ++ b1), (r1 ++ r2). rewrite K2, K1, <-!app_assoc. reflexivity.
Qed.
Lemma still_merge o1 o2 o : o_logs o = o_logs o1 ++ o_logs o2 -> o_retdata o = o_retdata o1 ++ o_retdata o2 -> still_reported o1 o.
Proof. intros H1 H2. split; [eexists; exact H1|]. exists [], (o_retdata o2). exact H2. Qed.

Section last.
Context `{E : env}.

Lemma eff_still O l h h' b : eff O l h h' b -> wf h -> still_reported (h_out h) (h_out h').
Proof.
  induction 1 as [ | l h1 h2 h3 b1 b2 H1 IH1 H2 IH2 | | | | l h o Ha Hl Hr | | | | | | l h h2 b H IH | l h s d v
    | l h f Hf | l h ro | h m g Hm | h | h m g
    | | | | | l h h2 a Ho Hc Hro H IH | | l h w i w' o o' Hb Hre | l h h2 b H IH | l h h2 rv H IH | l h h2 H IH | l h i h2 b ok H IH | l h i h2 b ok H IH]; intros Hw;
    try apply still_refl; try (apply still_same; reflexivity).
  - eapply still_trans; [apply IH1, Hw|]. apply IH2. eapply kept_wf; [apply (eff_kept O _ _ _ _ H1 Hw)|exact Hw].
  - split; [exact Hl|exact Hr].
  - exact (IH Hw).
  - exact (IH Hw).
  - eapply still_merge; reflexivity.
  - exact (IH Hw).
  - replace (h_out (bcPop rv h2)) with (h_out h2); [exact (IH Hw)|].
    unfold bcPop, blockchain_PopSetActiveState, blockchain_PopDiscard. destruct rv; cbv [bind modify]; repeat case_match; simplify_eq; reflexivity.
  - exact (IH Hw).
  - assert (Hw' : wf (destPush i h)) by exact Hw.
    pose proof (k_outst _ _ _ _ _ (eff_kept O _ _ _ _ H Hw')) as Ks. cbn in Ks.
    rewrite destPop_unfold. autorewrite with pops.
    set (h3 := metPop ok _). destruct (outPop_set h3 ok (mergeVMOutputs newVMOutput (h_out h)) (h_outst h)) as [F _].
    { unfold h3. autorewrite with pops. exact Ks. }
    rewrite F. destruct ok.
    + apply (still_merge (h_out h) (h_out h3)); reflexivity.
    + apply still_same; reflexivity.
  - assert (Hw' : wf (samePush i h)) by exact Hw.
    pose proof (k_outst _ _ _ _ _ (eff_kept O _ _ _ _ H Hw')) as Ks. cbn in Ks.
    rewrite samePop_unfold. destruct ok; autorewrite with pops.
    + exact (IH Hw').
    + set (h3 := metPop false _). destruct (outPop_set h3 false (mergeVMOutputs newVMOutput (h_out h)) (h_outst h)) as [F _].
      { unfold h3. autorewrite with pops. exact Ks. }
      rewrite F. apply still_same; reflexivity.
Qed.

Lemma last_api n c h h' r : host_ok h -> vmApi n c h = (h', r) -> r <> OFuel -> still_reported (h_out h) (h_out h').
Proof. intros [Hs Hw] H Hr. exact (eff_still _ _ _ _ _ (any_api n c h h' r Hs H Hr) Hw). Qed.
Lemma last_run n p h h' r : host_ok h -> vmRun n p h = (h', r) -> r <> OFuel -> still_reported (h_out h) (h_out h').
Proof. intros [Hs Hw] H Hr. exact (eff_still _ _ _ _ _ (any_run n p h h' r Hs H Hr) Hw). Qed.

(** * Transactions *)
Lemma step {A} (m : M A) h h1 a : walk any_opts (true, true) m -> host_ok h -> m h = (h1, OOk a) ->
  host_ok h1 /\ still_reported (h_out h) (h_out h1).
Proof.
  intros Hm Hok H. assert (He : eff any_opts true h h1 false) by (apply (Hm h h1 (OOk a) (any_good h (proj1 Hok)) H); discriminate).
  split; [exact (eff_host_ok _ _ _ _ Hok He)|exact (eff_still _ _ _ _ _ He (proj2 Hok))].
Qed.

Lemma step_type {A} (m : M A) h h1 a t : walk any_opts (true, true) m -> host_ok h -> m h = (h1, OOk a) ->
  vi_ctype (r_input (h_rt h)) <> t -> host_ok h1 /\ vi_ctype (r_input (h_rt h1)) <> t.
Proof.
  intros Hm Hok H Ht. assert (He : eff any_opts true h h1 false) by (apply (Hm h h1 (OOk a) (any_good h (proj1 Hok)) H); discriminate).
  split; [exact (eff_host_ok _ _ _ _ Hok He)|]. rewrite (k_ctype _ _ _ _ _ (eff_kept _ _ _ _ _ He (proj2 Hok))). exact Ht.
Qed.

Section tx.
Context (n : nat).
Let Hrun : forall l p, prog_ok any_opts p -> walk any_opts (true, l) (vmRun n p).
Proof. intros l p Hp. apply (walk_vmRun any_opts any_codes n l p Hp). Qed.
Let Hrd : walk_ed any_opts (vmDest n) := proj1 (walk_vm any_opts any_codes n).

Lemma callSC_runs h h' : host_ok h -> vi_ctype (r_input (h_rt h)) <> AsynchronousCallBack ->
  callSCMethod (vmRun n) (vmDest n) h = (h', OOk tt) ->
  host_ok h' /\ exists p h1 h2 b, (exists k, forall run, callSCMethod run (vmDest n) h = bind (run p) k h1) /\
    vmRun n p h1 = (h2, OOk b) /\ still_reported (h_out h2) (h_out h').
Proof.
  intros Hok Ht H. unfold callSCMethod in H. unfold callSCMethod.
  apply ok_bind in H as (h1 & [] & H1 & H).
  assert (Hrt : h_rt h1 = h_rt h).
  { unfold verifyAllowedFunctionCall in H1. rewrite bind_gets in H1. apply ok_bind in H1 as (h0 & [] & H0 & H1).
    unfold fail_if in H0, H1. destruct (isInitName _); [discriminate|]. injection H0 as <-.
    destruct (beq _ _ && _); [discriminate|]. injection H1 as <-. reflexivity. }
  destruct (step _ _ _ _ (walk_verifyAllowed any_opts (true, true)) Hok H1) as [Hok1 _].
  rewrite bind_gets in H. rewrite Hrt in H.
  apply ok_bind in H as (h2 & r & H2 & H).
  destruct (step _ _ _ _ (walk_try any_opts _ _ (proj1 (walk_getFunctionByCallType any_opts true _))) Hok1 H2) as [Hok2 _].
  destruct r as [[p|]|e].
  - apply ok_bind in H as (h4 & [] & H3 & H). unfold callFunction in H3. apply ok_bind in H3 as (h3 & b & H3 & H4).
    destruct (step _ _ _ _ (Hrun true p (any_prog p)) Hok2 H3) as [Hok3 _].
    assert (S4 : host_ok h4 /\ still_reported (h_out h3) (h_out h4)).
    { destruct b; [injection H4 as <-; split; [exact Hok3|apply still_refl]|].
      exact (step _ _ _ _ (walk_break any_opts any_codes (vmDest n) Hrd) Hok3 H4). }
    destruct S4 as [Hok4 S4].
    apply ok_bind in H as (h5 & [] & H5 & H). destruct (step _ _ _ _ (walk_checkFinal any_opts (true, true)) Hok4 H5) as [Hok5 S5].
    assert (S6 : host_ok h' /\ still_reported (h_out h5) (h_out h')).
    { refine (step _ _ _ _ _ Hok5 H). destruct (vi_ctype _).
      3: apply (walk_processCallbackStack any_opts any_codes).
      2: { apply walk_bind; [apply (walk_processAsyncInfo any_opts any_codes (vmDest n) Hrd)|intros pend].
           destruct (bool_decide _); [apply (walk_sendCb any_opts any_codes)|apply walk_ret]. }
      all: apply walk_bind; [apply (walk_processAsyncInfo any_opts any_codes (vmDest n) Hrd)|intros pend; apply walk_ret]. }
    destruct S6 as [Hok6 S6]. split; [exact Hok6|]. exists p, h2, h3, b.
    split.
    { eexists. intros run. rewrite (bind_ok _ _ _ _ _ H1), bind_gets, Hrt, (bind_ok _ _ _ _ _ H2). cbv beta iota.
      unfold callFunction. rewrite bind_assoc. reflexivity. }
    split; [exact H3|]. exact (still_trans _ _ _ S4 (still_trans _ _ _ S5 S6)).
  - discriminate H.
  - rewrite bool_decide_false in H by exact Ht. discriminate H.
Qed.

Lemma cleaning_fine m h h' o : cleaning (orErrorOutput m) h = (h', OOk o) -> o_code o = RcOk ->
  exists h1, m h = (h1, OOk o).
Proof.
  intros H Hc. destruct (m h) as [h1 [x|e| |]] eqn:Hm.
  - exists h1. unfold cleaning, deferring, orErrorOutput, bind, try in H. rewrite Hm in H. cbv beta iota in H.
    unfold ret in H. rewrite clean_ok in H. injection H as _ <-. reflexivity.
  - exfalso. destruct (cleaning_err any_opts _ _ _ _ _ _ Hm H) as (e' & h4 & h5 & He).
    unfold CreateVMOutputInCaseOfError in He. rewrite bind_gets in He. cbv zeta in He.
    apply ok_bind in He as (h6 & u & _ & He). injection He as _ <-. cbn [o_code] in Hc.
    unfold resolveReturnCodeFromError in Hc. repeat destruct (err_is _ _); discriminate Hc.
  - destruct (cleaning_panic _ _ _ _ _ Hm H).
  - unfold cleaning, deferring, orErrorOutput, bind, try in H. rewrite Hm in H. discriminate H.
Qed.

Lemma last_tx i h h' o : h_stoprot h = true -> no_stacks h -> vi_ctype (ci_vm i) <> AsynchronousCallBack -> ci_fn i <> UpgradeFunctionName ->
  RunSmartContractCall n i h = (h', OOk o) -> o_code o = RcOk ->
  exists p h1 h2 b, runs_once (fun run => RunSmartContractCallIn run (vmDest n) i) h p h1 /\
    vmRun n p h1 = (h2, OOk b) /\ still_reported (h_out h2) o.
Proof.
  intros Hs Hn Ht Hu H Hc. unfold RunSmartContractCall, RunSmartContractCallIn, beq in *. rewrite bool_decide_false in * by exact Hu.
  rewrite doCall_eq in H. apply cleaning_fine in H as [h1 H]; [|exact Hc].
  rewrite (opening_run _ _ _ (init0_rt _)) in H. set (h0 := start _ _ _ _ _) in H.
  destruct (init0_ok h) as (I0 & _ & _ & _ & _ & _ & _ & I7 & _). rewrite (ns_running _ Hn) in I7.
  assert (Hok : host_ok h0).
  { split; [exact (eq_trans I0 Hs)|]. intros j Hj. change (h_cur h0) with (h_cur (init0 h)) in Hj. rewrite I7 in Hj. discriminate. }
  assert (Hrt : vi_ctype (r_input (h_rt h0)) <> AsynchronousCallBack) by exact Ht.
  apply ok_bind in H as (h2 & [] & H2 & H).
  destruct (step_type _ _ _ _ _ (walk_fail_if any_opts _ _ _) Hok H2 Hrt) as [Hok2 Ht2].
  apply ok_bind in H as (h3 & code & H3 & H).
  destruct (step_type _ _ _ _ _ (walk_map_err any_opts _ _ _ (walk_GetSCCode any_opts _)) Hok2 H3 Ht2) as [Hok3 Ht3].
  apply ok_bind in H as (h4 & [] & H4 & H).
  destruct (step_type _ _ _ _ _ (walk_map_err any_opts _ _ _ (walk_deductExec any_opts any_codes _ _)) Hok3 H4 Ht3) as [Hok4 Ht4].
  apply ok_bind in H as (h5 & g & H5 & H). injection H5 as <- <-.
  apply ok_bind in H as (h6 & [] & H6 & H).
  destruct (step_type _ _ _ _ _ (walk_map_err any_opts _ _ _ (walk_Start any_opts any_codes _ _ _ _)) Hok4 H6 Ht4) as [Hok6 Ht6].
  apply ok_bind in H as (h7 & [] & H7 & H).
  destruct (callSC_runs _ _ Hok6 Ht6 H7) as (Hok7 & p & ha & hb & b & [k Hk] & Hr & Sb).
  exists p, ha, hb, b. split; [|split; [exact Hr|]].
  { assert (Hall : exists k', forall run, doRunSmartContractCall run (vmDest n) i h = cleaning (orErrorOutput (bind (run p) k')) ha).
    { exists (fun x => k x ;;; o <- GetVMOutput ;; CleanWasmerInstance ;;; ret o). intros run.
      rewrite doCall_eq. apply cleaning_ext. rewrite (opening_run _ _ _ (init0_rt _)). fold h0.
      rewrite (bind_ok _ _ _ _ _ H2), (bind_ok _ _ _ _ _ H3), (bind_ok _ _ _ _ _ H4). unfold GetGasForExecution. rewrite bind_gets.
      rewrite (bind_ok _ _ _ _ _ H6). etransitivity; [|apply bind_assoc]. unfold bind at 1. rewrite Hk. reflexivity. }
    destruct Hall as [k' Hall]. split.
    - intros run1 run2 Heq. rewrite !Hall. apply cleaning_ext, bind_head, Heq.
    - intros run Hp. rewrite Hall. unfold cleaning, deferring, orErrorOutput, bind, try.
      destruct (run p ha) as [hp [x|e| |]]; try discriminate Hp. rewrite clean_ok. reflexivity. }
  apply ok_bind in H as (h8 & o' & H8 & H). rewrite (bind_ok _ _ _ _ _ (clean_ok h8)) in H. injection H as _ <-.
  destruct (step _ _ _ _ (walk_GetVMOutput any_opts _) Hok7 H8) as [_ S8].
  destruct (outs_GetVMOutput _ _ _ H8) as [->|(e & msg & ->)]; [exact (still_trans _ _ _ Sb S8)|].
  cbn [o_code] in Hc. exfalso. unfold resolveReturnCodeFromError in Hc. repeat destruct (err_is _ _); discriminate Hc.
Qed.
End tx.
End last.
