(** Nested calls: what a call on the destination's context or on the same
    context is made of, and what is the same before and after. *)
From Verif Require Import VmModel WpProofs EffProofs EffFrameProofs EffWalkProofs EffTopProofs CallSpec KeepProofs.

Section any.
Context `{E : env}.

Lemma any_cmd c : cmd_ok any_opts c.
Proof. induction c as [| |B p k IH]; cbn; auto. split; [destruct p; cbn; auto|auto]. Qed.
Lemma any_prog p : prog_ok any_opts p.
Proof. induction p; cbn; auto using any_cmd. Qed.
Lemma any_mod m : mod_ok any_opts m.
Proof. intros name p _. apply any_prog. Qed.
Lemma any_codes code m : e_compile E code = Some m -> mod_ok any_opts m.
Proof. intros _. apply any_mod. Qed.
Lemma any_good h : h_stoprot h = true -> good any_opts true h.
Proof. intros H. split; [auto|]. intros i x _. apply any_mod. Qed.
Lemma any_pay i h : pay_ok any_opts i h.
Proof. right; left. reflexivity. Qed.

Lemma any_api n c h h' r : h_stoprot h = true -> vmApi n c h = (h', r) -> r <> OFuel ->
  eff any_opts false h h' (pan r).
Proof. intros Hs H Hr. exact (walk_vmApi any_opts any_codes n false c (any_cmd _) h h' r (any_good h Hs) H Hr). Qed.
Lemma any_run n p h h' r : h_stoprot h = true -> vmRun n p h = (h', r) -> r <> OFuel ->
  eff any_opts false h h' (pan r).
Proof. intros Hs H Hr. exact (walk_vmRun any_opts any_codes n false p (any_prog _) h h' r (any_good h Hs) H Hr). Qed.
Lemma any_dest n i h h' r : h_stoprot h = true -> vmDest n i h = (h', r) -> r <> OFuel ->
  eff any_opts false h h' (pan r).
Proof.
  intros Hs H Hr. destruct (walk_vm any_opts any_codes n) as [Hd _].
  exact (Hd false i h h' r (any_good h Hs) H Hr (any_pay i h)).
Qed.
Lemma any_same n i h h' r : h_stoprot h = true -> vmSame n i h = (h', r) -> r <> OFuel ->
  eff any_opts false h h' (pan r).
Proof.
  intros Hs H Hr. destruct (walk_vm any_opts any_codes n) as [_ Hd].
  exact (Hd false i h h' r (any_good h Hs) H Hr (any_pay i h) (or_intror eq_refl)).
Qed.

(** * RestoreGas: only the gas counter of the running instance *)
Definition regas (h h' : host) : Prop :=
  h' = h \/ exists i x g, running_as h i x /\ h' = with_inst i (set_in_points g x) h.
Lemma RestoreGas_regas g h h' r : RestoreGas g h = (h', r) -> regas h h' /\ (forall e, r <> OErr e) /\ r <> OFuel.
Proof.
  intros H. split; [|split].
  - unfold RestoreGas, GetPointsUsed in H. rewrite bind_gets in H.
    destruct (_ <=? _); [|injection H as <- <-; left; reflexivity].
    unfold SetPointsUsed, upd_inst, cur_inst in H. unfold bind at 1 in H.
    destruct (h_cur h) as [i|] eqn:Hc; [|injection H as <- <-; left; reflexivity].
    destruct (h_insts h !! i) as [x|] eqn:Hx; [|injection H as <- <-; left; reflexivity].
    injection H as <- <-. right. eexists i, x, _. split; [split; assumption|reflexivity].
  - intros e ->. eapply RestoreGas_noerr, H.
  - intros ->. unfold RestoreGas, GetPointsUsed in H. rewrite bind_gets in H. unfold SetPointsUsed, upd_inst, cur_inst in H.
    destruct (_ <=? _); [|discriminate]. unfold bind in H. destruct (h_cur h); [|discriminate].
    destruct (h_insts h !! _); discriminate.
Qed.

Lemma CreateErr_code e h h1 o : CreateVMOutputInCaseOfError e h = (h1, OOk o) -> o_code o <> RcOk.
Proof.
  unfold CreateVMOutputInCaseOfError. rewrite bind_gets. cbv zeta. unfold bind at 1.
  destruct (UpdateGasStateOnFailure h) as [h2 [?|?| |]]; try discriminate. intros [= <- <-]. cbn.
  unfold resolveReturnCodeFromError. repeat (destruct (err_is _ _)); discriminate.
Qed.

(** * A call on the destination's context, without the built-in functions *)
Lemma body_eff n i h h2 o : h_stoprot h = true ->
  destBody (vmRun n) (vmDest n) (unlocked (dest_input i h)) (destPush i h) = (h2, o) -> o <> OFuel ->
  eff any_opts true (destPush i h) h2 (pan o).
Proof.
  intros Hs Hb Ho. set (j := unlocked (dest_input i h)) in *.
  assert (Hg1 : good any_opts true (destPush i h)) by (apply any_good; exact Hs).
  destruct (walk_vm any_opts any_codes n) as [Hd _].
  assert (Hrun : forall l p, prog_ok any_opts p -> walk any_opts (true, l) (vmRun n p))
    by (intros; apply walk_vmRun; [apply any_codes|assumption]).
  unfold destBody in Hb. unfold bind at 1, try in Hb.
  lazymatch type of Hb with context [bind ?t (fun _ => execute ?a ?b j)] =>
    set (tr := t) in Hb; set (m := bind tr (fun _ => execute a b j)) in Hb end.
  destruct (m (destPush i h)) as [h3 o3] eqn:Hm.
  assert (Ho3 : o3 <> OFuel) by (intros ->; congruence).
  assert (He3 : eff any_opts true (destPush i h) h3 (pan o3)).
  { unfold m in Hm. unfold bind at 1 in Hm.
    destruct (tr (destPush i h)) as [h4 o4] eqn:Ht.
    assert (Ho4 : o4 <> OFuel) by (intros ->; congruence).
    assert (He4 : eff any_opts true (destPush i h) h4 (pan o4)).
    { unfold tr in Ht. destruct (negb _ || _) eqn:Hc.
      - eapply TransferValueOnly_eff; [apply any_codes|exact Ht|exact Ho4|]. right; left; reflexivity.
      - injection Ht as <- <-. apply E_refl. }
    destruct o4; try (injection Hm as <- <-; exact He4).
    eapply eff_seq; [exact He4|]. eapply (walk_execute any_opts any_codes _ _ Hrun Hd j); [|exact Hm|exact Ho3].
    exact (eff_good any_opts true _ _ _ _ He4 Hg1). }
  assert (Hg3 : good any_opts true h3) by exact (eff_good any_opts true _ _ _ _ He3 Hg1).
  destruct o3 as [u|er| |].
  - eapply eff_seq; [exact He3|]. refine ((_ : walk any_opts (true, true) _) h3 h2 o Hg3 Hb Ho).
    apply walk_bind; [apply walk_try, walk_processAsyncInfo; first [assumption|apply any_codes]|intros r].
    apply walk_bind; [apply walk_gets|intros x]. apply walk_ret.
  - injection Hb as <- <-. exact He3.
  - injection Hb as <- <-. exact He3.
  - congruence.
Qed.

(** the result, from the callee's body ([bo]) and output *)
Definition dest_result (bo : outc (option async_info * option err)) (o : vm_output) : option ed_res :=
  match bo with
  | OOk (info, e) =>
      Some (Some o, info, match e with
                          | Some e => Some e
                          | None => if bool_decide (o_code o = RcOk) then None else Some ErrExecutionFailed
                          end)
  | OErr e => Some (Some o, None, Some e)
  | _ => None
  end.
Definition body_err (bo : outc (option async_info * option err)) : option err :=
  match bo with OOk (_, e) => e | OErr e => Some e | _ => None end.
Definition compute_output (e : option err) : M vm_output :=
  match e with Some e => CreateVMOutputInCaseOfError e | None => GetVMOutput end.

Lemma nb_shape n i h h' r :
  h_stoprot h = true -> executeOnDestContextNoBuiltinFunction (vmRun n) (vmDest n) i h = (h', r) -> r <> OFuel ->
  exists hb bo h1 o,
    destBody (vmRun n) (vmDest n) (unlocked (dest_input i h)) (destPush i h) = (hb, bo) /\ bo <> OFuel /\
    compute_output (body_err bo) hb = (h1, OOk o) /\
    eff any_opts true (destPush i h) hb (pan bo) /\ eff any_opts true (destPush i h) h1 (pan bo) /\
    let h2 := destPop (bool_decide (o_code o = RcOk)) h1 in
    exists ro, RestoreGas (o_gasrem o) h2 = (h', ro) /\
      ((ro = OOk tt /\ exists x, dest_result bo o = Some x /\ r = OOk x) \/
       (r = OPanic /\ (bo = OPanic \/ ro = OPanic))).
Proof.
  intros Hs H Hr. unfold executeOnDestContextNoBuiltinFunction in H.
  rewrite (bind_ok _ _ _ _ _ (pushDest_eq i h)) in H. unfold deferring in H.
  destruct (destBody _ _ _ (destPush i h)) as [hb bo] eqn:Hb.
  assert (Ho : bo <> OFuel) by (intros ->; injection H as <- <-; exact (Hr eq_refl)).
  pose proof (body_eff n i h hb bo Hs Hb Ho) as He.
  exists hb, bo. destruct (finish_run any_opts (body_err bo) hb) as (h1 & o & Hm & Hf).
  exists h1, o. split; [reflexivity|]. split; [exact Ho|]. split; [exact Hm|]. split; [exact He|]. split.
  { rewrite <-(orb_false_r (pan bo)). eapply E_trans; [exact He|].
    assert (Hw : walk any_opts (true, true) (compute_output (body_err bo)))
      by (destruct (body_err bo); [apply walk_CreateErr|apply walk_GetVMOutput]).
    apply (Hw hb h1 (OOk o)); [|exact Hm|discriminate].
    exact (eff_good any_opts true _ _ _ _ He (any_good (destPush i h) Hs)). }
  cbv zeta. destruct (RestoreGas (o_gasrem o) _) as [hr ro] eqn:Hro.
  destruct (RestoreGas_regas _ _ _ _ Hro) as (_ & Hne & Hnf).
  assert (Hfin : finishExecuteOnDestContext (body_err bo) hb =
    (hr, match ro with OOk _ => OOk o | OErr e => OErr e | OPanic => OPanic | OFuel => OFuel end)).
  { rewrite Hf. unfold bind. rewrite Hro. destruct ro as [[]|?| |]; reflexivity. }
  destruct bo as [[info er]|er| |]; cbn [body_err dest_result] in *.
  - unfold bind in H. rewrite Hfin in H. exists ro.
    destruct ro as [[]|e| |]; [|destruct (Hne e eq_refl)| |destruct (Hnf eq_refl)]; injection H as <- <-.
    + split; [reflexivity|]. left. split; [reflexivity|]. eexists. split; reflexivity.
    + split; [reflexivity|]. right. auto.
  - unfold bind in H. rewrite Hfin in H. exists ro.
    destruct ro as [[]|e| |]; [|destruct (Hne e eq_refl)| |destruct (Hnf eq_refl)]; injection H as <- <-.
    + split; [reflexivity|]. left. split; [reflexivity|]. eexists. split; reflexivity.
    + split; [reflexivity|]. right. auto.
  - unfold bind in H. rewrite Hfin in H. exists ro.
    destruct ro as [[]|e| |]; [|destruct (Hne e eq_refl)| |destruct (Hnf eq_refl)]; injection H as <- <-;
      (split; [reflexivity|]; right; auto).
  - destruct (Ho eq_refl).
Qed.

(** what holds after the pops *)
Lemma destPop_kept (ok : bool) i h h1 b : wf h -> eff any_opts true (destPush i h) h1 b ->
  let h2 := destPop ok h1 in
  h_rt h2 = h_rt h /\ h_big h2 = h_big h /\ h_cur h2 = h_cur h /\ h_stoaddr h2 = h_stoaddr h /\
  h_out h2 = (if ok then mergeVMOutputs newVMOutput (mergeVMOutputs (mergeVMOutputs newVMOutput (h_out h)) (h_out h1))
              else mergeVMOutputs newVMOutput (h_out h)) /\
  h_met h2 = (if ok then mkMet (mt_provided (h_met h)) (mt_initcost (h_met h)) (mt_forexec (h_met h))
                           (merge addGasUsed (mt_used (h_met h1)) (mt_used (h_met h))) else h_met h) /\
  h_world h2 = h_world h1 /\ h_bcst h2 = h_bcst h1 /\
  kept any_opts false h h2 b.
Proof.
  intros Hw He h2. pose proof (eff_kept any_opts _ _ _ _ He Hw) as [K1 K2 K3 K4 K5 K6 _ _ _ _ _ _ _ _ _ _ _ _ _ _ _ _].
  assert (Hk : kept any_opts false h h2 b) by (apply eff_kept; [apply (E_dest any_opts false h i h1 b ok He)|exact Hw]).
  unfold h2 in *. rewrite destPop_unfold in *. clear h2.
  set (h3 := bigPop h1) in *. set (h4 := stoPop h3) in *. set (h5 := metPop ok h4) in *. set (h6 := outPop ok h5) in *.
  destruct (bigPop_set h1 _ _ K1) as [B1 B2]. fold h3 in B1, B2.
  destruct (stoPop_set h3 (h_stoaddr h) (h_stost h)) as [C1 C2]; [unfold h3; autorewrite with pops; exact K5|]. fold h4 in C1, C2.
  destruct (metPop_set h4 ok (h_met h) (h_metst h)) as [D1 D2]; [unfold h4, h3; autorewrite with pops; exact K3|]. fold h5 in D1, D2.
  destruct (outPop_set h5 ok (mergeVMOutputs newVMOutput (h_out h)) (h_outst h)) as [F1 F2]; [unfold h5, h4, h3; autorewrite with pops; exact K2|]. fold h6 in F1, F2.
  destruct (rtPop_set h6 (h_rt h) (h_rtst h) (h_cur h) (h_ist h)) as (G1 & G2 & G3 & G4 & G5);
    [unfold h6, h5, h4, h3; autorewrite with pops; exact K4|unfold h6, h5, h4, h3; autorewrite with pops; exact K6|].
  assert (O5 : h_out h5 = h_out h1) by (unfold h5, h4, h3; autorewrite with pops; reflexivity).
  assert (M4 : h_met h4 = h_met h1) by (unfold h4, h3; autorewrite with pops; reflexivity).
  split; [exact G1|]. split; [unfold h6, h5, h4; autorewrite with pops; exact B1|]. split; [exact G4|].
  split; [unfold h6, h5; autorewrite with pops; exact C1|].
  split; [autorewrite with pops; rewrite F1, O5; reflexivity|].
  split; [autorewrite with pops; unfold h6; autorewrite with pops; rewrite D1, M4; reflexivity|].
  split; [unfold h6, h5, h4, h3; autorewrite with pops; reflexivity|].
  split; [unfold h6, h5, h4, h3; autorewrite with pops; reflexivity|]. exact Hk.
Qed.

Lemma regas_same h h' : regas h h' ->
  h_rt h' = h_rt h /\ h_big h' = h_big h /\ h_out h' = h_out h /\ h_world h' = h_world h /\ h_met h' = h_met h /\
  h_bcst h' = h_bcst h /\ h_stoaddr h' = h_stoaddr h /\ h_cur h' = h_cur h.
Proof. intros [->|(i & x & g & _ & ->)]; repeat split. Qed.

Lemma nb_restores n i h h' r : h_stoprot h = true -> wf h ->
  executeOnDestContextNoBuiltinFunction (vmRun n) (vmDest n) i h = (h', r) -> r <> OFuel ->
  h_rt h' = h_rt h /\ h_big h' = h_big h.
Proof.
  intros Hs Hw H Hr. destruct (nb_shape n i h h' r Hs H Hr) as (hb & bo & h1 & o & _ & _ & _ & _ & He & ro & Hro & _).
  destruct (RestoreGas_regas _ _ _ _ Hro) as [Hg _]. destruct (regas_same _ _ Hg) as (A1 & A2 & _).
  destruct (destPop_kept (bool_decide (o_code o = RcOk)) i h h1 _ Hw He) as (B1 & B2 & _).
  split; congruence.
Qed.

Lemma execDest_restores n i h h' r : h_stoprot h = true -> wf h ->
  ExecuteOnDestContext (vmRun n) (vmDest n) i h = (h', r) -> r <> OFuel ->
  h_rt h' = h_rt h /\ h_big h' = h_big h.
Proof.
  intros Hs Hw H Hr. unfold ExecuteOnDestContext in H.
  rewrite (bind_ok _ _ h (bcPush h) tt) in H by reflexivity.
  lazymatch type of H with bind ?t _ _ = _ => set (m := t) in H end. unfold bind at 1 in H.
  destruct (m (bcPush h)) as [h1 o1] eqn:Hm.
  assert (K : h_rt h1 = h_rt h /\ h_big h1 = h_big h).
  { unfold m in Hm. destruct (e_isBuiltin _ _); [|injection Hm as <- <-; split; reflexivity].
    unfold bind, try in Hm. destruct (handleBuiltinFunctionCall i (bcPush h)) as [h2 o2] eqn:Hb.
    pose proof (k_handleBuiltin i _ _ _ Hb) as Hk. injection Hk as Q1 Q2 Q3 Q4 Q5 Q6.
    destruct o2 as [[? ?]|?| |]; injection Hm as <- <-; split; assumption. }
  assert (P1 : h_stoprot h1 = true /\ wf h1).
  { unfold m in Hm. destruct (e_isBuiltin _ _); [|injection Hm as <- <-; split; assumption].
    unfold bind, try in Hm. destruct (handleBuiltinFunctionCall i (bcPush h)) as [h2 o2] eqn:Hb.
    assert (Ho2 : o2 <> OFuel).
    { intros ->. injection Hm as <- <-. injection H as <- <-. exact (Hr eq_refl). }
    destruct (handleBuiltin_eff any_opts (true, true) i (bcPush h) h2 o2 (any_good (bcPush h) Hs) Hb Ho2) as [He _].
    assert (h2 = h1) as -> by (destruct o2 as [[? ?]|?| |]; injection Hm as <- <-; reflexivity).
    split.
    - pose proof (eff_stoprot any_opts _ _ _ _ He) as Q. first [rewrite Q; exact Hs|rewrite <- Q; exact Hs|apply Q; exact Hs].
    - eapply kept_wf; [apply (eff_kept any_opts _ _ _ _ He)|]; exact Hw. }
  destruct K as [K1 K2], P1 as [P1 P2].
  destruct o1 as [[[post o]|e]|e| |]; try (injection H as <- <-; split; assumption).
  - unfold bind at 1 in H.
    lazymatch type of H with context [match post with Some i => @?f i | None => ?g end] => set (m2 := match post with Some i => f i | None => g end) in H end.
    destruct (m2 h1) as [h2 o2] eqn:Hm2.
    assert (Ho2 : o2 <> OFuel) by (intros ->; injection H as <- <-; exact (Hr eq_refl)).
    assert (K' : h_rt h2 = h_rt h /\ h_big h2 = h_big h).
    { unfold m2 in Hm2. destruct post as [p|]; [|injection Hm2 as <- <-; split; assumption].
      destruct (nb_restores n p h1 h2 o2 P1 P2 Hm2 Ho2). split; congruence. }
    destruct o2 as [[[o2 info] e]|e| |]; try (injection H as <- <-; exact K').
    destruct e; [rewrite (bind_ok _ _ _ _ _ (bcPopSet_ok h2)) in H|rewrite (bind_ok _ _ _ _ _ (bcPopDiscard_ok h2)) in H];
      injection H as <- <-; rewrite bcPop_h_rt, bcPop_h_big; exact K'.
  - rewrite (bind_ok _ _ _ _ _ (bcPopSet_ok h1)) in H. unfold bind in H.
    destruct (CreateVMOutputInCaseOfError e (bcPop true h1)) as [h2 o2] eqn:Hc.
    pose proof (k_CreateErr e _ _ _ Hc) as Hk. injection Hk as Q1 Q2 Q3 Q4 Q5 Q6.
    rewrite bcPop_h_rt in Q6. rewrite bcPop_h_big in Q1.
    destruct o2; injection H as <- <-; split; congruence.
Qed.
Lemma dest_restores n i h h' r : h_stoprot h = true -> wf h -> vmDest n i h = (h', r) -> r <> OFuel ->
  h_rt h' = h_rt h /\ h_big h' = h_big h.
Proof.
  intros Hs Hw H Hr. destruct n as [|n]; [injection H as <- <-; destruct (Hr eq_refl)|].
  exact (execDest_restores n i h h' r Hs Hw H Hr).
Qed.

(** * Calls on the same context *)
Lemma same_shape n i h h' r : h_stoprot h = true -> e_isBuiltin E (ci_fn i) = false ->
  ExecuteOnSameContext (vmRun n) (vmDest n) i h = (h', r) -> r <> OFuel ->
  exists h1 b, eff any_opts true (samePush i h) h1 b /\
    (h' = samePop false h1 \/ regas (samePop true h1) h').
Proof.
  intros Hs Hbi H Hr. rewrite (execSame_unfold _ _ i h Hbi) in H. cbv zeta in H.
  set (j := unlocked (dest_input i h)) in *.
  assert (Hg1 : good any_opts true (samePush i h)) by (apply any_good; exact Hs).
  destruct (walk_vm any_opts any_codes n) as [Hd _].
  assert (Hrun : forall l p, prog_ok any_opts p -> walk any_opts (true, l) (vmRun n p))
    by (intros; apply walk_vmRun; [apply any_codes|assumption]).
  unfold deferring in H. destruct (bind _ _ (samePush i h)) as [h2 o] eqn:Hb.
  assert (Ho : o <> OFuel) by (intros ->; injection H as <- <-; exact (Hr eq_refl)).
  assert (He : eff any_opts true (samePush i h) h2 (pan o)).
  { unfold bind at 1 in Hb. destruct (TransferValueOnly _ _ _ _ (samePush i h)) as [h4 o4] eqn:Ht.
    assert (Ho4 : o4 <> OFuel) by (intros ->; injection Hb as <- <-; exact (Ho eq_refl)).
    assert (He4 : eff any_opts true (samePush i h) h4 (pan o4)).
    { eapply TransferValueOnly_eff; [apply any_codes|exact Ht|exact Ho4|]. right; left; reflexivity. }
    destruct o4; try (injection Hb as <- <-; exact He4).
    eapply eff_seq; [exact He4|]. eapply (walk_execute any_opts any_codes _ _ Hrun Hd j); [|exact Hb|exact Ho].
    exact (eff_good any_opts true _ _ _ _ He4 Hg1). }
  assert (Hg2 : good any_opts true h2) by exact (eff_good any_opts true _ _ _ _ He Hg1).
  assert (Hfin : forall e h3 o3, finishExecuteOnSameContext e h2 = (h3, o3) ->
    exists h1 b, eff any_opts true (samePush i h) h1 b /\ (h3 = samePop false h1 \/ regas (samePop true h1) h3)).
  { intros e h3 o3 Hf. destruct (finishSame_run any_opts e h2) as [(h4 & Hf' & ->)|(h4 & x & Hm & Hf')]; rewrite Hf' in Hf.
    - injection Hf as <- <-. eexists _, _. split; [exact He|]. left. reflexivity.
    - destruct (RestoreGas_regas _ _ _ _ Hf) as [Hrg _]. eexists h4, _. split; [|right; exact Hrg].
      eapply E_trans; [exact He|]. eapply (walk_GetVMOutput any_opts (true, true)); [exact Hg2|exact Hm|discriminate]. }
  destruct o as [[]|er| |].
  - apply (Hfin _ _ _ H).
  - unfold bind in H. destruct (finishExecuteOnSameContext (Some er) h2) as [h3 o3] eqn:Hf.
    assert (h3 = h') as -> by (destruct o3; injection H as <- <-; reflexivity). apply (Hfin _ _ _ Hf).
  - destruct (finishExecuteOnSameContext None h2) as [h3 o3] eqn:Hf.
    assert (h3 = h') as -> by (destruct o3; injection H as <- <-; reflexivity). apply (Hfin _ _ _ Hf).
  - destruct (Ho eq_refl).
Qed.
Lemma samePop_kept (ok : bool) i h h1 b : wf h -> eff any_opts true (samePush i h) h1 b -> h_rt (samePop ok h1) = h_rt h.
Proof.
  intros Hw He. destruct (eff_rt any_opts _ _ _ _ He) as (A1 & A2 & _). rewrite samePop_unfold. destruct ok.
  - set (h6 := bcPop _ _).
    destruct (rtPop_set h6 (h_rt h) (h_rtst h) (h_cur h) (h_ist h)) as (G1 & _);
      [unfold h6; autorewrite with pops; exact A1|unfold h6; autorewrite with pops; exact A2|exact G1].
  - set (h6 := outPop _ _).
    destruct (rtPop_set h6 (h_rt h) (h_rtst h) (h_cur h) (h_ist h)) as (G1 & _);
      [unfold h6; autorewrite with pops; exact A1|unfold h6; autorewrite with pops; exact A2|].
    autorewrite with pops. exact G1.
Qed.
Lemma same_restores n i h h' r : h_stoprot h = true -> wf h -> vmSame n i h = (h', r) -> r <> OFuel ->
  h_rt h' = h_rt h.
Proof.
  intros Hs Hw H Hr. destruct n as [|n]; [injection H as <- <-; destruct (Hr eq_refl)|].
  change (ExecuteOnSameContext (vmRun n) (vmDest n) i h = (h', r)) in H.
  destruct (e_isBuiltin E (ci_fn i)) eqn:Hbi.
  { unfold ExecuteOnSameContext in H. rewrite Hbi in H. injection H as <- <-. reflexivity. }
  destruct (same_shape n i h h' r Hs Hbi H Hr) as (h1 & b & He & [->|Hg]).
  - exact (samePop_kept false i h h1 b Hw He).
  - rewrite (proj1 (regas_same _ _ Hg)). exact (samePop_kept true i h h1 b Hw He).
Qed.

(** * Invariants, and what the theorems are stated with *)
Lemma host_ok_wf h : host_ok h -> h_stoprot h = true /\ wf h.
Proof. exact (fun H => H). Qed.
Lemma kept_restored h h' b : kept any_opts false h h' b -> frame_restored h h'.
Proof.
  intros K. destruct (k_input _ _ _ _ _ K eq_refl) as [I1 I2].
  constructor; [apply K|exact I1|exact I2|apply (k_cur _ _ _ _ _ K eq_refl)|apply K..].
Qed.
Lemma kept_snapshots {A} l h h' (r : outc A) : r <> OFuel -> kept any_opts l h h' (pan r) -> snapshots_restored h h' r.
Proof.
  intros Hf K. split; [apply K|]. intros Hr. apply (k_bcst_same _ _ _ _ _ K). destruct r; try reflexivity; destruct (Hr eq_refl).
Qed.
Lemma eff_host_ok l h h' b : host_ok h -> eff any_opts l h h' b -> host_ok h'.
Proof.
  intros [Hs Hw] He. split.
  - pose proof (eff_stoprot any_opts _ _ _ _ He) as Q. first [rewrite Q; exact Hs|rewrite <- Q; exact Hs|apply Q; exact Hs].
  - eapply kept_wf; [apply (eff_kept any_opts _ _ _ _ He Hw)|exact Hw].
Qed.
Lemma api_all n c h h' r : host_ok h -> vmApi n c h = (h', r) -> r <> OFuel ->
  frame_restored h h' /\ snapshots_restored h h' r /\ host_ok h'.
Proof.
  intros Hok H Hr. pose proof (any_api n c h h' r (proj1 Hok) H Hr) as He.
  pose proof (eff_kept any_opts _ _ _ _ He (proj2 Hok)) as K.
  split; [exact (kept_restored _ _ _ K)|]. split; [exact (kept_snapshots _ _ _ _ Hr K)|exact (eff_host_ok _ _ _ _ Hok He)].
Qed.
Lemma dest_all n i h h' r : host_ok h -> vmDest n i h = (h', r) -> r <> OFuel ->
  frame_restored h h' /\ snapshots_restored h h' r /\ host_ok h' /\ h_rt h' = h_rt h /\ h_big h' = h_big h.
Proof.
  intros Hok H Hr. pose proof (any_dest n i h h' r (proj1 Hok) H Hr) as He.
  pose proof (eff_kept any_opts _ _ _ _ He (proj2 Hok)) as K. destruct (dest_restores n i h h' r (proj1 Hok) (proj2 Hok) H Hr).
  split; [exact (kept_restored _ _ _ K)|]. split; [exact (kept_snapshots _ _ _ _ Hr K)|].
  split; [exact (eff_host_ok _ _ _ _ Hok He)|]. split; assumption.
Qed.
Lemma same_all n i h h' r : host_ok h -> vmSame n i h = (h', r) -> r <> OFuel ->
  frame_restored h h' /\ snapshots_restored h h' r /\ host_ok h' /\ h_rt h' = h_rt h.
Proof.
  intros Hok H Hr. pose proof (any_same n i h h' r (proj1 Hok) H Hr) as He.
  pose proof (eff_kept any_opts _ _ _ _ He (proj2 Hok)) as K. pose proof (same_restores n i h h' r (proj1 Hok) (proj2 Hok) H Hr).
  split; [exact (kept_restored _ _ _ K)|]. split; [exact (kept_snapshots _ _ _ _ Hr K)|].
  split; [exact (eff_host_ok _ _ _ _ Hok He)|]. assumption.
Qed.

(** ** Starting code *)
Lemma bind_cong {A B} (m : M A) (k1 k2 : A -> M B) h h1 o :
  m h = (h1, o) -> (forall a, o = OOk a -> k1 a h1 = k2 a h1) -> bind m k1 h = bind m k2 h.
Proof. intros H Hk. unfold bind. rewrite H. destruct o; try reflexivity. apply Hk. reflexivity. Qed.
Lemma bind_head {A B} (m1 m2 : M A) (k : A -> M B) h : m1 h = m2 h -> bind m1 k h = bind m2 k h.
Proof. intros H. unfold bind. rewrite H. reflexivity. Qed.
Lemma k_builtin_cur i : keeps (fun h => (h_cur h, h_ist h, h_rt h)) (handleBuiltinFunctionCall i).
Proof. kp. Qed.
Lemma starts_dest i rd h :
  starts_only_in (fun hs => h_big hs = ∅ /\ h_ist hs = h_cur h :: h_ist h /\ r_ro (h_rt hs) = r_ro (h_rt h) /\
      h_stoaddr hs = r_addr (h_rt hs) /\ shallow hs)
    (fun run => ExecuteOnDestContext run rd i) h.
Proof.
  intros run1 run2 Hr. unfold ExecuteOnDestContext. rewrite !(bind_ok _ _ h (bcPush h) tt) by reflexivity.
  lazymatch goal with |- bind ?t _ _ = _ => set (m := t) end.
  destruct (m (bcPush h)) as [h1 o1] eqn:Hm.
  assert (K : h_cur h1 = h_cur h /\ h_ist h1 = h_ist h /\ h_rt h1 = h_rt h).
  { unfold m in Hm. destruct (e_isBuiltin _ _); [|injection Hm as <- <-; repeat split].
    unfold bind, try in Hm. destruct (handleBuiltinFunctionCall i (bcPush h)) as [h2 o2] eqn:Hb.
    pose proof (k_builtin_cur i _ _ _ Hb) as Hk. injection Hk as Q1 Q2 Q3.
    destruct o2 as [[? ?]|?| |]; injection Hm as <- <-; repeat split; assumption. }
  destruct K as (K1 & K2 & K3). apply (bind_cong _ _ _ _ _ _ Hm). intros [[post o]|e] _; [|reflexivity].
  apply bind_head. destruct post as [p|]; [|reflexivity]. apply (starts_nb p rd h1 run1 run2). intros q hs [[E1 E2 E3 E4 E5 E6 E7 E8 E9] Hs]. apply Hr.
  rewrite K1, K2 in E2. rewrite K3 in E9. split; [exact E1|]. split; [exact E2|]. split; [exact E9|]. split; [congruence|exact Hs].
Qed.
Lemma starts_dest_plain i rd h : e_isBuiltin E (ci_fn i) = false ->
  starts_only_in (fun hs => entered i (r_ro (h_rt h)) (h_cur h :: h_ist h) hs /\ shallow hs)
    (fun run => ExecuteOnDestContext run rd i) h.
Proof.
  intros Hbi run1 run2 Hr. unfold ExecuteOnDestContext. rewrite !(bind_ok _ _ h (bcPush h) tt) by reflexivity.
  rewrite Hbi. rewrite !bind_ret. apply bind_head. exact (starts_nb i rd (bcPush h) run1 run2 Hr).
Qed.

(** ** Too deep *)
Definition deep (h : host) : Prop := (10 <= length (h_ist h))%nat.
Definition fails_deep {A} (m : M A) : Prop := forall h h' a, deep h -> m h <> (h', OOk a).
Lemma fd_bind {A B} (m : M A) (k : A -> M B) : keeps h_ist m -> (forall a, fails_deep (k a)) -> fails_deep (bind m k).
Proof.
  intros Hm Hk h h' a Hd H. unfold bind in H. destruct (m h) as [h1 [x|e| |]] eqn:Hmh; try discriminate.
  apply Hm in Hmh. apply (Hk x h1 h' a); [|exact H]. unfold deep. rewrite Hmh. exact Hd.
Qed.
Lemma fd_head {A B} (m : M A) (k : A -> M B) : fails_deep m -> fails_deep (bind m k).
Proof.
  intros Hm h h' a Hd H. unfold bind in H. destruct (m h) as [h1 [x|e| |]] eqn:Hmh; try discriminate.
  exact (Hm h h1 x Hd Hmh).
Qed.
Lemma fd_start c g n : fails_deep (StartWasmerInstance c g n).
Proof.
  intros h h' a Hd H. apply Start_shallow in H as Hs. apply k_Start in H. injection H as H1 H2 H3 H4 H5 H6 H7 H8 H9.
  unfold shallow in Hs. unfold deep in Hd. rewrite H2 in Hs. lia.
Qed.
Lemma fd_map_err {A} (m : M A) f : fails_deep m -> fails_deep (map_err m f).
Proof.
  intros Hm h h' a Hd H. unfold map_err, bind, try in H. destruct (m h) as [h1 [x|e| |]] eqn:Hmh; try discriminate.
  exact (Hm h h1 x Hd Hmh).
Qed.
Lemma fent_ist {A} (m : M A) : keeps (fun h => (h_big h, h_ist h, h_stoaddr h, r_addr (h_rt h), vi_caller (r_input (h_rt h)),
   vi_value (r_input (h_rt h)), vi_esdt (r_input (h_rt h)), vi_ctype (r_input (h_rt h)), r_ro (h_rt h))) m -> keeps h_ist m.
Proof. intros H h h' r Hm. apply H in Hm. injection Hm as H1 H2 H3 H4 H5 H6 H7 H8 H9. exact H2. Qed.
Lemma fd_deploy run rd d : fails_deep (deployContract run rd d).
Proof.
  unfold deployContract. apply fd_bind; [apply fent_ist, k_deduct|intros _]. apply fd_bind; [kp|intros _].
  apply fd_bind; [kp|intros g]. apply fd_head, fd_map_err, fd_start.
Qed.
Lemma fd_execute run rd i : fails_deep (execute run rd i).
Proof.
  unfold execute. apply fd_bind; [kp|intros fn]. apply fd_bind; [kp|intros _]. apply fd_bind; [kp|intros _].
  destruct (beq _ _).
  - unfold executeUpgrade. apply fd_bind; [kp|intros w]. apply fd_bind; [kp|intros _].
    apply fd_bind; [apply fent_ist, k_Extract|intros [code meta]]. apply fd_head, fd_deploy.
  - apply fd_bind; [apply fent_ist, k_GetSCCode|intros c]. apply fd_bind; [apply fent_ist, k_deductE|intros _].
    apply fd_bind; [kp|intros g]. apply fd_head, fd_start.
Qed.
Lemma body_deep run rd j h hb bo : deep h -> destBody run rd j h = (hb, bo) ->
  match bo with OOk (_, None) => False | _ => True end.
Proof.
  intros Hd H. unfold destBody in H. unfold bind at 1, try in H.
  lazymatch type of H with context [bind ?t (fun _ => execute ?a ?b j)] => set (tr := t) in H;
    assert (Hf : fails_deep (bind tr (fun _ => execute a b j))) end.
  { apply fd_bind; [unfold tr; destruct (_ || _); [apply fent_ist, k_Transfer|apply keeps_ret]|intros _]. apply fd_execute. }
  destruct (bind tr _ h) as [h1 [u|e| |]] eqn:Hm; try (injection H as <- <-; exact I).
  destruct (Hf _ _ _ Hd Hm).
Qed.
Lemma dest_deep n i h h' r : host_ok h -> e_isBuiltin E (ci_fn i) = false -> (9 <= length (h_ist h))%nat ->
  vmDest n i h = (h', r) -> forall o info, r <> OOk (o, info, None).
Proof.
  intros [Hs Hw] Hbi Hd H o info ->. destruct n as [|n]; [discriminate|].
  change (ExecuteOnDestContext (vmRun n) (vmDest n) i h = (h', OOk (o, info, None))) in H.
  unfold ExecuteOnDestContext in H. rewrite (bind_ok _ _ h (bcPush h) tt) in H by reflexivity. rewrite Hbi, bind_ret in H.
  unfold bind at 1 in H. destruct (executeOnDestContextNoBuiltinFunction _ _ i (bcPush h)) as [h1 o1] eqn:Hn.
  destruct o1 as [[[o1 info1] e1]|e| |]; try discriminate.
  destruct (nb_shape n i (bcPush h) h1 _ Hs Hn ltac:(discriminate)) as (hb & bo & h2 & o2 & Hb & _ & _ & _ & _ & ro & _ & [[_ (x & Hx & Hx')]|[? _]]); [|discriminate]. injection Hx' as <-.
  apply body_deep in Hb.
  - destruct bo as [[info' [e|]]|e| |]; try discriminate; try contradiction; cbn in Hx; injection Hx as <- <- <-;
      rewrite (bind_ok _ _ _ _ _ (bcPopSet_ok h1)) in H; discriminate.
  - unfold deep. change (10 <= length (h_cur h :: h_ist h))%nat. cbn. lia.
Qed.
Lemma deferring_ok {A B} (m : M A) (f : A + err -> M B) p h h' a : deferring m f p h = (h', OOk a) ->
  (exists h1 x, m h = (h1, OOk x)) \/ (exists h1 e, m h = (h1, OErr e) /\ f (inr e) h1 = (h', OOk a)).
Proof.
  unfold deferring. destruct (m h) as [h1 [x|e| |]].
  - intros _. left. eauto.
  - intros H. right. eauto.
  - destruct (p h1) as [? []]; discriminate.
  - discriminate.
Qed.
Lemma same_deep n i h h' r : (9 <= length (h_ist h))%nat ->
  vmSame n i h = (h', r) -> r <> OOk tt.
Proof.
  intros Hd H ->. destruct n as [|n]; [discriminate|].
  change (ExecuteOnSameContext (vmRun n) (vmDest n) i h = (h', OOk tt)) in H.
  destruct (e_isBuiltin E (ci_fn i)) eqn:Hbi.
  { unfold ExecuteOnSameContext in H. rewrite Hbi in H. discriminate. }
  rewrite (execSame_unfold _ _ i h Hbi) in H. cbv zeta in H.
  apply deferring_ok in H as [(h1 & x & H)|(h1 & e & _ & H)].
  - revert H. apply fd_bind; [apply fent_ist, k_Transfer|intros _; apply fd_execute|].
    change (10 <= length (h_cur h :: h_ist h))%nat. cbn. lia.
  - unfold bind in H. destruct (finishExecuteOnSameContext _ h1) as [h2 [?|?| |]]; discriminate.
Qed.

(** ** Transactions *)
Lemma clean_parts h : no_stacks h \/ True -> h_stoprot (clean h) = h_stoprot h /\ h_bigst (clean h) = h_bigst h /\ h_outst (clean h) = h_outst h /\
  h_metst (clean h) = h_metst h /\ h_rtst (clean h) = h_rtst h /\ h_stost (clean h) = h_stost h /\ h_ist (clean h) = h_ist h.
Proof. intros _. unfold clean, CleanWasmerInstance. destruct (h_cur h); repeat split. Qed.
Lemma init0_ok h : h_stoprot (init0 h) = h_stoprot h /\ h_bigst (init0 h) = [] /\ h_outst (init0 h) = [] /\ h_metst (init0 h) = [] /\
  h_rtst (init0 h) = [] /\ h_stost (init0 h) = [] /\ h_ist (init0 h) = h_ist h /\ h_cur (init0 h) = h_cur h /\ h_next (init0 h) = h_next h.
Proof. Transparent init0. repeat split. Opaque init0. Qed.

Lemma tx_end h0 h2 b : h_stoprot h0 = true -> wf h0 ->
  h_bigst h0 = [] /\ h_outst h0 = [] /\ h_metst h0 = [] /\ h_rtst h0 = [] /\ h_stost h0 = [] /\ h_ist h0 = [] ->
  eff any_opts true h0 h2 b -> host_ok (clean h2) /\ no_stacks (clean h2).
Proof.
  intros Hs Hw (Q1 & Q2 & Q3 & Q4 & Q5 & Q6) He. destruct (clean_parts h2 (or_intror I)) as (P0 & P1 & P2 & P3 & P4 & P5 & P6).
  pose proof (eff_kept any_opts _ _ _ _ He Hw) as K. split.
  - split; [|rewrite clean_cur; discriminate]. rewrite P0. exact (proj1 (eff_host_ok _ _ _ _ (conj Hs Hw) He)).
  - constructor; [rewrite P1, <-Q1|rewrite P2, <-Q2|rewrite P3, <-Q3|rewrite P4, <-Q4|rewrite P5, <-Q5|rewrite P6, <-Q6|apply clean_cur]; apply K.
Qed.
Lemma start_end f m a v h0 h2 b : h_stoprot h0 = true -> wf h0 ->
  h_bigst h0 = [] /\ h_outst h0 = [] /\ h_metst h0 = [] /\ h_rtst h0 = [] /\ h_stost h0 = [] /\ h_ist h0 = [] ->
  eff any_opts true (start f m a v h0) h2 b -> host_ok (clean h2) /\ no_stacks (clean h2).
Proof. intros Hs Hw HQ He. exact (tx_end (start f m a v h0) h2 b Hs Hw HQ He). Qed.
Lemma call_end n i h h' r : h_stoprot h = true -> no_stacks h -> RunSmartContractCall n i h = (h', r) -> r <> OFuel ->
  host_ok h' /\ no_stacks h'.
Proof.
  intros Hs N H Hr. destruct (call_top any_opts any_codes n i h h' r (any_good h Hs) H Hr) as (h2 & He & ->).
  destruct (init0_ok h) as (I0 & I1 & I2 & I3 & I4 & I5 & I6 & I7 & I8). rewrite (ns_instances _ N) in I6. rewrite (ns_running _ N) in I7.
  refine (start_end _ _ _ _ _ _ _ _ _ _ He).
  - rewrite I0. exact Hs.
  - intros j Hj. rewrite I7 in Hj. discriminate.
  - repeat split; assumption.
Qed.
Lemma create_end n i h h' r : h_stoprot h = true -> no_stacks h -> RunSmartContractCreate n i h = (h', r) -> r <> OFuel ->
  host_ok h' /\ no_stacks h'.
Proof.
  intros Hs N H Hr. destruct (create_top any_opts any_codes n i h h' r (any_good h Hs) H Hr) as (h1 & b1 & He1 & Hc).
  destruct (init0_ok h) as (I0 & I1 & I2 & I3 & I4 & I5 & I6 & I7 & I8). rewrite (ns_instances _ N) in I6. rewrite (ns_running _ N) in I7.
  assert (Hw : wf (init0 h)) by (intros j Hj; rewrite I7 in Hj; discriminate).
  assert (Hs0 : h_stoprot (init0 h) = true) by (etransitivity; [exact I0|exact Hs]).
  destruct Hc as [[-> _]|(a & h2 & -> & He2 & -> & _)].
  - refine (tx_end _ _ _ Hs0 Hw _ He1). repeat split; assumption.
  - destruct (eff_host_ok _ _ _ _ (conj Hs0 Hw) He1) as [Hs1 Hw1]. pose proof (eff_kept any_opts _ _ _ _ He1 Hw) as K.
    refine (start_end _ _ _ _ h1 _ _ Hs1 Hw1 _ He2).
    split; [rewrite <-I1; apply K|]. split; [rewrite <-I2; apply K|]. split; [rewrite <-I3; apply K|].
    split; [rewrite <-I4; apply K|]. split; [rewrite <-I5; apply K|rewrite <-I6; apply K].
Qed.

(** ** API functions that do not touch the big integers *)
Definition prim_nobig {B} (p : prim B) : Prop :=
  match p with QBigPut _ | QBigGet _ | QBigSet _ _ | QExecSame _ _ _ _ _ | QExecReadOnly _ _ _ _ => False | _ => True end.
Fixpoint cmd_nobig (c : cmd) : Prop :=
  match c with CRet _ => True | CPanic => True | CDo p k => prim_nobig p /\ forall x, cmd_nobig (k x) end.

(** from a good state: keeps the store *)
Definition keepsH {A} (m : M A) : Prop :=
  forall h h' r, host_ok h -> m h = (h', r) -> r <> OFuel -> h_big h' = h_big h /\ host_ok h'.
Lemma keepsH_of {A} (m : M A) : keeps h_big m -> walk any_opts (true, false) m -> keepsH m.
Proof.
  intros Hk Hw h h' r Hok H Hr. split; [exact (Hk _ _ _ H)|].
  exact (eff_host_ok _ _ _ _ Hok (Hw h h' r (any_good h (proj1 Hok)) H Hr)).
Qed.
Lemma keepsH_bind {A B} (m : M A) (k : A -> M B) : keepsH m -> (forall a, keepsH (k a)) -> keepsH (bind m k).
Proof.
  intros Hm Hk h h' r Hok H Hr. unfold bind in H. destruct (m h) as [h1 o] eqn:Hmh.
  destruct o as [a|e| |].
  - destruct (Hm h h1 _ Hok Hmh ltac:(discriminate)) as [E1 Hok1]. destruct (Hk a h1 h' r Hok1 H Hr) as [E2 Hok2].
    split; [congruence|exact Hok2].
  - injection H as <- <-. exact (Hm h h1 _ Hok Hmh ltac:(discriminate)).
  - injection H as <- <-. exact (Hm h h1 _ Hok Hmh ltac:(discriminate)).
  - injection H as <- <-. destruct (Hr eq_refl).
Qed.
Lemma keepsH_try {A} (m : M A) : keepsH m -> keepsH (try m).
Proof.
  intros Hm h h' r Hok H Hr. unfold try in H. destruct (m h) as [h1 o] eqn:Hmh.
  destruct o; injection H as <- <-; try (exact (Hm h h1 _ Hok Hmh ltac:(discriminate))). destruct (Hr eq_refl).
Qed.
Lemma keepsH_dest n i : keepsH (vmDest n i).
Proof. intros h h' r Hok H Hr. destruct (dest_all n i h h' r Hok H Hr) as (_ & _ & A & _ & B). split; assumption. Qed.
Lemma keepsH_id {A} (m : M A) : (forall h, exists r, m h = (h, r)) -> keepsH m.
Proof. intros Hm h h' r Hok H _. destruct (Hm h) as [r' Hr']. rewrite Hr' in H. injection H as <- <-. split; [reflexivity|exact Hok]. Qed.
Lemma keepsH_ret {A} (a : A) : keepsH (ret a).
Proof. apply keepsH_id. intros h. eexists. reflexivity. Qed.
Lemma keepsH_fail {A} e : keepsH (fail e : M A).
Proof. apply keepsH_id. intros h. eexists. reflexivity. Qed.
Lemma keepsH_panic {A} : keepsH (panic : M A).
Proof. apply keepsH_id. intros h. eexists. reflexivity. Qed.
Lemma keepsH_gets {A} (f : host -> A) : keepsH (gets f).
Proof. apply keepsH_id. intros h. eexists. reflexivity. Qed.
Lemma keepsH_modify f : (forall h, h_big (f h) = h_big h /\ h_stoprot (f h) = h_stoprot h /\ h_cur (f h) = h_cur h /\ h_next (f h) = h_next h) ->
  keepsH (modify f).
Proof.
  intros Hf h h' r [Hs Hw] [= <- <-] _. destruct (Hf h) as (A & B & C & D). split; [exact A|].
  split; [rewrite B; exact Hs|rewrite C, D; exact Hw].
Qed.
Lemma keepsH_exec n i : keepsH (exec_dest (vmDest n) i).
Proof. unfold exec_dest. apply keepsH_bind; [apply keepsH_dest|]. intros [x [e|]]; [apply keepsH_fail|apply keepsH_ret]. Qed.
Lemma keepsH_kp {A} (m : M A) : keeps (fun h => (h_big h, h_stoprot h, h_cur h, h_next h)) m -> keepsH m.
Proof.
  intros Hm h h' r [Hs Hw] H _. apply Hm in H. injection H as A1 A2 A3 A4. split; [exact A1|].
  split; [rewrite A2; exact Hs|rewrite A3, A4; exact Hw].
Qed.
Lemma keepsH_create n i : keepsH (CreateNewContract (vmDest n) i).
Proof.
  unfold CreateNewContract. cbv zeta.
  apply keepsH_bind; [apply keepsH_kp; kp|intros _]. apply keepsH_bind; [apply keepsH_gets|intros ro].
  apply keepsH_bind; [apply keepsH_kp; kp|intros _]. apply keepsH_bind; [apply keepsH_kp; kp|intros a].
  apply keepsH_bind; [apply keepsH_gets|intros ex]. apply keepsH_bind; [apply keepsH_kp; kp|intros _].
  apply keepsH_bind; [apply keepsH_kp; kp|intros _]. apply keepsH_bind; [apply keepsH_kp; kp|intros _].
  apply keepsH_bind; [apply keepsH_dest|intros [[o info] [e|]]]; apply keepsH_kp; kp.
Qed.
Lemma keepsH_esdt n dest token nonce v g f args : keepsH (esdt_execute (vmDest n) dest token nonce v g f args).
Proof.
  unfold esdt_execute. apply keepsH_bind; [apply keepsH_gets|intros h0]. cbv zeta.
  apply keepsH_bind; [apply keepsH_try, keepsH_kp; kp|intros [gas|e]]; [|apply keepsH_kp; kp].
  destruct (_ && _); [|apply keepsH_ret]. apply keepsH_bind; [apply keepsH_try, keepsH_exec|intros [x|e]]; apply keepsH_kp; kp.
Qed.
Lemma keepsH_interp {B} n (p : prim B) : prim_nobig p -> keepsH (interp (vmDest n) (vmSame n) p).
Proof.
  destruct (walk_vm any_opts any_codes n) as [Hd He].
  destruct p; cbn [prim_nobig interp]; intros Hp; try contradiction; try (apply keepsH_kp; kp; fail).
  - apply keepsH_of; [|apply (walk_interp any_opts any_codes (vmDest n) (vmSame n) Hd He false (QSetTimeLock key value)); exact I].
    kp.
  - apply keepsH_bind; [apply keepsH_gets|intros i]. apply keepsH_exec.
  - apply keepsH_esdt.
  - apply keepsH_bind; [apply keepsH_gets|intros i]. apply keepsH_create.
Qed.
Lemma keepsH_run n c : cmd_nobig c -> keepsH (run_cmd (vmDest n) (vmSame n) c).
Proof.
  induction c as [x| |B p k IH]; cbn [cmd_nobig run_cmd]; [intros _; apply keepsH_ret|intros _; apply keepsH_panic|].
  intros [Hp Hk]. apply keepsH_bind; [apply keepsH_try, keepsH_interp, Hp|]. intros x. apply IH, Hk.
Qed.
Ltac nobig := repeat first [exact I | split; [exact I|] | progress (cbn [cmd_nobig prim_nobig]) | intros [?|?] | intros ?
  | match goal with |- cmd_nobig (match ?x with _ => _ end) => destruct x | |- cmd_nobig (if ?x then _ else _) => destruct x
     | |- cmd_nobig ?c => let g := head_of c in unfold g end].
Lemma calls_nobig c : calls_other c -> cmd_nobig (api c).
Proof. destruct c; intros []; unfold api; nobig. Qed.
Lemma api_keeps_big n c h h' r : host_ok h -> calls_other c -> vmApi n c h = (h', r) -> r <> OFuel -> h_big h' = h_big h.
Proof. intros Hok Hc H Hr. exact (proj1 (keepsH_run n (api c) (calls_nobig c Hc) h h' r Hok H Hr)). Qed.
End any.
