(** C41: a nested call of the constructor is refused. *)
From Verif Require Import VmModel WpProofs EffProofs EffFrameProofs EffWalkProofs EffTopProofs CallSpec KeepProofs CallProofs
  OutSpec OutProofs GasSpec GasAsyncProofs CodeSpec.

Section ini.
Context `{E : env}.
Notation runs := (fun h : host => List.filter is_run (h_trace h)).
Notation fr := (fun h : host => (List.filter is_run (h_trace h), r_fn (h_rt h))).
Hint Extern 1 (keeps _ (GetOutputAccount _)) => apply keeps_GetOutputAccount; reflexivity : keeps.
Lemma r_Clean : keeps runs CleanWasmerInstance.
Proof. intros h h' r H. unfold CleanWasmerInstance in H. destruct (h_cur h); injection H as <- <-; reflexivity. Qed.
Lemma r_popInst : keeps runs popInstance.
Proof.
  intros h h' r H. unfold popInstance in H. destruct (h_ist h) as [|o l]; [injection H as <- <-; reflexivity|].
  destruct (bool_decide _); [injection H as <- <-; reflexivity|].
  assert (K : keeps runs (CleanWasmerInstance;;; modify (set_h_cur o))) by (apply keeps_bind; [exact r_Clean|intros; apply keeps_modify; reflexivity]).
  exact (K _ _ _ H).
Qed.
Lemma r_popRt : keeps runs runtime_PopSetActiveState.
Proof. intros h h' r H. unfold runtime_PopSetActiveState in H. destruct (h_rtst h); [injection H as <- <-; reflexivity|]. exact (r_popInst _ _ _ H). Qed.
Hint Resolve r_Clean r_popRt : keeps.
Lemma r_Transfer d s v c : keeps fr (TransferValueOnly d s v c).
Proof. kp. Qed.
Lemma r_CreateErr e : keeps runs (CreateVMOutputInCaseOfError e).
Proof. kp. Qed.
Lemma r_GetVMOutput : keeps runs GetVMOutput.
Proof. kp. Qed.
Hint Resolve r_CreateErr r_GetVMOutput : keeps.
Lemma r_bcpop : keeps runs blockchain_PopSetActiveState.
Proof. apply keeps_modify. intros h. destruct (h_bcst h); reflexivity. Qed.
Hint Resolve r_bcpop : keeps.
Lemma r_finish e : keeps runs (finishExecuteOnDestContext e).
Proof. kp; cbv zeta; repeat case_match; reflexivity. Qed.
Lemma r_finishSame e : keeps runs (finishExecuteOnSameContext e).
Proof. kp; cbv zeta; repeat case_match; reflexivity. Qed.

Lemma execute_init run rd i h : isInitName (r_fn (h_rt h)) = true -> ci_init i = false -> execute run rd i h = (h, OErr ErrInitFuncCalledInRun).
Proof. intros H1 H2. unfold execute. rewrite bind_gets, H1, H2. reflexivity. Qed.
Lemma init_is f : f = InitFunctionName \/ f = InitFunctionNameEth -> isInitName f = true.
Proof. intros [-> | ->]; reflexivity. Qed.
Lemma frame_fn i h : r_fn (dest_frame i h) = ci_fn i.
Proof. exact (proj1 (proj2 (copyTx_same (r_input (h_rt h)) i))). Qed.
Lemma unlocked_init i h : ci_init (unlocked (dest_input i h)) = ci_init i.
Proof. exact (proj1 (proj2 (proj2 (copyTx_same (r_input (h_rt h)) i)))). Qed.
Lemma body_init run rd i h hb bo : ci_fn i = InitFunctionName \/ ci_fn i = InitFunctionNameEth -> ci_init i = false ->
  destBody run rd (unlocked (dest_input i h)) (destPush i h) = (hb, bo) -> bo <> OPanic -> bo <> OFuel ->
  (exists e, bo = OOk (None, Some e)) /\ nothing_ran h hb.
Proof.
  intros Hf Hi H H1 H2. unfold destBody in H. set (j := unlocked (dest_input i h)) in *.
  assert (Hj : ci_init j = false) by (unfold j; rewrite unlocked_init; exact Hi). clearbody j.
  unfold bind at 1 in H. unfold try at 1 in H.
  assert (Hk : forall (tr : M unit), keeps fr tr -> forall h3 o3, (tr ;;; execute run rd j) (destPush i h) = (h3, o3) ->
     (exists e, o3 = OErr e) /\ nothing_ran h h3 \/ o3 = OPanic \/ o3 = OFuel).
  { intros tr Ht h3 o3 Hx. unfold bind in Hx. destruct (tr (destPush i h)) as [h4 o4] eqn:H4.
    pose proof (Ht _ _ _ H4) as Hf4. cbn beta in Hf4.
    assert (Hr : nothing_ran h h4) by exact (f_equal fst Hf4).
    assert (Hn4 : r_fn (h_rt h4) = ci_fn i) by (rewrite <- (frame_fn i h); exact (f_equal snd Hf4)).
    destruct o4; [|injection Hx as <- <-; eauto..].
    rewrite execute_init in Hx by (try exact Hj; rewrite Hn4; apply init_is, Hf). injection Hx as <- <-. eauto. }
  lazymatch type of H with context [(?tr ;;; execute run rd j) (destPush i h)] => specialize (Hk tr); destruct ((tr ;;; execute run rd j) (destPush i h)) as [h3 o3] eqn:H3 end.
  specialize (Hk ltac:(destruct (_ || _); [apply r_Transfer|kp]) _ _ eq_refl).
  destruct Hk as [[[e ->] Hr]|[-> | ->]]; [injection H as <- <-; eauto|injection H as <- <-; contradiction..].
Qed.
Lemma dest_init n i h h' r : h_stoprot h = true -> ci_fn i = InitFunctionName \/ ci_fn i = InitFunctionNameEth -> ci_init i = false ->
  e_isBuiltin E (ci_fn i) = false -> vmDest n i h = (h', r) -> r <> OPanic -> r <> OFuel ->
  (exists o e, r = OOk (Some o, None, Some e)) /\ nothing_ran h h'.
Proof.
  intros Hs Hf Hi Hb H H1 H2. destruct n as [|n]; [injection H as <- <-; contradiction|].
  rewrite (plain_dest n i h Hb) in H. unfold bind at 1 in H.
  destruct (executeOnDestContextNoBuiltinFunction _ _ i (bcPush h)) as [h2 o2] eqn:Hx.
  assert (Ho2 : o2 <> OFuel) by (intros ->; injection H as <- <-; contradiction).
  assert (Hp2 : o2 <> OPanic) by (intros ->; injection H as <- <-; contradiction).
  destruct (nb_shape n i (bcPush h) h2 o2 Hs Hx Ho2) as (hb & bo & h1 & o & Hbo & Hbf & Hco & _ & _ & ro & Hro & Hres). cbv zeta in Hro.
  destruct Hres as [(-> & x & Hdr & ->)|[-> _]]; [|contradiction].
  assert (Np : bo <> OPanic) by (intros ->; discriminate Hdr).
  destruct (body_init _ _ _ _ _ _ Hf Hi Hbo Np Hbf) as ((e & ->) & Hrun). injection Hdr as <-.
  assert (Hr2 : nothing_ran (bcPush h) h2).
  { unfold executeOnDestContextNoBuiltinFunction in Hx. rewrite (bind_ok _ _ _ _ _ (pushDest_eq i (bcPush h))) in Hx. unfold deferring in Hx.
    rewrite Hbo in Hx. cbn beta iota in Hx. unfold nothing_ran. rewrite <- Hrun.
    unfold bind in Hx. destruct (finishExecuteOnDestContext (Some e) hb) as [h5 o5] eqn:H5. pose proof (r_finish _ _ _ _ H5) as K. cbn beta in K.
    destruct o5; inversion Hx; subst; exact K. }
  rewrite (bind_ok _ _ _ _ _ (bcPopSet_ok h2)) in H. injection H as <- <-. split; [eauto|].
  unfold nothing_ran in *. rewrite <- (r_bcpop h2 _ _ (bcPopSet_ok h2)) in Hr2. exact Hr2.
Qed.
Lemma same_init n i h h' r : ci_fn i = InitFunctionName \/ ci_fn i = InitFunctionNameEth -> ci_init i = false ->
  vmSame n i h = (h', r) -> r <> OPanic -> r <> OFuel -> (exists e, r = OErr e) /\ nothing_ran h h'.
Proof.
  intros Hf Hi H H1 H2. destruct n as [|n]; [injection H as <- <-; contradiction|].
  change (vmSame (S n) i h) with (ExecuteOnSameContext (vmRun n) (vmDest n) i h) in H.
  destruct (e_isBuiltin E (ci_fn i)) eqn:Hb.
  { unfold ExecuteOnSameContext in H. rewrite Hb in H. injection H as <- <-. split; [eauto|reflexivity]. }
  rewrite (execSame_unfold _ _ i h Hb) in H. cbv zeta in H. unfold deferring in H. set (j := unlocked (dest_input i h)) in *.
  assert (Hj : ci_init j = false) by (unfold j; rewrite unlocked_init; exact Hi). clearbody j.
  destruct (bind _ _ (samePush i h)) as [h3 o3] eqn:Hx. unfold bind in Hx.
  destruct (TransferValueOnly _ _ _ _ (samePush i h)) as [h4 o4] eqn:H4.
  pose proof (r_Transfer _ _ _ _ _ _ _ H4) as Hf4. cbn beta in Hf4.
  assert (Hr : nothing_ran h h4) by exact (f_equal fst Hf4).
  assert (Hn4 : r_fn (h_rt h4) = ci_fn i) by (rewrite <- (frame_fn i h); exact (f_equal snd Hf4)).
  assert (Hk : (exists e, o3 = OErr e) /\ nothing_ran h h3 \/ o3 = OPanic \/ o3 = OFuel).
  { destruct o4; [|injection Hx as <- <-; eauto..].
    rewrite execute_init in Hx by (try exact Hj; rewrite Hn4; apply init_is, Hf). injection Hx as <- <-. eauto. }
  destruct Hk as [[[e ->] Hr3]|[-> | ->]].
  - unfold bind in H. destruct (finishExecuteOnSameContext (Some e) h3) as [h5 o5] eqn:H5. pose proof (r_finishSame _ _ _ _ H5) as Hr5. cbn beta in Hr5.
    assert (Hr6 : nothing_ran h h5) by (unfold nothing_ran in *; rewrite Hr5; exact Hr3).
    destruct o5; injection H as <- <-; try contradiction; split; eauto.
  - exfalso. destruct (finishExecuteOnSameContext None h3) as [h5 []]; injection H as <- <-; contradiction.
  - injection H as <- <-. contradiction.
Qed.
End ini.
