(** Gas counters and metering through nested calls. *)
From Coq Require Import ZifyBool.
From Verif Require Import VmModel MathProofs WpProofs EffProofs EffFrameProofs EffWalkProofs EffTopProofs CallSpec KeepProofs CallProofs OutProofs GasSpec.

Section gas.
Context `{E : env}.

(** * Metering of a frame *)
Record gas_kept (O : opts) (l : bool) (h h' : host) : Prop := mkGasKept {
  g_provided : mt_provided (h_met h') = mt_provided (h_met h);
  g_exec : mt_forexec (h_met h') = mt_forexec (h_met h) \/
    (l = true \/ op_create O = true) /\ mt_forexec (h_met h') <= Z.max 0 (vi_gas (r_input (h_rt h)));
  g_gas : vi_gas (r_input (h_rt h')) = vi_gas (r_input (h_rt h)) \/ vi_gas (r_input (h_rt h')) = 0
}.
Lemma gk_same O l h h' : h_met h' = h_met h -> h_rt h' = h_rt h -> gas_kept O l h h'.
Proof. intros H1 H2. constructor; rewrite ?H1, ?H2; auto. Qed.
Lemma gk_trans O l h1 h2 h3 : gas_kept O l h1 h2 -> gas_kept O l h2 h3 -> gas_kept O l h1 h3.
Proof.
  intros [A1 A2 A3] [B1 B2 B3]. constructor; [congruence| |].
  - destruct B2 as [->|[B2 B4]]; [exact A2|]. right. split; [exact B2|]. destruct A3 as [A3|A3]; rewrite A3 in B4; lia.
  - destruct B3 as [->|B3]; auto.
Qed.
Definition popped (ok : bool) (m m1 : metering) : metering :=
  if ok then mkMet (mt_provided m) (mt_initcost m) (mt_forexec m) (merge addGasUsed (mt_used m1) (mt_used m)) else m.
Lemma samePop_met O (ok : bool) i h h1 b : wf h -> eff O true (samePush i h) h1 b ->
  h_met (samePop ok h1) = popped ok (h_met h) (h_met h1) /\ h_rt (samePop ok h1) = h_rt h.
Proof.
  intros Hw He. pose proof (eff_kept O _ _ _ _ He Hw) as K.
  pose proof (k_metst _ _ _ _ _ K) as K1. pose proof (k_rtst _ _ _ _ _ K) as K2. pose proof (k_ist _ _ _ _ _ K) as K3.
  rewrite samePop_unfold. destruct ok; autorewrite with pops.
  - split.
    + destruct (metPop_set h1 true (h_met h) (h_metst h) K1) as [D1 _]. exact D1.
    + set (h6 := bcPop _ _). apply (rtPop_set h6 (h_rt h) (h_rtst h) (h_cur h) (h_ist h));
        unfold h6; autorewrite with pops; assumption.
  - split.
    + destruct (metPop_set (bigPop h1) false (h_met h) (h_metst h)) as [D2 _]; [|exact D2]. autorewrite with pops. exact K1.
    + set (h6 := outPop _ _). apply (rtPop_set h6 (h_rt h) (h_rtst h) (h_cur h) (h_ist h));
        unfold h6; autorewrite with pops; assumption.
Qed.
Lemma destPop_met O (ok : bool) i h h1 b : wf h -> eff O true (destPush i h) h1 b ->
  h_met (destPop ok h1) = popped ok (h_met h) (h_met h1) /\ h_rt (destPop ok h1) = h_rt h.
Proof.
  intros Hw He. pose proof (eff_kept O _ _ _ _ He Hw) as K.
  pose proof (k_metst _ _ _ _ _ K) as K1. pose proof (k_rtst _ _ _ _ _ K) as K2. pose proof (k_ist _ _ _ _ _ K) as K3.
  rewrite destPop_unfold. autorewrite with pops. split.
  - destruct (metPop_set (stoPop (bigPop h1)) ok (h_met h) (h_metst h)) as [D1 _]; [autorewrite with pops; exact K1|].
    rewrite D1. autorewrite with pops. reflexivity.
  - set (h6 := outPop _ _). apply (rtPop_set h6 (h_rt h) (h_rtst h) (h_cur h) (h_ist h));
      unfold h6; autorewrite with pops; assumption.
Qed.
Lemma gk_popped O l h h' ok m : h_met h' = popped ok (h_met h) m -> h_rt h' = h_rt h -> gas_kept O l h h'.
Proof. intros H1 H2. constructor; rewrite ?H1, ?H2; destruct ok; cbn; auto. Qed.

Lemma eff_gas O l h h' b : eff O l h h' b -> wf h -> gas_kept O l h h'.
Proof.
  induction 1 as [ | l h1 h2 h3 b1 b2 H1 IH1 H2 IH2 | l h i x y Hi Hm Hl | | l h m Hm | | | | | | | l h h2 b H IH | l h s d v
    | l h f Hf | l h ro | h m g Hm | h | h m g
    | | | | | l h h2 a Ho Hc Hro H IH | | | l h h2 b H IH | l h h2 rv H IH | l h h2 H IH | l h i h2 b ok H IH | l h i h2 b ok H IH]; intros Hw;
    try (apply gk_same; reflexivity).
  - apply (gk_trans O l h1 h2 h3); [apply IH1, Hw|]. apply IH2. eapply kept_wf; [apply (eff_kept O _ _ _ _ H1 Hw)|exact Hw].
  - destruct Hm as [Hm1 Hm2]. constructor; [exact Hm1| |left; reflexivity].
    destruct Hm2 as [Hm2|[Hm2 Hm3]]; [left; exact Hm2|right; split; [exact Hm2|]]. change (h_met (set_h_met m h)) with m. lia.
  - (* prot *) destruct (IH Hw). constructor; assumption.
  - destruct Hf as (_ & _ & _ & _ & _ & _ & Hf & _). constructor; [reflexivity|left; reflexivity|exact Hf].
  - constructor; [reflexivity|left; reflexivity|left; reflexivity].
  - destruct (IH Hw). constructor; assumption.
  - destruct (IH Hw). constructor; assumption.
  - destruct (IH Hw). constructor; autorewrite with pops; assumption.
  - destruct (IH Hw). constructor; assumption.
  - destruct (destPop_met O ok i h h2 b Hw H) as [A1 A2]. exact (gk_popped O l h _ ok _ A1 A2).
  - destruct (samePop_met O ok i h h2 b Hw H) as [A1 A2]. exact (gk_popped O l h _ ok _ A1 A2).
Qed.

(** * Counters are never negative *)
Lemma counters_sub h h' : h_insts h' ⊆ h_insts h -> counters_ok h -> counters_ok h'.
Proof. intros H Hc c x Hx. apply (Hc c x). eapply lookup_weaken; eauto. Qed.
Lemma eff_counters O l h h' b : eff O l h h' b -> counters_ok h -> counters_ok h'.
Proof.
  induction 1 as [ | l h1 h2 h3 b1 b2 H1 IH1 H2 IH2 | l h i x y Hi Hm Hl Hp | | l h m Hm | | | | | | | l h h2 b H IH | l h s d v
    | l h f Hf | l h ro | h m g Hm | h | h m g
    | | | | | l h h2 a Ho Hc Hro H IH | | | l h h2 b H IH | l h h2 rv H IH | l h h2 H IH | l h i h2 b ok H IH | l h i h2 b ok H IH]; intros Hw;
    try exact Hw; try exact (IH Hw); auto.
  - intros j z Hz. unfold with_inst in Hz. cbn in Hz. destruct (decide (i = j)) as [<-|Hj].
    + rewrite lookup_insert in Hz. injection Hz as <-. apply Hp, (Hw i x). apply Hi.
    + rewrite lookup_insert_ne in Hz by exact Hj. exact (Hw j z Hz).
  - intros j z Hz. cbn in Hz. destruct (decide (h_next h = j)) as [<-|Hj].
    + rewrite lookup_insert in Hz. injection Hz as <-. cbn. lia.
    + rewrite lookup_insert_ne in Hz by exact Hj. exact (Hw j z Hz).
  - intros j z Hz. cbn in Hz. destruct (decide (h_next h = j)) as [<-|Hj].
    + rewrite lookup_delete in Hz. discriminate.
    + rewrite lookup_delete_ne, lookup_insert_ne in Hz by exact Hj. exact (Hw j z Hz).
  - intros j z Hz. autorewrite with pops in Hz. exact (IH Hw j z Hz).
  - eapply counters_sub; [apply destPop_insts|]. apply IH. exact Hw.
  - eapply counters_sub; [apply samePop_insts|]. apply IH. exact Hw.
Qed.

(** * The caller's instance while the callee runs *)
Definition parked (c : nat) (x : inst) (h : host) : Prop := h_insts h !! c = Some x /\ (c < h_next h)%nat.
Definition off (c : nat) (h : host) : Prop := h_cur h <> Some c.
Lemma eff_parked O l h h' b c x : eff O l h h' b -> wf h -> parked c x h -> off c h -> parked c x h' /\ off c h'.
Proof.
  intros He Hw [H1 H2] Ho. pose proof (eff_kept O _ _ _ _ He Hw) as K. split; [split|].
  - rewrite (k_insts _ _ _ _ _ K c H2 Ho). exact H1.
  - pose proof (k_next _ _ _ _ _ K). lia.
  - destruct (k_cur' _ _ _ _ _ K) as [Hc|[Hc|(j & Hc & Hj)]]; unfold off in *; rewrite Hc; [exact Ho|discriminate|].
    intros [= ->]. lia.
Qed.

(** steps that do not touch the instances *)
Notation finst := (fun h => (h_insts h, h_cur h, h_next h)).
Notation fruns := (fun h => List.filter is_run (h_trace h)).
Lemma keeps_parked {A} (m : M A) c x h h' r : keeps finst m -> m h = (h', r) -> parked c x h -> parked c x h'.
Proof. intros Hk H [H1 H2]. apply Hk in H. injection H as Q1 Q2 Q3. unfold parked. rewrite Q1, Q3. auto. Qed.

Lemma ki_GetSCCode : keeps finst GetSCCode.
Proof. kp. Qed.
Lemma ki_deduct c b p : keeps finst (deductInitialGas c b p).
Proof. kp. Qed.
Lemma ki_deductE c : keeps finst (DeductInitialGasForExecution c).
Proof. unfold DeductInitialGasForExecution. destruct (e_aot E); apply ki_deduct. Qed.
Lemma ki_extract : keeps finst ExtractCodeUpgradeFromArgs.
Proof. kp. Qed.
Lemma ki_transfer d s v c : keeps finst (TransferValueOnly d s v c).
Proof. kp. Qed.
Lemma kr_transfer d s v c : keeps fruns (TransferValueOnly d s v c).
Proof. kp. Qed.
Lemma ki_CreateErr e : keeps finst (CreateVMOutputInCaseOfError e).
Proof. kp. Qed.
Lemma ki_GetVMOutput : keeps finst GetVMOutput.
Proof. kp. Qed.
Lemma kr_CreateErr e : keeps fruns (CreateVMOutputInCaseOfError e).
Proof. kp. Qed.
Lemma kr_GetVMOutput : keeps fruns GetVMOutput.
Proof. kp. Qed.
Lemma ki_verify : keeps finst VerifyContractCode.
Proof. kp. Qed.

Lemma new_parked m g c x h : parked c x h -> parked c x (fst (new_instance m g h)) /\ off c (fst (new_instance m g h)).
Proof.
  intros [H1 H2]. unfold parked, off. cbn. rewrite lookup_insert_ne by lia. split; [split; [exact H1|lia]|]. intros Hc. injection Hc as Hc. lia.
Qed.
Lemma clean_parked c x h : parked c x h -> off c h -> parked c x (fst (CleanWasmerInstance h)).
Proof.
  intros [H1 H2] Ho. unfold CleanWasmerInstance. destruct (h_cur h) as [j|] eqn:Hc; [|split; assumption].
  split; [|exact H2]. cbn. rewrite lookup_delete_ne; [exact H1|]. intros ->. exact (Ho Hc).
Qed.
Lemma start_parked code g new c x h h' r : parked c x h -> StartWasmerInstance code g new h = (h', r) ->
  parked c x h' /\ (forall u, r = OOk u -> off c h').
Proof.
  intros Hp H. unfold StartWasmerInstance in H. rewrite bind_gets in H. destruct (_ <=? _)%nat.
  { injection H as <- <-. split; [exact Hp|]. discriminate. }
  rewrite bind_gets in H. set (hash := GetCodeHash h _) in H. clearbody hash.
  unfold bind at 1 in H. unfold makeInstanceFromCompiledCode in H.
  assert (Hbc : forall h h' r, parked c x h -> makeInstanceFromContractByteCode code hash g new h = (h', r) ->
    parked c x h' /\ (forall u, r = OOk u -> off c h')).
  { clear. intros h h' r Hp H. unfold makeInstanceFromContractByteCode in H.
    destruct (e_compile E code) as [m|]; [|injection H as <- <-; split; [exact Hp|discriminate]].
    destruct (new_parked m g c x h Hp) as [P1 P2].
    rewrite (bind_ok _ _ h (fst (new_instance m g h)) tt) in H by reflexivity.
    set (h1 := fst (new_instance m g h)) in *. clearbody h1. cbv zeta in H. rewrite bind_modify in H.
    lazymatch type of H with _ ?hh = _ => set (h2 := hh) in H end.
    assert (Hp2 : parked c x h2) by exact P1. assert (Ho2 : off c h2) by exact P2. clearbody h2. clear h1 P1 P2.
    destruct new; [|injection H as <- <-; split; [exact Hp2|intros; exact Ho2]].
    unfold bind, try in H. destruct (VerifyContractCode h2) as [h3 o] eqn:Hv.
    pose proof (ki_verify _ _ _ Hv) as Hk. injection Hk as Q1 Q2 Q3.
    assert (Hp3 : parked c x h3) by (unfold parked in *; rewrite Q1, Q3; exact Hp2).
    assert (Ho3 : off c h3) by (unfold off in *; rewrite Q2; exact Ho2).
    destruct o as [u|e| |]; try (injection H as <- <-; split; [exact Hp3|first [discriminate|intros; exact Ho3]]).
    pose proof (clean_parked c x h3 Hp3 Ho3) as Hc3. destruct (CleanWasmerInstance h3) as [h4 o4].
    destruct o4; injection H as <- <-; (split; [exact Hc3|discriminate]). }
  destruct (negb (e_aot E)); [exact (Hbc _ _ _ Hp H)|]. destruct (_ || _); [exact (Hbc _ _ _ Hp H)|].
  rewrite bind_gets in H. destruct (h_cache h !! hash) as [code2|]; [|exact (Hbc _ _ _ Hp H)].
  destruct (e_compile E code2) as [m|]; [|exact (Hbc _ _ _ Hp H)].
  destruct (new_parked m g c x h Hp) as [P1 P2].
  rewrite (bind_ok _ _ h (fst (new_instance m g h)) tt) in H by reflexivity.
  set (h1 := fst (new_instance m g h)) in *. rewrite bind_modify in H. injection H as <- <-.
  split; [exact P1|]. intros _ _. exact P2.
Qed.

Definition paid (x : inst) (g : Z) : inst := set_in_points (more_points (in_points x) g) x.

(** [m] leaves the parked instance alone, and has switched to another one if it succeeds *)
Definition switches {A} (c : nat) (x : inst) (m : M A) : Prop :=
  forall h h' r, h_stoprot h = true -> wf h -> parked c x h -> m h = (h', r) -> r <> OFuel ->
    parked c x h' /\ (forall a, r = OOk a -> off c h').
Lemma sw_bind_keep {A B} c x (m : M A) (k : A -> M B) :
  walk any_opts (true, true) m -> keeps finst m -> (forall a, switches c x (k a)) -> switches c x (bind m k).
Proof.
  intros Hwk Hm Hk h h' r Hs Hw Hp H Hr. unfold bind in H. destruct (m h) as [h1 o] eqn:Hmh.
  pose proof (keeps_parked m c x h h1 o Hm Hmh Hp) as Hp1.
  assert (Ho : o <> OFuel) by (intros ->; injection H as <- <-; exact (Hr eq_refl)).
  pose proof (Hwk h h1 o (any_good h Hs) Hmh Ho) as He. cbn [snd] in He.
  destruct o as [a|e| |]; [|injection H as <- <-; split; [exact Hp1|discriminate]..].
  apply (Hk a h1 h' r); auto.
  - pose proof (eff_stoprot any_opts _ _ _ _ He) as Q. first [rewrite Q; exact Hs|rewrite <- Q; exact Hs|apply Q; exact Hs].
  - eapply kept_wf; [apply (eff_kept any_opts _ _ _ _ He Hw)|exact Hw].
Qed.
(** once switched, everything else *)
Lemma sw_bind_done {A B} c x (m : M A) (k : A -> M B) :
  walk any_opts (true, true) m -> switches c x m -> (forall a, walk any_opts (true, true) (k a)) -> switches c x (bind m k).
Proof.
  intros Hwm Hm Hk h h' r Hs Hw Hp H Hr. unfold bind in H. destruct (m h) as [h1 o] eqn:Hmh.
  assert (Ho : o <> OFuel) by (intros ->; injection H as <- <-; exact (Hr eq_refl)).
  destruct (Hm h h1 o Hs Hw Hp Hmh Ho) as [Hp1 Ho1].
  pose proof (Hwm h h1 o (any_good h Hs) Hmh Ho) as He. cbn [snd] in He.
  destruct o as [a|e| |]; [|injection H as <- <-; split; [exact Hp1|discriminate]..].
  assert (Hs1 : h_stoprot h1 = true).
  { pose proof (eff_stoprot any_opts _ _ _ _ He) as Q. first [rewrite Q; exact Hs|rewrite <- Q; exact Hs|apply Q; exact Hs]. }
  assert (Hw1 : wf h1) by (eapply kept_wf; [apply (eff_kept any_opts _ _ _ _ He Hw)|exact Hw]).
  pose proof (Hk a h1 h' r (any_good h1 Hs1) H Hr) as He2. cbn [snd] in He2.
  destruct (eff_parked any_opts _ _ _ _ c x He2 Hw1 Hp1 (Ho1 a eq_refl)) as [P1 P2]. split; [exact P1|]. intros _ _. exact P2.
Qed.
Lemma sw_map_err {A} c x (m : M A) f : switches c x m -> switches c x (map_err m f).
Proof.
  intros Hm h h' r Hs Hw Hp H Hr. unfold map_err, bind, try in H. destruct (m h) as [h1 o] eqn:Hmh.
  assert (Ho : o <> OFuel) by (intros ->; injection H as <- <-; exact (Hr eq_refl)).
  destruct (Hm h h1 o Hs Hw Hp Hmh Ho) as [Hp1 Ho1].
  destruct o as [a|e| |]; try (injection H as <- <-; (split; [exact Hp1|discriminate])).
  injection H as <- <-. split; [exact Hp1|]. intros _ _. exact (Ho1 a eq_refl).
Qed.
Lemma sw_start c x code g new : switches c x (StartWasmerInstance code g new).
Proof. intros h h' r _ _ Hp H _. exact (start_parked code g new c x h h' r Hp H). Qed.
Lemma sw_fail {A} c x e : switches c x (fail e : M A).
Proof. intros h h' r _ _ Hp [= <- <-] _. split; [exact Hp|discriminate]. Qed.

Section body.
Context (n : nat).
Local Lemma Hrun' l p : prog_ok any_opts p -> walk any_opts (true, l) (vmRun n p).
Proof. intros Hp. apply walk_vmRun; [apply any_codes|exact Hp]. Qed.
Local Lemma Hd' : walk_ed any_opts (vmDest n).
Proof. exact (proj1 (walk_vm any_opts any_codes n)). Qed.

Lemma sw_deploy c x d : switches c x (deployContract (vmRun n) (vmDest n) d).
Proof.
  unfold deployContract. apply sw_bind_keep.
  { apply walk_orOutOfGas, walk_deductDirect, any_codes. }
  { unfold orOutOfGas. unfold DeductInitialGasForDirectDeployment. apply keeps_bind; [apply keeps_try, ki_deduct|]. intros [u|e]; kp. }
  intros _. apply sw_bind_keep; [apply walk_set_verify|kp|]. intros _. apply sw_bind_keep; [apply walk_gets|kp|].
  intros g. apply sw_bind_done; [apply walk_map_err, (walk_Start any_opts), any_codes|apply sw_map_err, sw_start|]. intros _.
  apply walk_bind; [apply walk_callInit; [apply any_codes|apply Hrun'|apply Hd']|]. intros _. apply walk_DeployCode.
Qed.
Lemma execute_rest j c x : switches c x
  (if beq (ci_fn j) UpgradeFunctionName then executeUpgrade (vmRun n) (vmDest n) j else
  contract <- GetSCCode ;;
  DeductInitialGasForExecution contract ;;;
  g <- GetGasForExecution ;;
  StartWasmerInstance contract g false ;;;
  callSCMethodIndirect (vmRun n) (vmDest n) ;;;
  failIfReturnCodeNotOk).
Proof.
  destruct (beq _ _).
  - unfold executeUpgrade. apply sw_bind_keep; [apply walk_gets|kp|]. intros w.
    apply sw_bind_keep; [apply walk_lift|apply keeps_lift|]. intros _. apply sw_bind_keep; [apply walk_ExtractCode|apply ki_extract|].
    intros [code meta]. apply sw_bind_done; [apply (walk_deploy any_opts); [apply any_codes|apply Hrun'|apply Hd']|apply sw_deploy|].
    intros _. unfold failIfReturnCodeNotOk. apply walk_bind; [apply walk_gets|]. intros r. apply walk_fail_if.
  - apply sw_bind_keep; [apply walk_GetSCCode|apply ki_GetSCCode|]. intros code.
    apply sw_bind_keep; [apply walk_deductExec, any_codes|apply ki_deductE|]. intros _.
    apply sw_bind_keep; [apply walk_gets|kp|]. intros g.
    apply sw_bind_done; [apply (walk_Start any_opts), any_codes|apply sw_start|]. intros _.
    apply walk_bind; [apply walk_callIndirect; [apply any_codes|apply Hrun'|apply Hd']|]. intros _.
    unfold failIfReturnCodeNotOk. apply walk_bind; [apply walk_gets|]. intros r. apply walk_fail_if.
Qed.
Lemma execute_gas j h h' r c x : h_stoprot h = true -> wf h -> running_as h c x ->
  execute (vmRun n) (vmDest n) j h = (h', r) -> r <> OFuel ->
  (h' = h /\ exists e, r = OErr e) \/
  parked c (paid x (vi_gas (ci_vm j))) h' /\ (forall a, r = OOk a -> off c h').
Proof.
  intros Hs Hw Hx H Hr. unfold execute in H. rewrite bind_gets in H.
  destruct (_ && _); [injection H as <- <-; left; split; [reflexivity|eexists; reflexivity]|].
  cbn [fail_if] in H. rewrite bind_ret in H. rewrite (bind_ok _ _ _ _ _ (UseGas_run _ h c x Hx)) in H.
  fold (paid x (vi_gas (ci_vm j))) in H. right. eapply execute_rest; [| | |exact H|exact Hr]; [exact Hs|exact Hw|].
  split; [unfold with_inst; cbn; apply lookup_insert|]. apply Hw, Hx.
Qed.
End body.

Lemma RestoreGas_run g h c x : running_as h c x ->
  RestoreGas g h = (if g <=? in_points x
    then with_inst c (set_in_points (if max_i64 <? SubUint64 (in_points x) g then max_i64 else SubUint64 (in_points x) g) x) h
    else h, OOk tt).
Proof.
  intros H. unfold RestoreGas, GetPointsUsed. rewrite bind_gets, (points_run _ _ _ H). destruct (_ <=? _); [|reflexivity].
  apply SetPointsUsed_run. exact H.
Qed.
Lemma more_points_add p g : 0 <= p -> 0 <= g -> p + g <= max_i64 -> more_points p g = p + g.
Proof.
  intros H1 H2 H3. unfold more_points. cbv zeta. unfold max_i64 in *. rewrite add_u64_sat by (unfold in_u64, max_u64; lia). unfold max_u64.
  destruct (_ <? _) eqn:Hc; lia.
Qed.
Lemma spent_run h c x : running_as h c x -> spent h = in_points x.
Proof. intros [H1 H2]. unfold spent. rewrite H1, H2. reflexivity. Qed.
Lemma left_gas h : gas_left h = left_of h.
Proof. unfold gas_left, left_of, budget. change (spent h) with (points_of h). cbv zeta. destruct (_ <? _) eqn:H; lia. Qed.
Lemma RestoreGas_spent g h h' ro : in_frame h -> 0 <= g <= spent h -> spent h <= max_i64 -> RestoreGas g h = (h', ro) ->
  spent h' = spent h - g /\ in_frame h'.
Proof.
  intros (c & x & Hx) Hg Hm H. rewrite (spent_run h c x Hx) in *. rewrite (RestoreGas_run g h c x Hx) in H.
  rewrite (proj2 (Z.leb_le _ _)) in H by lia.
  assert (Hsub : SubUint64 (in_points x) g = in_points x - g).
  { clear H. unfold SubUint64. destruct (in_points x <? g) eqn:?; [lia|]. unfold u64. unfold max_i64 in Hm. apply Z.mod_small. unfold u64_mod in *. lia. }
  rewrite Hsub in H. destruct (_ <? _) eqn:Hc; [lia|]. injection H as <- <-.
  pose proof (running_with_inst h c x (set_in_points (in_points x - g) x) Hx) as Hx'.
  rewrite (spent_run _ _ _ Hx'). split; [reflexivity|]. exists c. eexists. exact Hx'.
Qed.

(** the gas in outputs *)
Lemma CreateErr_gas e h h1 o : CreateVMOutputInCaseOfError e h = (h1, OOk o) -> o_gasrem o = 0.
Proof.
  unfold CreateVMOutputInCaseOfError. rewrite bind_gets. cbv zeta. unfold bind at 1.
  destruct (UpdateGasStateOnFailure h) as [h2 [?|?| |]]; try discriminate. intros [= <- <-]. reflexivity.
Qed.
Notation fgasrem := (fun h => o_gasrem (h_out h)).
Lemma kg_success : keeps fgasrem UpdateGasStateOnSuccess.
Proof. kp. Qed.
Lemma GetVMOutput_gas h h1 o : GetVMOutput h = (h1, OOk o) -> o_gasrem o = 0 \/ o_gasrem o = left_of h.
Proof.
  unfold GetVMOutput. intros H. unfold removeNonUpdatedCode in H. rewrite bind_modify in H. unfold GasLeft in H. rewrite bind_gets in H.
  rewrite bind_modify in H. rewrite left_gas in H.
  lazymatch type of H with _ ?hh = _ => assert (Hg : o_gasrem (h_out hh) = left_of h) by reflexivity; set (h2 := hh) in *; clearbody h2 end.
  unfold bind, try in H. destruct (UpdateGasStateOnSuccess h2) as [h3 [u|e| |]] eqn:Hu; try discriminate.
  - injection H as <- <-. right. apply kg_success in Hu. cbn in Hu. congruence.
  - left. exact (CreateErr_gas _ _ _ _ H).
Qed.

(** * A call on the destination's context *)
Lemma handed_gas i h : gas_input (ci_vm i) -> vi_gas (ci_vm (unlocked (dest_input i h))) = handed (ci_vm i).
Proof.
  intros (H1 & H2 & H3). unfold unlocked, dest_input. destruct (copyTx_same (r_input (h_rt h)) i) as (_ & _ & _ & C).
  cbv zeta in C. destruct C as (_ & _ & _ & C1 & C2 & C3 & _). cbn [ci_vm set_ci_vm]. unfold unlockGasIfAsyncCallback.
  rewrite C1. unfold handed in *. case_bool_decide as Hb.
  - rewrite Hb in *. cbn. rewrite C2, C3. rewrite add_u64_sat by (unfold in_u64, max_u64; lia). unfold max_u64. lia.
  - destruct (vi_ctype (ci_vm i)); [| |congruence|]; rewrite C2; lia.
Qed.
Lemma input_gas i h : vi_gas (ci_vm (dest_input i h)) = vi_gas (ci_vm i).
Proof. destruct (copyTx_same (r_input (h_rt h)) i) as (_ & _ & _ & C). apply C. Qed.

Lemma body_gas n i h hb bo c x : h_stoprot h = true -> wf h -> running_as h c x ->
  let j := unlocked (dest_input i h) in
  destBody (vmRun n) (vmDest n) j (destPush i h) = (hb, bo) -> bo <> OFuel -> bo <> OPanic ->
  ((exists e, bo = OOk (None, Some e)) /\ parked c x hb /\ nothing_ran h hb) \/
  parked c (paid x (vi_gas (ci_vm j))) hb.
Proof.
  intros Hs Hw Hx j Hb Ho Hop. unfold destBody in Hb. unfold bind at 1, try in Hb.
  lazymatch type of Hb with context [bind ?t (fun _ => execute ?a ?b j)] =>
    set (tr := t) in Hb; set (m := bind tr (fun _ => execute a b j)) in Hb end.
  assert (Hk : keeps finst tr) by (unfold tr; destruct (_ || _); [apply ki_transfer|apply keeps_ret]).
  assert (Hkr : keeps fruns tr) by (unfold tr; destruct (_ || _); [apply kr_transfer|apply keeps_ret]).
  assert (Hwt : forall h1 o1, tr (destPush i h) = (h1, o1) -> o1 <> OFuel -> eff any_opts true (destPush i h) h1 (pan o1)).
  { intros h1 o1 Ht Ho1. unfold tr in Ht. destruct (_ || _).
    - eapply TransferValueOnly_eff; [apply any_codes|exact Ht|exact Ho1|]. right; left; reflexivity.
    - injection Ht as <- <-. apply E_refl. }
  assert (Hp0 : parked c x (destPush i h)) by (split; [apply Hx|apply Hw, Hx]).
  destruct (m (destPush i h)) as [h3 o3] eqn:Hm. unfold m in Hm. unfold bind in Hm.
  destruct (tr (destPush i h)) as [h4 o4] eqn:Ht. pose proof (keeps_parked tr c x _ _ _ Hk Ht Hp0) as Hp4.
  pose proof (Hkr _ _ _ Ht) as Hr4. cbn beta in Hr4.
  assert (Hr4' : nothing_ran h h4) by exact Hr4. clear Hr4.
  assert (Ho3 : o3 <> OFuel) by (intros ->; injection Hb as <- <-; exact (Ho eq_refl)).
  assert (Ho4 : o4 <> OFuel) by (intros ->; injection Hm as <- <-; exact (Ho3 eq_refl)).
  pose proof (Hwt h4 o4 eq_refl Ho4) as He4.
  destruct o4 as [u|e| |].
  - pose proof (Hk _ _ _ Ht) as Hq. injection Hq as Q1 Q2 Q3.
    assert (Hs4 : h_stoprot h4 = true).
    { pose proof (eff_stoprot any_opts _ _ _ _ He4) as Q. first [rewrite Q; exact Hs|rewrite <- Q; exact Hs|apply Q; exact Hs]. }
    assert (Hw4 : wf h4) by (eapply kept_wf; [apply (eff_kept any_opts _ _ _ _ He4 Hw)|exact Hw]).
    assert (Hx4 : running_as h4 c x) by (split; [rewrite Q2; apply Hx|apply Hp4]).
    destruct (execute_gas n j h4 h3 o3 c x Hs4 Hw4 Hx4 Hm Ho3) as [[-> [e ->]]|[Hp3 Hoff]].
    + injection Hb as <- <-. left. split; [eexists; reflexivity|]. split; assumption.
    + right. pose proof (walk_execute any_opts any_codes _ _ (Hrun' n) (Hd' n) j h4 h3 o3 (any_good h4 Hs4) Hm Ho3) as He3. cbn [snd] in He3.
      assert (Hs3 : h_stoprot h3 = true).
      { pose proof (eff_stoprot any_opts _ _ _ _ He3) as Q. first [rewrite Q; exact Hs4|rewrite <- Q; exact Hs4|apply Q; exact Hs4]. }
      assert (Hw3 : wf h3) by (eapply kept_wf; [apply (eff_kept any_opts _ _ _ _ He3 Hw4)|exact Hw4]).
      destruct o3 as [u3|e3| |].
      * assert (Hwk : walk any_opts (true, true) (r <- try (processAsyncInfo (vmDest n)) ;; info <- gets (fun h => r_actx (h_rt h)) ;;
          ret (Some info, match r with inl _ => None | inr e => Some e end))).
        { apply walk_bind; [apply walk_try, walk_processAsyncInfo; first [apply any_codes|apply Hd']|intros r].
          apply walk_bind; [apply walk_gets|intros y]. apply walk_ret. }
        pose proof (Hwk h3 hb bo (any_good h3 Hs3) Hb Ho) as He5. cbn [snd] in He5.
        apply (eff_parked any_opts _ _ _ _ c _ He5 Hw3 Hp3 (Hoff u3 eq_refl)).
      * injection Hb as <- <-. exact Hp3.
      * injection Hb as <- <-. exact Hp3.
      * destruct (Ho3 eq_refl).
  - injection Hm as <- <-. injection Hb as <- <-. left. split; [eexists; reflexivity|]. split; assumption.
  - injection Hm as <- <-. injection Hb as <- <-.
    destruct (Hop eq_refl).
  - destruct (Ho4 eq_refl).
Qed.
Lemma destPop_at O ok i h h1 b c x : wf h -> h_cur h = Some c -> eff O true (destPush i h) h1 b ->
  h_insts h1 !! c = Some x -> running_as (destPop ok h1) c x.
Proof.
  intros Hw Hc He Hx. pose proof (eff_kept O _ _ _ _ He Hw) as K.
  rewrite destPop_unfold. set (h6 := outPop _ _).
  destruct (rtPop_set h6 (h_rt h) (h_rtst h) (h_cur h) (h_ist h)) as (_ & _ & _ & G4 & G5);
    [unfold h6; autorewrite with pops; exact (k_rtst _ _ _ _ _ K)|unfold h6; autorewrite with pops; exact (k_ist _ _ _ _ _ K)|].
  split; [rewrite G4; exact Hc|]. rewrite G5. assert (Hi : h_insts h6 = h_insts h1) by (unfold h6; autorewrite with pops; reflexivity).
  rewrite Hi. case_bool_decide as Hd; [exact Hx|]. destruct (h_cur h6) as [j|] eqn:Hj; [|exact Hx].
  rewrite lookup_delete_ne; [exact Hx|]. intros ->. congruence.
Qed.
Lemma samePop_at O (ok : bool) i h h1 b c x : wf h -> h_cur h = Some c -> eff O true (samePush i h) h1 b ->
  h_insts h1 !! c = Some x -> running_as (samePop ok h1) c x.
Proof.
  intros Hw Hc He Hx. pose proof (eff_kept O _ _ _ _ He Hw) as K.
  pose proof (k_rtst _ _ _ _ _ K) as K2. pose proof (k_ist _ _ _ _ _ K) as K3.
  assert (Hgen : forall h6, h_rtst h6 = h_rt h :: h_rtst h -> h_ist h6 = h_cur h :: h_ist h -> h_insts h6 = h_insts h1 ->
    running_as (rtPop h6) c x).
  { intros h6 H1 H2 Hi. destruct (rtPop_set h6 (h_rt h) (h_rtst h) (h_cur h) (h_ist h) H1 H2) as (_ & _ & _ & G4 & G5).
    split; [rewrite G4; exact Hc|]. rewrite G5, Hi. case_bool_decide as Hd; [exact Hx|].
    destruct (h_cur h6) as [j|] eqn:Hj; [|exact Hx]. rewrite lookup_delete_ne; [exact Hx|]. intros ->. congruence. }
  rewrite samePop_unfold. destruct ok.
  - apply Hgen; autorewrite with pops; [exact K2|exact K3|reflexivity].
  - unfold running_as. rewrite bcPop_h_cur, bcPop_h_insts. apply Hgen; autorewrite with pops; [exact K2|exact K3|reflexivity].
Qed.

Lemma compute_gas e hb h1 o : compute_output e hb = (h1, OOk o) -> o_gasrem o = 0 \/ e = None /\ o_gasrem o = left_of hb.
Proof.
  destruct e; cbn [compute_output]; intros H; [left; exact (CreateErr_gas _ _ _ _ H)|].
  destruct (GetVMOutput_gas _ _ _ H); auto.
Qed.
Lemma compute_keeps e : keeps finst (compute_output e) /\ keeps fruns (compute_output e).
Proof. destruct e; cbn [compute_output]; split; [apply ki_CreateErr|apply kr_CreateErr|apply ki_GetVMOutput|apply kr_GetVMOutput]. Qed.
Lemma left_bound h : counters_ok h -> 0 <= left_of h <= Z.max 0 (budget h).
Proof.
  intros Hc. unfold left_of, spent. destruct (h_cur h) as [c|]; [|lia]. destruct (h_insts h !! c) as [x|] eqn:Hx; [|lia].
  specialize (Hc c x Hx). lia.
Qed.
Lemma callee_bound i h hb b : wf h -> counters_ok h -> gas_input (ci_vm i) -> eff any_opts true (destPush i h) hb b ->
  0 <= left_of hb <= handed (ci_vm i).
Proof.
  intros Hw Hc Hi He. pose proof (left_bound hb (eff_counters any_opts _ _ _ _ He Hc)) as Hl.
  assert (Hin : vi_gas (ci_vm i) <= handed (ci_vm i)) by (destruct Hi as (? & ? & ?); unfold handed; destruct (vi_ctype _); lia).
  pose proof (handed_gas i h Hi) as Hg. destruct Hi as (I1 & I2 & I3).
  destruct (g_exec _ _ _ _ (eff_gas any_opts _ _ _ _ He Hw)) as [Hx|[_ Hx]].
  - change (mt_forexec (h_met (destPush i h))) with (vi_gas (ci_vm (unlocked (dest_input i h)))) in Hx. unfold budget in Hl. lia.
  - change (vi_gas (r_input (h_rt (destPush i h)))) with (vi_gas (ci_vm (dest_input i h))) in Hx. rewrite input_gas in Hx.
    unfold budget in Hl. lia.
Qed.
Lemma callee_bound_same i h hb b : wf h -> counters_ok h -> gas_input (ci_vm i) -> eff any_opts true (samePush i h) hb b ->
  0 <= left_of hb <= handed (ci_vm i).
Proof.
  intros Hw Hc Hi He. pose proof (left_bound hb (eff_counters any_opts _ _ _ _ He Hc)) as Hl.
  assert (Hin : vi_gas (ci_vm i) <= handed (ci_vm i)) by (destruct Hi as (? & ? & ?); unfold handed; destruct (vi_ctype _); lia).
  pose proof (handed_gas i h Hi) as Hg. destruct Hi as (I1 & I2 & I3).
  destruct (g_exec _ _ _ _ (eff_gas any_opts _ _ _ _ He Hw)) as [Hx|[_ Hx]].
  - change (mt_forexec (h_met (samePush i h))) with (vi_gas (ci_vm (unlocked (dest_input i h)))) in Hx. unfold budget in Hl. lia.
  - change (vi_gas (r_input (h_rt (samePush i h)))) with (vi_gas (ci_vm (dest_input i h))) in Hx. rewrite input_gas in Hx.
    unfold budget in Hl. lia.
Qed.

Lemma regas_counters g h h' ro : RestoreGas g h = (h', ro) -> counters_ok h -> counters_ok h'.
Proof.
  intros H Hc. assert (Hw : walk any_opts (false, false) (RestoreGas g)) by apply walk_RestoreGas.
  assert (Hro : ro <> OFuel) by apply (RestoreGas_regas _ _ _ _ H).
  refine (eff_counters any_opts _ _ _ _ (Hw h h' ro _ H Hro) Hc).
  split; [discriminate|]. intros i x _. apply any_mod.
Qed.

Lemma nb_gas n i h h' oo info e : h_stoprot h = true -> wf h -> in_frame h -> counters_ok h ->
  gas_input (ci_vm i) -> spent h + handed (ci_vm i) <= max_i64 ->
  executeOnDestContextNoBuiltinFunction (vmRun n) (vmDest n) i h = (h', OOk (oo, info, e)) ->
  exists o, oo = Some o /\ call_gas h h' (handed (ci_vm i)) (o_gasrem o) (bool_decide (e <> None)).
Proof.
  intros Hs Hw (c & x & Hc & Hx) Hcnt Hi Hmax H.
  assert (Hrun : running_as h c x) by (split; assumption). rewrite (spent_run h c x Hrun) in Hmax.
  destruct (nb_shape n i h h' _ Hs H ltac:(discriminate)) as (hb & bo & h1 & o & Hb & Hbo & Hm & He & He1 & ro & Hro & Hres).
  destruct Hres as [(-> & y & Hy & [= <-])|(Hr & _)]; [|discriminate Hr].
  assert (Hnp : bo <> OPanic) by (intros ->; discriminate Hy).
  assert (oo = Some o /\ (forall e0, body_err bo = Some e0 -> e <> None)) as [-> Hek].
  { destruct bo as [[info' e']|e'| |]; try discriminate Hy; cbn [dest_result] in Hy; injection Hy as Y1 Y2 Y3;
      (split; [congruence|]); cbn [body_err]; intros e0 He0; rewrite <-Y3; [rewrite He0|]; discriminate. }
  pose proof (handed_gas i h Hi) as Hh.
  assert (Hback : 0 <= o_gasrem o <= handed (ci_vm i)).
  { pose proof (callee_bound i h hb _ Hw Hcnt Hi He) as Hl. destruct (compute_gas _ _ _ _ Hm) as [->|[_ ->]]; [|exact Hl].
    destruct Hi as (? & ? & ?). lia. }
  set (ok := bool_decide (o_code o = RcOk)) in *.
  destruct (compute_keeps (body_err bo)) as [Ki Kr].
  assert (Hcnt2 : counters_ok (destPop ok h1)).
  { eapply counters_sub; [apply destPop_insts|]. exact (eff_counters any_opts _ _ _ _ He1 Hcnt). }
  assert (Hcnt' : counters_ok h') by exact (regas_counters _ _ _ _ Hro Hcnt2).
  assert (Hbud : budget h' = budget h).
  { destruct (RestoreGas_regas _ _ _ _ Hro) as [Hg _]. destruct (regas_same _ _ Hg) as (_ & _ & _ & _ & A5 & _).
    destruct (destPop_met any_opts ok i h h1 _ Hw He1) as [B1 _]. unfold budget. rewrite A5, B1. destruct ok; reflexivity. }
  assert (H0 : 0 <= in_points x) by exact (Hcnt c x Hx).
  assert (Hh0 : 0 <= handed (ci_vm i)) by lia.
  exists o. split; [reflexivity|].
  destruct (body_gas n i h hb bo c x Hs Hw Hrun Hb Hbo Hnp) as [([e0 ->] & Hp & Hn)|Hp].
  - (* never started *)
    pose proof (keeps_parked _ c x _ _ _ Ki Hm Hp) as [Hp1 _].
    assert (Hr0 : o_gasrem o = 0) by (destruct (compute_gas _ _ _ _ Hm) as [->|[? _]]; [reflexivity|discriminate]).
    assert (Hr2 : running_as (destPop ok h1) c x) by exact (destPop_at any_opts ok i h h1 _ c x Hw Hc He1 Hp1).
    assert (Hne : e <> None) by (apply (Hek e0); reflexivity).
    destruct (Z.le_gt_cases (in_points x) max_i64) as [Hle|Hgt]; [|lia].
    destruct (RestoreGas_spent (o_gasrem o) (destPop ok h1) h' _ ltac:(exists c, x; exact Hr2)
      ltac:(rewrite (spent_run _ _ _ Hr2); lia) ltac:(rewrite (spent_run _ _ _ Hr2); lia) Hro) as [S1 S2].
    split; [exact S2|]. split; [exact Hbud|]. split; [exact Hcnt'|]. split; [exact Hback|]. right.
    split; [apply bool_decide_eq_true; exact Hne|]. split; [exact Hr0|].
    rewrite S1, (spent_run _ _ _ Hr2), (spent_run _ _ _ Hrun), Hr0. split; [lia|].
    unfold nothing_ran. pose proof (Kr _ _ _ Hm) as Hk1. cbn beta in Hk1.
    assert (Ht : h_trace h' = h_trace h1).
    { destruct (RestoreGas_regas _ _ _ _ Hro) as [Hg _].
      assert (Ht' : h_trace h' = h_trace (destPop ok h1)) by (destruct Hg as [->|(? & ? & ? & _ & ->)]; reflexivity).
      rewrite Ht', destPop_unfold. autorewrite with pops. reflexivity. }
    rewrite Ht, Hk1. exact Hn.
  - pose proof (keeps_parked _ c _ _ _ _ Ki Hm Hp) as [Hp1 _]. rewrite Hh in Hp1.
    assert (Hr2 : running_as (destPop ok h1) c (paid x (handed (ci_vm i)))) by exact (destPop_at any_opts ok i h h1 _ c _ Hw Hc He1 Hp1).
    assert (Hpts : spent (destPop ok h1) = in_points x + handed (ci_vm i)).
    { rewrite (spent_run _ _ _ Hr2). cbn. apply more_points_add; lia. }
    destruct (RestoreGas_spent (o_gasrem o) (destPop ok h1) h' _ ltac:(eexists _, _; exact Hr2)
      ltac:(lia) ltac:(lia) Hro) as [S1 S2].
    split; [exact S2|]. split; [exact Hbud|]. split; [exact Hcnt'|]. split; [exact Hback|]. left.
    rewrite S1, Hpts, (spent_run _ _ _ Hrun). lia.
Qed.

Lemma spent_bc b h : spent (bcPop b h) = spent h /\ budget (bcPop b h) = budget h /\ (in_frame h -> in_frame (bcPop b h)) /\
  (counters_ok h -> counters_ok (bcPop b h)) /\ h_trace (bcPop b h) = h_trace h.
Proof. unfold spent, budget, in_frame, counters_ok. autorewrite with pops. auto 10. Qed.
Lemma dest_gas n i h h' oo info e : host_ok h -> in_frame h -> counters_ok h ->
  e_isBuiltin E (ci_fn i) = false -> gas_input (ci_vm i) -> spent h + handed (ci_vm i) <= max_i64 ->
  vmDest n i h = (h', OOk (oo, info, e)) ->
  exists o, oo = Some o /\ call_gas h h' (handed (ci_vm i)) (o_gasrem o) (bool_decide (e <> None)).
Proof.
  intros [Hs Hw] Hf Hc Hb Hi Hm H. destruct (plain_dest_ok n i h h' oo info e Hb H) as (n' & h2 & Hx & ->).
  destruct (nb_gas n' i (bcPush h) h2 oo info e Hs Hw Hf Hc Hi Hm Hx) as (o & -> & C1 & C2 & C3 & C4 & C5).
  exists o. split; [reflexivity|]. destruct (spent_bc (match e with Some _ => true | None => false end) h2) as (B1 & B2 & B3 & B4 & B5).
  unfold call_gas, nothing_ran in *. rewrite B1, B2, B5. split; [auto|]. split; [exact C2|]. split; [auto|]. split; [exact C4|exact C5].
Qed.

(** * A call on the caller's own context *)
Lemma finishSame_err er h : finishExecuteOnSameContext (Some er) h = (samePop false h, OOk tt).
Proof.
  unfold finishExecuteOnSameContext. rewrite bind_gets. rewrite (bool_decide_eq_true_2 (is_Some (Some er))) by (eexists; reflexivity).
  rewrite orb_true_r. exact (samePop_ok false h).
Qed.
Lemma same_gas n i h h' r : host_ok h -> in_frame h -> counters_ok h ->
  e_isBuiltin E (ci_fn i) = false -> gas_input (ci_vm i) -> spent h + handed (ci_vm i) <= max_i64 ->
  vmSame n i h = (h', r) -> r <> OFuel -> r <> OPanic ->
  exists back, call_gas h h' (handed (ci_vm i)) back (match r with OOk _ => false | _ => true end) /\
    (r <> OOk tt -> back = 0).
Proof.
  intros [Hs Hw] (c & x & Hc & Hx) Hcnt Hbi Hi Hmax H Hr Hrp.
  assert (Hrun : running_as h c x) by (split; assumption). rewrite (spent_run h c x Hrun) in Hmax.
  destruct n as [|n]; [injection H as <- <-; destruct (Hr eq_refl)|].
  change (ExecuteOnSameContext (vmRun n) (vmDest n) i h = (h', r)) in H.
  rewrite (execSame_unfold _ _ i h Hbi) in H. cbv zeta in H.
  pose proof (handed_gas i h Hi) as Hh.
  set (j := unlocked (dest_input i h)) in *.
  assert (H0 : 0 <= in_points x) by exact (Hcnt c x Hx).
  assert (Hh0 : 0 <= handed (ci_vm i)) by (destruct Hi as (? & ? & ?); unfold handed; destruct (vi_ctype _); lia).
  unfold deferring in H. destruct (bind _ _ (samePush i h)) as [h2 o] eqn:Hb.
  assert (Ho : o <> OFuel) by (intros ->; injection H as <- <-; exact (Hr eq_refl)).
  assert (Hop : o <> OPanic).
  { intros ->. destruct (finishExecuteOnSameContext None h2) as [h3 [u|e| |]]; injection H as <- <-; congruence. }
  assert (Hp0 : parked c x (samePush i h)) by (split; [exact Hx|apply Hw, Hc]).
  assert (Hbody : eff any_opts true (samePush i h) h2 (pan o) /\
    (((exists e, o = OErr e) /\ parked c x h2 /\ nothing_ran h h2) \/ parked c (paid x (handed (ci_vm i))) h2)).
  { unfold bind at 1 in Hb. destruct (TransferValueOnly _ _ _ _ (samePush i h)) as [h4 o4] eqn:Ht.
    assert (Ho4 : o4 <> OFuel) by (intros ->; injection Hb as <- <-; exact (Ho eq_refl)).
    assert (He4 : eff any_opts true (samePush i h) h4 (pan o4)).
    { eapply TransferValueOnly_eff; [apply any_codes|exact Ht|exact Ho4|]. right; left; reflexivity. }
    pose proof (keeps_parked _ c x _ _ _ (ki_transfer _ _ _ _) Ht Hp0) as Hp4.
    pose proof (kr_transfer _ _ _ _ _ _ _ Ht) as Hr4. cbn beta in Hr4. assert (Hr4' : nothing_ran h h4) by exact Hr4. clear Hr4.
    destruct o4 as [u|e| |].
    - pose proof (ki_transfer _ _ _ _ _ _ _ Ht) as Hq. injection Hq as Q1 Q2 Q3.
      assert (Hs4 : h_stoprot h4 = true).
      { pose proof (eff_stoprot any_opts _ _ _ _ He4) as Q. first [rewrite Q; exact Hs|rewrite <- Q; exact Hs|apply Q; exact Hs]. }
      assert (Hw4 : wf h4) by (eapply kept_wf; [apply (eff_kept any_opts _ _ _ _ He4 Hw)|exact Hw]).
      assert (Hx4 : running_as h4 c x) by (split; [rewrite Q2; exact Hc|apply Hp4]).
      pose proof (walk_execute any_opts any_codes _ _ (Hrun' n) (Hd' n) j h4 h2 o (any_good h4 Hs4) Hb Ho) as He3. cbn [snd] in He3.
      split; [eapply eff_seq; eassumption|].
      destruct (execute_gas n j h4 h2 o c x Hs4 Hw4 Hx4 Hb Ho) as [[-> Hoe]|[Hp3 _]]; [left; auto|right].
      rewrite Hh in Hp3. exact Hp3.
    - injection Hb as <- <-. split; [exact He4|]. left. split; [eexists; reflexivity|auto].
    - injection Hb as <- <-. destruct (Hop eq_refl).
    - destruct (Ho4 eq_refl). }
  destruct Hbody as [He Hpark].
  assert (Hfail : forall b, b = true -> (exists e, o = OErr e) -> call_gas h (samePop false h2) (handed (ci_vm i)) 0 b).
  { intros b -> _. destruct (samePop_met any_opts false i h h2 _ Hw He) as [M1 _]. cbn [popped] in M1.
    assert (Hcc : counters_ok (samePop false h2)) by (eapply counters_sub; [apply samePop_insts|]; exact (eff_counters any_opts _ _ _ _ He Hcnt)).
    assert (Hbud : budget (samePop false h2) = budget h) by (unfold budget; rewrite M1; reflexivity).
    destruct Hpark as [(_ & [Hp _] & Hn)|[Hp _]]; pose proof (samePop_at any_opts false i h h2 _ c _ Hw Hc He Hp) as Hr2.
    - split; [eexists _, _; exact Hr2|]. split; [exact Hbud|]. split; [exact Hcc|]. split; [lia|]. right.
      split; [reflexivity|]. split; [reflexivity|]. rewrite (spent_run _ _ _ Hr2), (spent_run _ _ _ Hrun). split; [reflexivity|].
      unfold nothing_ran. rewrite samePop_unfold. autorewrite with pops. exact Hn.
    - split; [eexists _, _; exact Hr2|]. split; [exact Hbud|]. split; [exact Hcc|]. split; [lia|]. left.
      rewrite (spent_run _ _ _ Hr2), (spent_run _ _ _ Hrun). cbn. rewrite more_points_add by lia. lia. }
  destruct o as [[]|er| |]; [| |destruct (Hop eq_refl)|destruct (Ho eq_refl)].
  - destruct Hpark as [([e He0] & _)|Hp]; [discriminate He0|].
    destruct (finishSame_run any_opts None h2) as [(h4 & Hf' & ->)|(h4 & y & Hm & Hf')]; rewrite Hf' in H.
    + injection H as <- <-. exists 0. split; [|auto]. destruct (samePop_met any_opts false i h h2 _ Hw He) as [M1 _]. cbn [popped] in M1.
      pose proof (samePop_at any_opts false i h h2 _ c _ Hw Hc He (proj1 Hp)) as Hr2.
      split; [eexists _, _; exact Hr2|]. split; [unfold budget; rewrite M1; reflexivity|].
      split; [eapply counters_sub; [apply samePop_insts|]; exact (eff_counters any_opts _ _ _ _ He Hcnt)|]. split; [lia|]. left.
      rewrite (spent_run _ _ _ Hr2), (spent_run _ _ _ Hrun). cbn. rewrite more_points_add by lia. lia.
    + assert (Hs2 : h_stoprot h2 = true).
      { pose proof (eff_stoprot any_opts _ _ _ _ He) as Q. first [rewrite Q; exact Hs|rewrite <- Q; exact Hs|apply Q; exact Hs]. }
      assert (He4 : eff any_opts true (samePush i h) h4 false).
      { change false with (false || false). eapply E_trans; [exact He|]. exact (walk_GetVMOutput any_opts (true, true) h2 h4 _ (any_good h2 Hs2) Hm ltac:(discriminate)). }
      pose proof (keeps_parked _ c _ _ _ _ ki_GetVMOutput Hm Hp) as Hp4.
      pose proof (samePop_at any_opts true i h h4 _ c _ Hw Hc He4 (proj1 Hp4)) as Hr2.
      assert (Hback : 0 <= o_gasrem y <= handed (ci_vm i)).
      { pose proof (callee_bound_same i h h2 _ Hw Hcnt Hi He) as Hl. destruct (GetVMOutput_gas _ _ _ Hm) as [->| ->]; [lia|exact Hl]. }
      assert (Hpts : spent (samePop true h4) = in_points x + handed (ci_vm i)).
      { rewrite (spent_run _ _ _ Hr2). cbn. apply more_points_add; lia. }
      destruct (RestoreGas_spent (o_gasrem y) (samePop true h4) h' _ ltac:(eexists _, _; exact Hr2) ltac:(lia) ltac:(lia) H) as [S1 S2].
      assert (Hcc : counters_ok (samePop true h4)) by (eapply counters_sub; [apply samePop_insts|]; exact (eff_counters any_opts _ _ _ _ He4 Hcnt)).
      destruct (samePop_met any_opts true i h h4 _ Hw He4) as [M1 _].
      assert (Hro : r = OOk tt).
      { rewrite (RestoreGas_run _ _ _ _ Hr2) in H. destruct (_ <=? _); injection H as <- <-; reflexivity. }
      subst r. exists (o_gasrem y). split; [|congruence]. split; [exact S2|].
      split; [|split; [exact (regas_counters _ _ _ _ H Hcc)|split; [exact Hback|left]]].
      * destruct (RestoreGas_regas _ _ _ _ H) as [Hg _]. destruct (regas_same _ _ Hg) as (_ & _ & _ & _ & A5 & _).
        unfold budget. rewrite A5, M1. reflexivity.
      * rewrite S1, Hpts, (spent_run _ _ _ Hrun). lia.
  - rewrite (bind_ok _ _ _ _ _ (finishSame_err er h2)) in H. injection H as <- <-. exists 0. split; [|auto].
    apply Hfail; [reflexivity|eexists; reflexivity].
Qed.
End gas.
