(** Proofs about the upgrades contracts ask for. *)
From Verif Require Import VmModel MathProofs WpProofs StoProofs CallSpec CallProofs GasSpec GasProofs GasAsyncProofs AskProofs UpgradeSpec.
From Coq Require Import ZifyBool ZifyNat ZifyN.

Section upgrade.
Context {E : env}.
Lemma bounded_case g h c x : 0 <= g -> metered h -> running_as h c x ->
  UseGasBounded g h = if left_of h <=? g then (h, OErr ErrNotEnoughGas) else (with_inst c (set_in_points (in_points x + g) x) h, OOk tt).
Proof.
  intros Hg Hm Hx. destruct (UseGasBounded g h) as [h' r] eqn:H. pose proof H as H0.
  unfold UseGasBounded, GasLeft in H. rewrite bind_gets, left_gas in H. unfold fail_if in H.
  destruct (left_of h <=? g) eqn:Hl.
  - injection H as <- <-. reflexivity.
  - rewrite bind_ret, (UseGas_run g h c x Hx) in H. injection H as <- <-.
    destruct (bounded_run g h _ c x Hg Hm Hx H0) as [_ Hh]. rewrite Hh. reflexivity.
Qed.
Lemma only_refl h c x : running_as h c x -> only_gas h h.
Proof.
  intros [H1 H2]. exists c, x, (in_points x). split; [exact H1|]. split; [exact H2|].
  destruct h, x; cbn in *. rewrite insert_id by exact H2. reflexivity.
Qed.
Lemma only_points h c x p : running_as h c x -> only_gas h (with_inst c (set_in_points p x) h).
Proof. intros [H1 H2]. exists c, x, p. split; [exact H1|]. split; [exact H2|]. reflexivity. Qed.
Lemma only_trans h1 h2 h3 : only_gas h1 h2 -> only_gas h2 h3 -> only_gas h1 h3.
Proof.
  intros (i & x & g & H1 & H2 & ->) (j & y & k & H3 & H4 & ->). cbn in H3, H4. rewrite H1 in H3. injection H3 as <-.
  rewrite lookup_insert in H4. injection H4 as <-. exists i, x, k. split; [exact H1|]. split; [exact H2|].
  destruct h1; cbn. unfold set_h_insts; cbn. rewrite insert_insert. reflexivity.
Qed.
Lemma lock_pos (HE : env_ok E) n : in_u64 n -> 0 <= callback_lock n.
Proof.
  intros Hn. unfold callback_lock. pose proof (proj1 HE) as HH. pose proof (proj1 (HH CAsyncCallStep)). pose proof (proj1 (HH CAsyncCallbackGasLock)).
  pose proof (proj1 (HH (if e_aot E then AoTPreparePerByte else CompilePerByte))). unfold in_u64, max_u64 in *.
  destruct (e_dyn E); [|lia]. nia.
Qed.
(** an asynchronous call is accepted exactly if there is gas for it *)
Lemma async_case (HE : env_ok E) a d v h : metered h -> in_u64 (h_codesize h) ->
  exists lock h', put_aside h lock /\
  if left_of h <=? e_cost E CAsyncCallStep + lock
  then ExecuteAsyncCall a d v h = (h', OErr ErrNotEnoughGas) /\ only_gas h h'
  else ExecuteAsyncCall a d v h = (h', OOk tt) /\ stopped_for_call h' /\ left_of h' = left_of h - e_cost E CAsyncCallStep - lock /\
       r_async (h_rt h') = Some (mkAsync a d (left_of h') lock v).
Proof.
  intros Hm Hcs. pose proof (proj1 Hm) as (c & x & Hx). assert (Hr : running_as h c x) by exact Hx.
  set (lock := if bool_decide (is_Some (export (in_mod x) CallbackFunctionName)) || negb (e_dyn E) then callback_lock (h_codesize h) else 0).
  assert (Hp : put_aside h lock).
  { unfold put_aside, lock. destruct (bool_decide _) eqn:Hb; cbn [orb].
    - apply bool_decide_eq_true in Hb. apply (callback_known h c x Hr) in Hb. split; [reflexivity|tauto].
    - apply bool_decide_eq_false in Hb. rewrite (callback_known h c x Hr) in Hb. destruct (e_dyn E); cbn; (split; [intros [Hy|Hy]; (tauto || congruence)|]); [reflexivity|]. intros Hn. destruct Hn. right. reflexivity. }
  assert (Hl0 : 0 <= lock) by (unfold lock; destruct (_ || _); [apply lock_pos; assumption|lia]).
  pose proof (proj1 (proj1 HE CAsyncCallStep)) as Hs0.
  destruct (ExecuteAsyncCall a d v h) as [h' r] eqn:H. pose proof H as H0. exists lock, h'. split; [exact Hp|].
  unfold ExecuteAsyncCall, UseGasForAsyncStep in H. unfold bind at 1 in H. rewrite (bounded_case _ h c x Hs0 Hm Hr) in H.
  destruct (left_of h <=? e_cost E CAsyncCallStep) eqn:L1.
  { injection H as <- <-. replace (left_of h <=? _ + lock) with true by lia. split; [reflexivity|]. eapply only_refl, Hr. }
  set (s := e_cost E CAsyncCallStep) in *. set (x1 := set_in_points (in_points x + s) x) in *. set (h1 := with_inst c x1 h) in *.
  assert (R1 : running_as h1 c x1) by (eapply running_with_inst; exact Hr).
  assert (M1 : metered h1) by (apply inst_metered; [assumption|assumption|lia]).
  assert (S1 : left_of h1 = left_of h - s).
  { pose proof (spent_run h c x Hr) as Hq. unfold left_of in *. change (budget h1) with (budget h). unfold h1, x1. rewrite (inst_spent h c x) by exact Hr. lia. }
  assert (Hcb : HasCallbackMethod h1 = (h1, OOk (bool_decide (is_Some (export (in_mod x) CallbackFunctionName))))).
  { unfold HasCallbackMethod, bind. rewrite (cur_inst_run h1 c x1 R1). reflexivity. }
  rewrite (bind_ok _ _ _ _ _ Hcb) in H.
  assert (Hok : forall g' , r = OOk tt -> ExecuteAsyncCall a d v h = (h', OOk tt) -> stopped_for_call h' -> g' = lock ->
    ExecuteAsyncCall a d v h = (h', OOk tt) /\ stopped_for_call h' /\ left_of h' = left_of h - s - lock /\ r_async (h_rt h') = Some (mkAsync a d (left_of h') lock v) /\ s + lock < left_of h).
  { intros g' _ Hx0 Hst _. destruct (async_gas HE a d v h h' Hm Hcs Hx0) as (lock' & A1 & A2 & A3 & A4 & A5).
    assert (lock' = lock) as ->.
    { destruct Hp as [P1 P2]. destruct (bool_decide (is_Some (export (in_mod x) CallbackFunctionName)) || negb (e_dyn E)) eqn:Hb.
      - assert (Hy : has_callback h \/ e_dyn E = false).
        { apply orb_prop in Hb as [Hb|Hb]; [left; apply (callback_known h c x Hr); apply bool_decide_eq_true in Hb; exact Hb|right; destruct (e_dyn E); [discriminate Hb|reflexivity]]. }
        rewrite A1, P1 by exact Hy. reflexivity.
      - assert (Hn : ~ (has_callback h \/ e_dyn E = false)).
        { apply orb_false_iff in Hb as [Hb1 Hb2]. apply bool_decide_eq_false in Hb1. rewrite (callback_known h c x Hr) in Hb1. intros [Hy|Hy]; [exact (Hb1 Hy)|rewrite Hy in Hb2; discriminate Hb2]. }
        rewrite A2, P2 by exact Hn. reflexivity. }
    split; [exact Hx0|]. split; [exact Hst|]. split; [exact A4|]. split; [exact A5|exact A3]. }
  assert (Hend : forall h3 x3 l, running_as h3 c x3 ->
     bind GasLeft (fun left => bind (modify (fun h => set_h_rt (set_r_async (Some (mkAsync a d left l v)) (h_rt h)) h)) (fun _ => SetRuntimeBreakpointValue BreakpointAsyncCall)) h3 = (h', r) ->
     r = OOk tt /\ stopped_for_call h').
  { intros h3 x3 l R3 H3. unfold GasLeft in H3. rewrite bind_gets, bind_modify in H3.
    revert H3. match goal with |- SetRuntimeBreakpointValue _ ?q = _ -> _ => set (h4 := q) end.
    assert (R4 : running_as h4 c x3) by exact R3. rewrite (SetBreak_run _ h4 c x3 R4). intros [= <- <-]. split; [reflexivity|].
    assert (R5 : running_as (with_inst c (set_in_bp BreakpointAsyncCall x3) h4) c (set_in_bp BreakpointAsyncCall x3)) by (eapply running_with_inst; exact R4).
    exists c, (set_in_bp BreakpointAsyncCall x3). split; [apply R5|]. split; [apply R5|reflexivity]. }
  destruct (bool_decide (is_Some (export (in_mod x) CallbackFunctionName)) || negb (e_dyn E)) eqn:Hb.
  - unfold bind at 1 in H. rewrite bind_gets in H. change (ComputeGasLockedForAsync h1) with (ComputeGasLockedForAsync h) in H.
    rewrite (lock_computed HE h Hcs) in H. change (callback_lock (h_codesize h)) with lock in H.
    unfold bind at 1 in H. rewrite (bounded_case lock h1 c x1 Hl0 M1 R1) in H. rewrite S1 in H.
    destruct (left_of h - s <=? lock) eqn:L2.
    + injection H as <- <-. replace (left_of h <=? s + lock) with true by lia. split; [reflexivity|]. apply only_points, Hr.
    + replace (left_of h <=? s + lock) with false by lia. cbn [ret] in H.
      destruct (Hend _ (set_in_points (in_points x1 + lock) x1) lock (running_with_inst _ _ _ _ R1) H) as [-> Hst].
      destruct (Hok lock eq_refl H0 Hst eq_refl) as (B1 & B2 & B3 & B4 & _). auto.
  - change (fst (h1, OOk 0)) with h1 in H. unfold bind at 1, ret at 1 in H. replace (left_of h <=? s + lock) with false by (unfold lock; lia).
    destruct (Hend h1 x1 0 R1 H) as [-> Hst].
    destruct (Hok 0 eq_refl H0 Hst eq_refl) as (B1 & B2 & B3 & B4 & _). auto.
Qed.
Lemma upgrade_told fuel ao g vo co mo l n lo d dest data v h m : env_ok E -> cur_mem h = ROk m -> blen (m_data m) <= max_i32 ->
  asks h (m_data m) (A_upgradeContract ao g vo co mo l n lo d) (RAsync dest data v) ->
  exists h1 h', only_gas h h1 /\
  (metered h1 -> in_u64 (h_codesize h1) ->
   vmApi fuel (A_upgradeContract ao g vo co mo l n lo d) h = (h', OOk 0) /\
   exists lock, put_aside h1 lock /\
   if left_of h1 <=? e_cost E CAsyncCallStep + lock
   then only_gas h h'
   else stopped_for_call h' /\ r_async (h_rt h') = Some (mkAsync dest data (left_of h1 - e_cost E CAsyncCallStep - lock) lock v)).
Proof.
  intros HE Hmem Hlen Ha. destruct (c66 fuel _ _ h m HE Hmem Hlen Ha) as (h1 & O1 & Hc).
  exists h1, (fst (ExecuteAsyncCall dest data v h1)). split; [exact O1|]. intros Hm Hcs.
  destruct (async_case HE dest data v h1 Hm Hcs) as (lock & h' & Hp & Hx).
  unfold concluded, carry_out in Hc. unfold bind in Hc.
  destruct (left_of h1 <=? e_cost E CAsyncCallStep + lock) eqn:L.
  - destruct Hx as [Hx O2]. rewrite Hx in *. cbn [refusal fst snd] in Hc |- *. split; [exact Hc|]. exists lock. split; [exact Hp|]. rewrite L. eapply only_trans; eassumption.
  - destruct Hx as (Hx & B1 & B2 & B3). rewrite Hx in *. cbn [fst ret] in Hc |- *. split; [exact Hc|]. exists lock. split; [exact Hp|]. rewrite L. split; [exact B1|]. rewrite <- B2. exact B3.
Qed.
End upgrade.
