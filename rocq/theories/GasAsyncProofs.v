(** Gas of asynchronous calls, and what happens to refunds. *)
From Coq Require Import ZifyBool ZifyNat ZifyN.
From Verif Require Import VmModel MathProofs WpProofs StoProofs EffProofs EffFrameProofs EffWalkProofs EffTopProofs CallSpec KeepProofs CallProofs OutProofs GasSpec GasProofs GasApiProofs GasOutProofs.

Section async.
Context `{E : env}.

Lemma ok_bind {A B} (m : M A) (k : A -> M B) h h' b : bind m k h = (h', OOk b) ->
  exists h1 a, m h = (h1, OOk a) /\ k a h1 = (h', OOk b).
Proof. unfold bind. destruct (m h) as [h1 [a|e| |]]; intros H; try discriminate H. eauto. Qed.

Lemma dest_refund n i h h' o info : host_ok h -> e_isBuiltin E (ci_fn i) = false ->
  vmDest n i h = (h', OOk (Some o, info, None)) -> o_refund (h_out h') = Some (default 0 (o_refund o)).
Proof.
  intros [Hs Hw] Hb H. destruct (plain_dest_ok n i h h' (Some o) info None Hb H) as (n' & h2 & Hx & ->).
  destruct (nb_success n' i (bcPush h) h2 (Some o) info Hs Hw Hx) as (o1 & h1 & [= <-] & Hc & Ho1 & He & Hout).
  destruct (bcPop_outmet false h2) as [-> _]. rewrite Hout. reflexivity.
Qed.

Lemma lock_computed (HE : env_ok E) h : in_u64 (h_codesize h) -> ComputeGasLockedForAsync h = callback_lock (h_codesize h).
Proof.
  intros Hc. pose proof (proj1 HE) as H.
  unfold ComputeGasLockedForAsync, callback_lock. cbv zeta.
  pose proof (H CAsyncCallStep) as H1. pose proof (H CAsyncCallbackGasLock) as H2.
  set (k := if e_aot E then e_cost E AoTPreparePerByte else e_cost E CompilePerByte).
  assert (Hk : in_u64 k) by (unfold k; destruct (e_aot E); apply H).
  replace (e_cost E (if e_aot E then AoTPreparePerByte else CompilePerByte)) with k by (unfold k; destruct (e_aot E); reflexivity).
  rewrite (add_u64_sat (e_cost E CAsyncCallStep)) by assumption. rewrite (Z.min_comm (_ + _) max_u64).
  destruct (e_dyn E).
  - rewrite mul_u64_sat by assumption. rewrite (Z.min_comm (_ * _) max_u64). unfold in_u64 in *. rewrite add_sat1 by nia. reflexivity.
  - unfold in_u64 in *. change 0 with (Z.min max_u64 0) at 1. rewrite add_sat1 by lia. reflexivity.
Qed.

Lemma bounded_run g h h' c x : 0 <= g -> metered h -> running_as h c x -> UseGasBounded g h = (h', OOk tt) ->
  g < left_of h /\ h' = with_inst c (set_in_points (in_points x + g) x) h.
Proof.
  intros Hg (Hf & Hc & Hb & Hs) Hx H. unfold UseGasBounded, GasLeft in H. rewrite bind_gets, left_gas in H.
  unfold fail_if in H. destruct (left_of h <=? g) eqn:Hl; [discriminate H|]. rewrite bind_ret in H.
  rewrite (UseGas_run g h c x Hx) in H. injection H as <-. pose proof (spent_run h c x Hx) as Hp. rewrite Hp in Hs.
  assert (0 <= in_points x) by (destruct Hx; eauto). split; [lia|].
  rewrite more_points_add; [reflexivity|assumption|assumption|]. unfold left_of in Hl. lia.
Qed.

Lemma inst_spent h c x p : running_as h c x -> spent (with_inst c (set_in_points p x) h) = p.
Proof. intros Hx. apply (spent_run _ c (set_in_points p x)). eapply running_with_inst. exact Hx. Qed.
Lemma inst_budget h c x : budget (with_inst c x h) = budget h.
Proof. reflexivity. Qed.
Lemma inst_metered h c x g : metered h -> running_as h c x -> 0 <= g < left_of h ->
  metered (with_inst c (set_in_points (in_points x + g) x) h).
Proof.
  intros (Hf & Hc & Hb & Hs) Hx Hg. pose proof (spent_run h c x Hx) as Hp. rewrite Hp in Hs.
  assert (0 <= in_points x) by (destruct Hx; eauto).
  split; [eexists c, _; eapply running_with_inst; exact Hx|]. split.
  - intros c1 x1. unfold with_inst. cbn. destruct (decide (c1 = c)) as [->|Hn].
    + rewrite lookup_insert. intros [= <-]. cbn. lia.
    + rewrite lookup_insert_ne by congruence. apply Hc.
  - rewrite inst_budget, (inst_spent h c x) by exact Hx. split; [exact Hb|]. unfold left_of in Hg. lia.
Qed.

Lemma callback_known h c x : running_as h c x -> is_Some (export (in_mod x) CallbackFunctionName) <-> has_callback h.
Proof.
  intros [H1 H2]. unfold export. split.
  - intros [p Hp]. apply fmap_Some in Hp as ([f q] & Hq & ->). apply find_some in Hq as [Hi Hb].
    unfold beq in Hb. apply bool_decide_eq_true in Hb. cbn in Hb. subst f. exists c, x, q. auto.
  - intros (c' & x' & p & Hc & Hx & Hi). rewrite H1 in Hc. injection Hc as <-. rewrite H2 in Hx. injection Hx as <-.
    destruct (find _ _) as [q|] eqn:Hq; [eexists; reflexivity|].
    pose proof (find_none _ _ Hq _ Hi) as Hn. cbn in Hn. unfold beq in Hn. apply bool_decide_eq_false in Hn. congruence.
Qed.

Lemma async_gas (HE : env_ok E) a d v h h' : metered h -> in_u64 (h_codesize h) ->
  ExecuteAsyncCall a d v h = (h', OOk tt) ->
  let cb := has_callback h \/ e_dyn E = false in
  exists lock,
    (cb -> lock = callback_lock (h_codesize h)) /\ (~ cb -> lock = 0) /\
    e_cost E CAsyncCallStep + lock < left_of h /\
    left_of h' = left_of h - e_cost E CAsyncCallStep - lock /\
    r_async (h_rt h') = Some (mkAsync a d (left_of h') lock v).
Proof.
  intros Hm Hcs H. destruct Hm as (Hf & Hm'). pose proof Hf as (c & x & Hx).
  assert (Hm : metered h) by (split; assumption). assert (Hr : running_as h c x) by exact Hx.
  cbv zeta. unfold ExecuteAsyncCall, UseGasForAsyncStep in H.
  apply ok_bind in H as (h1 & [] & H1 & H).
  destruct (bounded_run _ h h1 c x (proj1 (proj1 HE _)) Hm Hr H1) as [L1 ->].
  set (s := e_cost E CAsyncCallStep) in *. pose proof (proj1 (proj1 HE CAsyncCallStep)) as Hs0.
  set (h1 := with_inst c (set_in_points (in_points x + s) x) h) in *.
  set (x1 := set_in_points (in_points x + s) x) in *.
  assert (R1 : running_as h1 c x1) by (eapply running_with_inst; exact Hr).
  assert (M1 : metered h1) by (apply inst_metered; [assumption|assumption|fold s in Hs0; lia]).
  pose proof (spent_run h c x Hr) as Hp.
  assert (S1 : left_of h1 = left_of h - s).
  { unfold left_of in *. change (budget h1) with (budget h). unfold h1, x1. rewrite (inst_spent h c x) by exact Hr. fold s in Hs0. lia. }
  apply ok_bind in H as (h2 & hasCb & H2 & H). unfold HasCallbackMethod in H2.
  apply ok_bind in H2 as (h2' & [i2 x2] & H2 & H2').
  rewrite (cur_inst_run h1 c x1 R1) in H2. injection H2 as <- <- <-.
  injection H2' as <- <-.
  assert (Hcb : bool_decide (is_Some (export (in_mod x1) CallbackFunctionName)) = bool_decide (is_Some (export (in_mod x) CallbackFunctionName))) by reflexivity.
  rewrite ?Hcb in H. clear Hcb.
  apply ok_bind in H as (h3 & lock & H3 & H).
  assert (HL : (has_callback h \/ e_dyn E = false -> lock = callback_lock (h_codesize h)) /\
    (~ (has_callback h \/ e_dyn E = false) -> lock = 0) /\ 0 <= lock < left_of h1 /\
    h3 = with_inst c (set_in_points (in_points x1 + lock) x1) h1).
  { destruct (bool_decide _ || negb (e_dyn E)) eqn:Hb.
    - assert (Hyes : has_callback h \/ e_dyn E = false).
      { apply orb_prop in Hb as [Hb|Hb]; [left; apply (callback_known h c x Hr); apply bool_decide_eq_true in Hb; exact Hb|right; destruct (e_dyn E); [discriminate Hb|reflexivity]]. }
      rewrite bind_gets in H3. change (ComputeGasLockedForAsync h1) with (ComputeGasLockedForAsync h) in H3.
      rewrite (lock_computed HE h Hcs) in H3. apply ok_bind in H3 as (h4 & [] & H3 & H4). injection H4 as <- <-.
      assert (Hl0 : 0 <= callback_lock (h_codesize h)).
      { unfold callback_lock. pose proof (proj1 HE) as HH. pose proof (proj1 (HH CAsyncCallStep)). pose proof (proj1 (HH CAsyncCallbackGasLock)).
        pose proof (proj1 (HH (if e_aot E then AoTPreparePerByte else CompilePerByte))). unfold in_u64, max_u64 in *.
        destruct (e_dyn E); [|lia]. nia. }
      destruct (bounded_run _ h1 h4 c x1 Hl0 M1 R1 H3) as [L2 ->].
      split; [reflexivity|]. split; [intros Hn; destruct (Hn Hyes)|]. split; [lia|reflexivity].
    - injection H3 as <- <-. apply orb_false_iff in Hb as [Hb1 Hb2]. apply bool_decide_eq_false in Hb1.
      rewrite (callback_known h c x Hr) in Hb1.
      split; [intros [Hy|Hy]; [destruct (Hb1 Hy)|rewrite Hy in Hb2; discriminate Hb2]|]. split; [reflexivity|].
      split; [split; [lia|]; rewrite S1; lia|]. rewrite Z.add_0_r. unfold with_inst. destruct x1; cbn in *. rewrite insert_id by exact (proj2 R1).
      unfold h1. reflexivity. }
  destruct HL as (A1 & A2 & A3 & ->). exists lock. split; [exact A1|]. split; [exact A2|]. split; [rewrite S1 in A3; lia|].
  unfold GasLeft in H. rewrite bind_gets, bind_modify, left_gas in H.
  set (h3 := with_inst c (set_in_points (in_points x1 + lock) x1) h1) in *.
  assert (S3 : left_of h3 = left_of h - s - lock).
  { unfold left_of in *. change (budget h3) with (budget h). unfold h3. rewrite (inst_spent h1 c x1) by exact R1.
    change (budget h1) with (budget h) in *. change (in_points x1) with (in_points x + s). rewrite Hp in *.
    unfold h1, x1 in A3, S1. rewrite (inst_spent h c x) in A3, S1 by exact Hr. lia. }
  assert (S4 : left_of h' = left_of h3 /\ r_async (h_rt h') = Some (mkAsync a d (left_of h3) lock v)).
  { assert (R3 : running_as h3 c (set_in_points (in_points x1 + lock) x1)) by (eapply running_with_inst; exact R1).
    revert H. set (x3 := set_in_points (in_points x1 + lock) x1) in *.
    match goal with |- SetRuntimeBreakpointValue _ ?q = _ -> _ => set (h4 := q) end.
    assert (R4 : running_as h4 c x3) by exact R3. rewrite (SetBreak_run _ h4 c x3 R4). intros [= <-].
    split; [|reflexivity]. unfold left_of. change (budget (with_inst c (set_in_bp BreakpointAsyncCall x3) h4)) with (budget h3).
    rewrite (spent_run h3 c x3 R3). rewrite (spent_run _ c (set_in_bp BreakpointAsyncCall x3)); [reflexivity|eapply running_with_inst; exact R4]. }
  destruct S4 as [S4 S5]. split; [rewrite S4, S3; lia|]. rewrite S4. exact S5.
Qed.

(** ** The input of a callback that runs in the same shard *)
Lemma callback_input (HE : env_ok E) c o a f e h h' i : 0 <= o_gasrem o -> 0 <= ac_locked c -> o_gasrem o + ac_locked c < 2 ^ 64 ->
  createCallbackContractCallInput c o a f e h = (h', OOk i) ->
  exists price, e_cost E CAsyncCallStep <= price /\ h' = h /\ vi_ctype (ci_vm i) = AsynchronousCallBack /\ ci_rcpt i = r_addr (h_rt h) /\
    vi_locked (ci_vm i) = 0 /\ vi_gas (ci_vm i) + price = o_gasrem o + ac_locked c /\ 0 < vi_gas (ci_vm i).
Proof.
  intros H1 H2 H3 H. unfold createCallbackContractCallInput in H. rewrite bind_gets in H. cbv zeta in H.
  assert (Hu : u64 (o_gasrem o + ac_locked c) = o_gasrem o + ac_locked c) by (unfold u64, u64_mod; apply Z.mod_small; lia).
  rewrite Hu in H. clear Hu.
  match type of H with context [fail_if (_ <=? AddUint64 ?x ?y)] => set (p := AddUint64 x y) in *;
    assert (Hp : e_cost E CAsyncCallStep <= p) end.
  { assert (Hb : in_u64 (MulUint64 (e_cost E DataCopyPerByte) (u64 (computeDataLengthFromArguments f
      (if bool_decide (e = None) && bool_decide (o_code o = RcOk) then be_encode (rc_num (o_code o)) :: o_retdata o else [be_encode (rc_num (o_code o)); o_msg o]))))).
    { apply mul_u64_range; [apply (proj1 HE)|apply u64_range]. }
    pose proof (proj1 HE CAsyncCallStep) as Ha. unfold p. rewrite add_u64_sat by assumption. unfold in_u64 in *. lia. }
  clearbody p. unfold fail_if in H. destruct (_ <=? p) eqn:Hl in H; [discriminate H|]. rewrite bind_ret in H.
  injection H as <- <-. exists p. cbn [ci_vm ci_rcpt vi_gas vi_locked vi_ctype]. repeat split; try assumption; lia.
Qed.
End async.
