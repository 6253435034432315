(** Proofs: the gas that an asynchronous call takes along. *)
From Coq Require Import ZifyBool ZifyNat ZifyN.
From Verif Require Import VmModel WpProofs MathProofs GasSpec GasProofs GasAsyncProofs StoProofs CallSpec InvSpec DeploySpec AsyncSpec AsyncProofs TxProofs GasOutProofs ForwardSpec.

Section forward.
Context `{E : env}.

Lemma metered_inst h c x y : metered h -> running_as h c x -> in_points y = in_points x -> metered (with_inst c y h).
Proof.
  intros Hm Hr Hp. pose proof Hm as (Hf & Hc & Hb & Hs). repeat split.
  - exists c, y. eapply running_with_inst; exact Hr.
  - intros c' x'. unfold with_inst. cbn. destruct (decide (c = c')) as [<-|Hn].
    + rewrite lookup_insert. intros [= <-]. rewrite Hp. eapply Hc, (proj2 Hr).
    + rewrite lookup_insert_ne by exact Hn. apply Hc.
  - exact Hb.
  - rewrite (spent_run _ c y) by (eapply running_with_inst; exact Hr). rewrite Hp, <- (spent_run h c x Hr). exact Hs.
Qed.

Lemma async_kept (HE : env_ok E) a d v h h' : metered h -> in_u64 (h_codesize h) -> ExecuteAsyncCall a d v h = (h', OOk tt) ->
  metered h' /\ h_out h' = h_out h /\ h_world h' = h_world h /\ r_addr (h_rt h') = r_addr (h_rt h).
Proof.
  intros Hm Hcs H. pose proof Hm as (Hf & Hm'). pose proof Hf as (c & x & Hx).
  assert (Hr : running_as h c x) by exact Hx.
  unfold ExecuteAsyncCall, UseGasForAsyncStep in H.
  apply ok_bind in H as (h1 & [] & H1 & H).
  destruct (bounded_run _ h h1 c x (proj1 (proj1 HE _)) Hm Hr H1) as [L1 ->].
  set (s := e_cost E CAsyncCallStep) in *. pose proof (proj1 (proj1 HE CAsyncCallStep)) as Hs0.
  set (h1 := with_inst c (set_in_points (in_points x + s) x) h) in *.
  set (x1 := set_in_points (in_points x + s) x) in *.
  assert (R1 : running_as h1 c x1) by (eapply running_with_inst; exact Hr).
  assert (M1 : metered h1) by (apply inst_metered; [assumption|assumption|fold s in Hs0; lia]).
  apply ok_bind in H as (h2 & hasCb & H2 & H). unfold HasCallbackMethod in H2.
  apply ok_bind in H2 as (h2' & [i2 x2] & H2 & H2').
  rewrite (cur_inst_run h1 c x1 R1) in H2. injection H2 as <- <- <-. injection H2' as <- <-.
  apply ok_bind in H as (h3 & lock & H3 & H).
  assert (HL : exists x3, running_as h3 c x3 /\ metered h3 /\ h_out h3 = h_out h /\ h_world h3 = h_world h /\ h_rt h3 = h_rt h).
  { match type of H3 with (if ?b then _ else _) _ = _ => destruct b end.
    - rewrite bind_gets in H3. apply ok_bind in H3 as (h4 & [] & H3 & H4). injection H4 as <- <-.
      assert (Hl0 : 0 <= ComputeGasLockedForAsync h1).
      { change (ComputeGasLockedForAsync h1) with (ComputeGasLockedForAsync h). rewrite (lock_computed HE h Hcs).
        unfold callback_lock. pose proof (proj1 HE) as HH. pose proof (proj1 (HH CAsyncCallStep)). pose proof (proj1 (HH CAsyncCallbackGasLock)).
        pose proof (proj1 (HH (if e_aot E then AoTPreparePerByte else CompilePerByte))). unfold in_u64, max_u64 in *.
        destruct (e_dyn E); [|lia]. nia. }
      destruct (bounded_run _ h1 h4 c x1 Hl0 M1 R1 H3) as [L2 ->].
      eexists. split; [eapply running_with_inst; exact R1|]. split; [apply inst_metered; [assumption|assumption|lia]|].
      repeat split.
    - injection H3 as <- <-. exists x1. repeat (split; [assumption || reflexivity|]). reflexivity. }
  destruct HL as (x3 & R3 & M3 & O3 & W3 & T3).
  unfold GasLeft in H. rewrite bind_gets, bind_modify in H.
  revert H. match goal with |- SetRuntimeBreakpointValue _ ?q = _ -> _ => set (h4 := q) end.
  assert (R4 : running_as h4 c x3) by exact R3. rewrite (SetBreak_run _ h4 c x3 R4). intros [= <-].
  split; [apply metered_inst with x3; [exact M3|exact R4|reflexivity]|].
  repeat split; [exact O3|exact W3|]. cbn. rewrite T3. reflexivity.
Qed.

Lemma async_forward (HE : env_ok E) (rd : edf) a d v f args h h1 h2 : metered h -> in_u64 (h_codesize h) ->
  call_data d f args -> e_isBuiltin E f = false -> code_now h a = [] ->
  ExecuteAsyncCall a d v h = (h1, OOk tt) -> handleAsyncCallBreakpoint rd h1 = (h2, OOk tt) ->
  exists limit lock,
    limit + lock + e_cost E CAsyncCallStep = left_of h /\ 0 < limit /\ left_of h2 = 0 /\
    forall b, oa_transfers (account_of h2 b) = oa_transfers (account_of h b) ++
      (if bool_decide (b = a) then [mkTransfer (be_decode v) limit lock d AsynchronousCall (r_addr (h_rt h))] else []).
Proof.
  intros Hm Hcs Hd Hb Hn H1 H2.
  destruct (async_gas HE a d v h h1 Hm Hcs H1) as (lock & _ & _ & G1 & G2 & G3).
  destruct (async_kept HE a d v h h1 Hm Hcs H1) as (M1 & O1 & W1 & A1).
  assert (C1 : code_now h1 a = []) by (unfold code_now; rewrite O1, W1; exact Hn).
  destruct (handle_sent rd h1 _ G3 f args M1 Hd Hb C1 h2 (OOk tt) H2 ltac:(discriminate)) as (L & [(_ & _ & Oc)|(e & He & _)]); [|discriminate He].
  exists (left_of h1), lock. split; [lia|]. split; [lia|]. split; [exact L|].
  intros b. rewrite (oc_sent _ _ _ _ Oc b). rewrite A1. f_equal. unfold account_of. rewrite O1. reflexivity.
Qed.
End forward.

(** * What a whole transaction attaches *)
Lemma attached_insert (m : gmap bytes out_account) a x : m !! a = None ->
  map_fold (fun _ x g => transfers_gas x + g) 0 (<[a := x]> m) = transfers_gas x + map_fold (fun _ x g => transfers_gas x + g) 0 m.
Proof. intros Hn. apply (map_fold_insert_L (fun _ x g => transfers_gas x + g)); [|exact Hn]. intros. lia. Qed.
Lemma attached_le m : typed_accounts m -> map_fold (fun _ x g => transfers_gas x + g) 0 m <= accounts_gas m.
Proof.
  induction m as [|a x m Hn IH] using map_ind; intros Ht; [reflexivity|].
  rewrite attached_insert, accounts_gas_insert by exact Hn. unfold account_gas.
  destruct (Ht a x (lookup_insert _ _ _)) as [H1 _].
  assert (IH' : map_fold (fun _ x g => transfers_gas x + g) 0 m <= accounts_gas m).
  { apply IH. intros b y Hb. apply (Ht b y). destruct (decide (a = b)) as [<-|Hab]; [congruence|]. rewrite lookup_insert_ne by exact Hab. exact Hb. }
  lia.
Qed.
Lemma call_attached `{E : env} n i h h' o : h_stoprot h = true -> no_stacks h -> e_v2 E = true -> gas_input (ci_vm i) -> handed (ci_vm i) < max_u64 ->
  RunSmartContractCall n i h = (h', OOk o) ->
  error_output o \/ (gas_typed o -> attached o + o_gasrem o <= handed (ci_vm i)).
Proof.
  intros H1 H2 H3 H4 H5 H. destruct (call_sum n i h h' o H1 H2 H3 H4 H5 H) as [He|Hs]; [left; exact He|right].
  intros Ht. specialize (Hs Ht). pose proof (attached_le _ (proj2 Ht)). unfold attached. lia.
Qed.
Lemma create_attached `{E : env} n i h h' o : h_stoprot h = true -> no_stacks h -> e_v2 E = true -> gas_input (cc_vm i) -> handed (cc_vm i) < max_u64 ->
  RunSmartContractCreate n i h = (h', OOk o) ->
  error_output o \/ (gas_typed o -> attached o + o_gasrem o <= handed (cc_vm i)).
Proof.
  intros H1 H2 H3 H4 H5 H. destruct (create_sum n i h h' o H1 H2 H3 H4 H5 H) as [He|Hs]; [left; exact He|right].
  intros Ht. specialize (Hs Ht). pose proof (attached_le _ (proj2 Ht)). unfold attached. lia.
Qed.
