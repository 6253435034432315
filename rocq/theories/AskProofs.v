(** Proofs for C66. *)
From Verif Require Import VmModel WpProofs CodecSpec CodecProofs MemSpec MemProofs ApiArgsSpec ApiArgsProofs MathProofs QuerySpec
  QueryProofs CallDataModel AskSpec.
From Verif Require StoProofs.
From Coq Require Import ZifyBool ZifyNat ZifyN.

Lemma bound_granted h g : BoundGasLimit h (i64 g) = granted h g.
Proof. unfold BoundGasLimit, granted. cbv zeta. destruct (Z.ltb_spec (gas_left h) (u64 (i64 g))); lia. Qed.

Section asking.
Context `{E : env} (ed : edf) (es : call_input -> M unit) (h : host) (i : nat) (x : inst) (H : running_as h i x)
  (m : memory) (Hm : blen (m_data m) <= max_i32) (b : gmap Z Z) (o : vm_output).
Let S0 (g : Z) : host := St h i x g m b o.

Lemma a_args n lo d args : arguments_at (m_data m) (i32 n) (i32 lo) (i32 d) args ->
  getArgumentsFromMemory m (i32 n) (i32 lo) (i32 d) =
  ROk (args, total_len (arg_lens (m_data m) (i32 lo) (Z.to_nat (i32 n)))).
Proof.
  intros (H4 & Hv & ->).
  destruct (getargs_spec m (i32 n) (i32 lo) (i32 d) Hm (i32_range _) (i32_range _) (i32_range _)) as [G _]; [lia|].
  exact (G Hv).
Qed.

Lemma a_load g off len r k d : bytes_at (m_data m) off len d -> in_i32 off -> in_i32 len ->
  run_cmd ed es (load off len r k) (S0 g) = run_cmd ed es (k d) (S0 g).
Proof. intros H1 H2 H3. apply s_load; assumption. Qed.

Lemma a_use g q k : exists g', run_cmd ed es (use q k) (S0 g) = run_cmd ed es k (S0 g').
Proof. eexists. apply s_use. exact H. Qed.

Lemma a_getargs g n lo d args k : arguments_at (m_data m) (i32 n) (i32 lo) (i32 d) args ->
  exists l, run_cmd ed es (get_args (i32 n) (i32 lo) (i32 d) k) (S0 g) = run_cmd ed es (k (ROk (args, l))) (S0 g).
Proof.
  intros Ha. eexists. unfold get_args. rewrite run_get.
  rewrite (cur_mem_run (S0 g) _ _ (St_running h i x H g m b o)). cbn [mbind res_bind].
  change (in_mem (set_in_mem m (set_in_points g x))) with m. rewrite (a_args _ _ _ _ Ha). reflexivity.
Qed.

(** reading the description of a call *)
Lemma a_extract g (hv : bool) ao vo v fo fl n lo d r k dest f args :
  call_at (m_data m) ao fo fl n lo d dest f args ->
  (if hv then number_at (m_data m) vo v else v = 0) ->
  exists g' l, run_cmd ed es (extract hv (i32 ao) (if hv then i32 vo else 0) (i32 fo) (i32 fl) (i32 n) (i32 lo) (i32 d) r k) (S0 g)
    = run_cmd ed es (k (mkCallArgs dest (if hv then Some v else None) f args l)) (S0 g').
Proof.
  intros (H1 & H2 & H3) Hv. unfold extract. rewrite run_get.
  rewrite (cur_mem_run (S0 g) _ _ (St_running h i x H g m b o)). cbn [mbind res_bind].
  change (in_mem (set_in_mem m (set_in_points g x))) with m.
  unfold extractIndirectContractCallArguments.
  rewrite (load_at m (i32 ao) 32 dest H1 (i32_range _) ltac:(unfold in_i32, min_i32, max_i32; lia) Hm).
  cbn [mbind res_bind].
  rewrite (load_at m (i32 fo) (i32 fl) f H2 (i32_range _) (i32_range _) Hm).
  rewrite (a_args _ _ _ _ H3).
  destruct hv.
  - destruct Hv as (vb & Hvb & ->).
    rewrite (load_at m (i32 vo) 32 vb Hvb (i32_range _) ltac:(unfold in_i32, min_i32, max_i32; lia) Hm).
    cbn [mbind res_bind res_or_fault]. rewrite be_decode_value.
    unfold charge_bytes. edestruct a_use as [g' Hg']. rewrite Hg'. exists g'. eexists. reflexivity.
  - cbn [mbind res_bind res_or_fault]. unfold charge_bytes. edestruct a_use as [g' Hg']. rewrite Hg'. exists g'. eexists. reflexivity.
Qed.

(** the requests *)
Lemma a_fault e r h2 : (exists i z, h_cur h2 = Some i /\ h_insts h2 !! i = Some z) ->
  exists h3 j z p, h_cur h2 = Some j /\ h_insts h2 !! j = Some z /\
    h3 = set_h_insts (<[j := set_in_bp BreakpointExecutionFailed (set_in_points p z)]> (h_insts h2))
               (set_h_out (set_o_msg (e_errmsg E e) (set_o_code RcExecutionFailed (h_out h2))) h2) /\
    run_cmd ed es (fault e r) h2 = (h3, OOk r).
Proof.
  intros (j & z & Hj & Hz). eexists _, j, z, _. split; [exact Hj|]. split; [exact Hz|].
  split; [|apply (run_fault _ _ _ _ _ j z); split; assumption]. reflexivity.
Qed.

Definition loud (c : api_call) : Prop := match c with A_asyncCall _ _ _ _ | A_createContract _ _ _ _ _ _ _ _ _ => False | _ => True end.

(** a request that stops the execution when it fails *)
Lemma a_or_fault {B} c rq (p : prim B) r g :
  loud c -> refusal c rq = (r, true) ->
  (forall g, match interp ed es p (S0 g) with
             | (h2, OOk _) => exists a, carry_out ed es rq (S0 g) = (h2, OOk a)
             | (h2, OErr e) => carry_out ed es rq (S0 g) = (h2, OErr e)
             | (h2, OPanic) => carry_out ed es rq (S0 g) = (h2, OPanic)
             | (h2, OFuel) => carry_out ed es rq (S0 g) = (h2, OFuel)
             end) ->
  concluded c rq (carry_out ed es rq (S0 g)) (run_cmd ed es (or_fault p r (fun _ => CRet 0)) (S0 g)).
Proof.
  intros Hl Hr Hp. unfold or_fault. rewrite run_do. specialize (Hp g).
  destruct (interp ed es p (S0 g)) as [h2 [a|e| |]].
  - destruct Hp as [a' ->]. cbn [concluded]. destruct c; try contradiction Hl; reflexivity.
  - rewrite Hp. cbn [concluded]. rewrite Hr. cbn [fst snd]. intros Hrun.
    destruct (a_fault e r h2 Hrun) as (h3 & j & z & q & Hj & Hz & Hh3 & Hrun3). exists h3. split; [|exact Hrun3].
    assert (Hst : halted e h2 h3) by (exists j, z, q; split; [exact Hj|]; split; [exact Hz|exact Hh3]).
    destruct c; try contradiction Hl; exact Hst.
  - rewrite Hp. reflexivity.
  - rewrite Hp. reflexivity.
Qed.

(** ... and one that does not *)
Lemma a_silent {B} c rq (p : prim B) r k g :
  loud c -> refusal c rq = (r, false) ->
  (forall a, k (inl a) = CRet 0) -> (forall e, k (inr e) = CRet r) ->
  (forall g, match interp ed es p (S0 g) with
             | (h2, OOk _) => exists a, carry_out ed es rq (S0 g) = (h2, OOk a)
             | (h2, OErr e) => carry_out ed es rq (S0 g) = (h2, OErr e)
             | (h2, OPanic) => carry_out ed es rq (S0 g) = (h2, OPanic)
             | (h2, OFuel) => carry_out ed es rq (S0 g) = (h2, OFuel)
             end) ->
  concluded c rq (carry_out ed es rq (S0 g)) (run_cmd ed es (CDo p k) (S0 g)).
Proof.
  intros Hl Hr Hk1 Hk2 Hp. rewrite run_do. specialize (Hp g).
  destruct (interp ed es p (S0 g)) as [h2 [a|e| |]].
  - destruct Hp as [a' ->]. rewrite Hk1. cbn [concluded]. destruct c; try contradiction Hl; reflexivity.
  - rewrite Hp, Hk2. cbn [concluded]. rewrite Hr. reflexivity.
  - rewrite Hp. reflexivity.
  - rewrite Hp. reflexivity.
Qed.

Lemma p_nothing (X : M unit) h0 :
  match X h0 with
  | (h2, OOk _) => exists a, (X ;;; ret ([] : bytes)) h0 = (h2, OOk a)
  | (h2, OErr e) => (X ;;; ret ([] : bytes)) h0 = (h2, OErr e)
  | (h2, OPanic) => (X ;;; ret ([] : bytes)) h0 = (h2, OPanic)
  | (h2, OFuel) => (X ;;; ret ([] : bytes)) h0 = (h2, OFuel)
  end.
Proof. unfold bind, ret. destruct (X h0) as [h2 [a|e| |]]; eauto. Qed.

Lemma p_dest (byC : bool) v gl dest f args g :
  let caller := if byC then vi_caller (r_input (h_rt h)) else r_addr (h_rt h) in
  let rq := RDest caller dest f args v gl in
  match interp ed es (QExecDest byC v (i64 gl) dest f args) (S0 g) with
  | (h2, OOk _) => exists a, carry_out ed es rq (S0 g) = (h2, OOk a)
  | (h2, OErr e) => carry_out ed es rq (S0 g) = (h2, OErr e)
  | (h2, OPanic) => carry_out ed es rq (S0 g) = (h2, OPanic)
  | (h2, OFuel) => carry_out ed es rq (S0 g) = (h2, OFuel)
  end.
Proof.
  intros caller rq. cbn [interp]. rewrite bind_gets. unfold indirect_input. rewrite bound_granted.
  unfold rq, carry_out. cbv zeta.
  replace (if byC then vi_caller (vm_in (S0 g)) else sc_address (S0 g)) with caller by (destruct byC; reflexivity).
  apply p_nothing.
Qed.

Lemma p_same v gl dest f args g :
  let rq := RSame dest f args v gl in
  match interp ed es (QExecSame v (i64 gl) dest f args) (S0 g) with
  | (h2, OOk _) => exists a, carry_out ed es rq (S0 g) = (h2, OOk a)
  | (h2, OErr e) => carry_out ed es rq (S0 g) = (h2, OErr e)
  | (h2, OPanic) => carry_out ed es rq (S0 g) = (h2, OPanic)
  | (h2, OFuel) => carry_out ed es rq (S0 g) = (h2, OFuel)
  end.
Proof.
  intros rq. cbn [interp]. rewrite bind_gets. unfold indirect_input. rewrite bound_granted.
  unfold rq, carry_out. cbv zeta. apply p_nothing.
Qed.

Lemma p_readonly gl dest f args g :
  let rq := RReadOnly dest f args (vi_value (r_input (h_rt h))) gl in
  match interp ed es (QExecReadOnly (i64 gl) dest f args) (S0 g) with
  | (h2, OOk _) => exists a, carry_out ed es rq (S0 g) = (h2, OOk a)
  | (h2, OErr e) => carry_out ed es rq (S0 g) = (h2, OErr e)
  | (h2, OPanic) => carry_out ed es rq (S0 g) = (h2, OPanic)
  | (h2, OFuel) => carry_out ed es rq (S0 g) = (h2, OFuel)
  end.
Proof.
  intros rq. cbn [interp]. rewrite bind_gets. unfold indirect_input. rewrite bound_granted.
  unfold rq, carry_out. cbv zeta. change (sc_address (S0 g)) with (r_addr (h_rt (S0 g))).
  change (vi_value (vm_in (S0 g))) with (vi_value (r_input (h_rt h))).
  set (ci := mkCall _ _ _ _).
  unfold SetReadOnly. rewrite !bind_modify. set (h1 := set_h_trace _ _).
  unfold bind, try. destruct (es ci h1) as [h2 [a|e| |]]; cbn; eauto.
Qed.

Lemma p_transfer dest gl v d g :
  let rq := RTransfer dest d v gl in
  match interp ed es (QTransfer dest gl v d) (S0 g) with
  | (h2, OOk _) => exists a, carry_out ed es rq (S0 g) = (h2, OOk a)
  | (h2, OErr e) => carry_out ed es rq (S0 g) = (h2, OErr e)
  | (h2, OPanic) => carry_out ed es rq (S0 g) = (h2, OPanic)
  | (h2, OFuel) => carry_out ed es rq (S0 g) = (h2, OFuel)
  end.
Proof. intros rq. cbn [interp]. rewrite bind_gets. unfold rq, carry_out. cbv zeta. apply p_nothing. Qed.

End asking.

Section whole.
Context `{E : env} (ed : edf) (es : call_input -> M unit) (h : host) (i : nat) (x : inst) (H : running_as h i x)
  (Hm : blen (m_data (in_mem x)) <= max_i32).
Let S0 (g : Z) : host := St h i x g (in_mem x) (h_big h) (h_out h).

Definition led (c : api_call) (rq : request) (y : host * outc Z) : Prop :=
  exists g, concluded c rq (carry_out ed es rq (S0 g)) y.

Lemma w_extract c rq g (hv : bool) ao vo v fo fl n lo d r k dest f args :
  call_at (m_data (in_mem x)) ao fo fl n lo d dest f args ->
  (if hv then number_at (m_data (in_mem x)) vo v else v = 0) ->
  (forall g l, led c rq (run_cmd ed es (k (mkCallArgs dest (if hv then Some v else None) f args l)) (S0 g))) ->
  led c rq (run_cmd ed es (extract hv (i32 ao) (if hv then i32 vo else 0) (i32 fo) (i32 fl) (i32 n) (i32 lo) (i32 d) r k) (S0 g)).
Proof.
  intros Hc Hv Hk. destruct (a_extract ed es h i x H (in_mem x) Hm (h_big h) (h_out h) g hv ao vo v fo fl n lo d r k dest f args Hc Hv)
    as (g' & l & Heq). unfold S0. rewrite Heq. apply Hk.
Qed.
Lemma w_use c rq g q k : (forall g, led c rq (run_cmd ed es k (S0 g))) -> led c rq (run_cmd ed es (use q k) (S0 g)).
Proof.
  intros Hk. destruct (a_use ed es h i x H (in_mem x) (h_big h) (h_out h) g q k) as [g' Heq]. unfold S0. rewrite Heq. apply Hk.
Qed.
Lemma w_get {B} c rq g (f : host -> B) k : led c rq (run_cmd ed es (k (f (S0 g))) (S0 g)) ->
  led c rq (run_cmd ed es (ApiModel.get f k) (S0 g)).
Proof. rewrite run_get. exact (fun p => p). Qed.
Lemma w_load c rq g off len r k d : bytes_at (m_data (in_mem x)) off len d -> in_i32 off -> in_i32 len ->
  led c rq (run_cmd ed es (k d) (S0 g)) -> led c rq (run_cmd ed es (load off len r k) (S0 g)).
Proof.
  intros H1 H2 H3 Hk. pose proof (a_load ed es h i x H (in_mem x) Hm (h_big h) (h_out h) g off len r k d H1 H2 H3) as Heq.
  unfold S0. rewrite Heq. exact Hk.
Qed.
Lemma w_args c rq g n lo d args k : arguments_at (m_data (in_mem x)) (i32 n) (i32 lo) (i32 d) args ->
  (forall l, led c rq (run_cmd ed es (k (ROk (args, l))) (S0 g))) ->
  led c rq (run_cmd ed es (get_args (i32 n) (i32 lo) (i32 d) k) (S0 g)).
Proof.
  intros Ha Hk. destruct (a_getargs ed es h i x H (in_mem x) Hm (h_big h) (h_out h) g n lo d args k Ha) as [l Heq].
  unfold S0. rewrite Heq. apply Hk.
Qed.
Lemma w_shard c rq g dest r k : here h dest -> led c rq (run_cmd ed es k (S0 g)) ->
  led c rq (run_cmd ed es (if_same_shard dest r k) (S0 g)).
Proof.
  intros Hh Hk. unfold if_same_shard. apply w_get. change (sc_address (S0 g)) with (me h).
  unfold AreInSameShard. rewrite (proj2 (Z.eqb_eq _ _) Hh). exact Hk.
Qed.

Ltac sz := first [apply i32_range|unfold in_i32, min_i32, max_i32, AddressLen, BalanceLen, CodeMetadataLen; lia].
Ltac call hv :=
  match goal with
  | |- led _ _ (run_cmd _ _ (extract true _ _ _ _ _ _ _ _ _) _) =>
      eapply (w_extract _ _ _ true); [eassumption|eassumption|intros ? ?; cbn [ca_dest ca_function ca_args ca_actualLen ca_value]]
  | |- led _ _ (run_cmd _ _ (extract false _ _ _ _ _ _ _ _ _) _) =>
      eapply (w_extract _ _ _ false _ 0 0); [eassumption|reflexivity|intros ? ?; cbn [ca_dest ca_function ca_args ca_actualLen ca_value]]
  end.
Ltac fin := eexists; apply a_or_fault; [exact I|reflexivity|intros ?].

Lemma asked c rq g : env_ok E -> asks h (m_data (in_mem x)) c rq -> led c rq (run_cmd ed es (api c) (S0 g)).
Proof.
  intros Henv Ha. destruct c; try contradiction Ha; cbn [asks] in Ha; cbn [api].
  - (* transferValue *)
    destruct Ha as (dest & data & v & H1 & (vb & H2 & ->) & H3 & Hb & ->). unfold transferValue, charge, charge_bytes.
    apply w_use; intros ?. eapply w_load; [exact H1|sz|sz|]. eapply w_load; [exact H2|sz|sz|].
    apply w_use; intros ?. eapply w_load; [exact H3|sz|sz|].
    rewrite Hb, be_decode_value. fin. apply p_transfer.
  - (* transferValueExecute *)
    destruct Ha as (dest & f & args & v & Hc & Hv & Hb & Hw). unfold transferValueExecute, charge.
    apply w_use; intros ?. call true. apply w_use; intros ?. rewrite Hb. apply w_get.
    match goal with |- context [sc_address (S0 ?g)] => change (sc_address (S0 g)) with (me h) end.
    unfold ca_val. cbn [ca_value default]. cbn [from_option id].
    destruct Hw as [(Hh & Hs & ->)|(Hn & ->)].
    + unfold AreInSameShard. rewrite (proj2 (Z.eqb_eq _ _) Hh), Hs. cbn [andb].
      eexists. apply (a_silent ed es h i x (in_mem x) (h_big h) (h_out h) _ _ _ 1); [exact I|reflexivity|reflexivity|reflexivity|intros ?].
      apply (p_dest ed es h i x (in_mem x) (h_big h) (h_out h) false).
    + assert (Hf : AreInSameShard (me h) dest && e_isSC E dest = false).
      { apply Bool.not_true_iff_false. intros Ht. apply andb_true_iff in Ht as [Ht1 Ht2]. apply Hn.
        split; [apply Z.eqb_eq; exact Ht1|exact Ht2]. }
      rewrite Hf. fin. apply p_transfer.
  - (* createAsyncCall *)
    destruct Ha as (id & dest & v & data & su & er & H1 & H2 & H3 & H4 & H5 & H6 & ->). unfold createAsyncCall.
    eapply w_load; [exact H1|sz|sz|]. eapply w_load; [exact H2|sz|sz|]. eapply w_load; [exact H3|sz|sz|].
    eapply w_load; [exact H4|sz|sz|]. eapply w_load; [exact H5|sz|sz|]. eapply w_load; [exact H6|sz|sz|].
    eexists. unfold act. rewrite run_do. cbn [interp]. unfold AddAsyncContextCall, carry_out. cbv zeta.
    unfold AddAsyncContextCall. rewrite bind_modify. reflexivity.
  - (* setAsyncContextCallback *)
    destruct Ha as (id & name & H1 & H2 & [ctx Hctx] & ->). unfold setAsyncContextCallback.
    eapply w_load; [exact H1|sz|sz|]. apply w_get. change (ai_map (r_actx (h_rt (S0 g))) !! id) with (ai_map (r_actx (h_rt h)) !! id).
    rewrite Hctx. eapply w_load; [exact H2|sz|sz|]. fin. cbn [interp]. unfold carry_out. cbv zeta. apply p_nothing.
  - (* upgradeContract *)
    destruct Ha as (dest & v & code & meta & args & H1 & H2 & H3 & H4 & H5 & Hg & ->).
    unfold upgradeContract, charge, charge_bytes.
    apply w_use; intros ?. eapply w_load; [exact H2|sz|sz|]. eapply w_load; [exact H3|sz|sz|]. eapply w_load; [exact H4|sz|sz|].
    eapply w_args; [exact H5|intros l]. apply w_use; intros ?. cbn [res_or_fault fst]. eapply w_load; [exact H1|sz|sz|].
    apply w_use; intros ?. unfold upgrade_helper.
    assert (Hlt : u64 (i64 gasLimit) <? AddUint64 (MulUint64 2 (e_cost E CAsyncCallStep)) (e_cost E CAsyncCallbackGasLock) = false).
    { apply Z.ltb_ge. pose proof (u64_range (i64 gasLimit)) as Hr. destruct Henv as (Hc & _).
      pose proof (Hc CAsyncCallStep). pose proof (Hc CAsyncCallbackGasLock).
      rewrite mul_u64_sat by (assumption || (unfold in_u64, max_u64; lia)).
      rewrite add_u64_sat by (unfold in_u64, max_u64 in *; lia). unfold in_u64, max_u64 in *. lia. }
    rewrite Hlt. eexists.
    apply (a_silent ed es h i x (in_mem x) (h_big h) (h_out h) _ _ _ 0); [exact I|reflexivity|reflexivity|reflexivity|intros ?].
    cbn [interp]. unfold carry_out. cbv zeta. apply p_nothing.
  - (* asyncCall *)
    destruct Ha as (dest & v & data & H1 & H2 & H3 & ->). unfold asyncCall, charge, charge_bytes.
    apply w_use; intros ?. eapply w_load; [exact H1|sz|sz|]. eapply w_load; [exact H2|sz|sz|].
    apply w_use; intros g1. eapply w_load; [exact H3|sz|sz|]. exists g1. rewrite run_do. cbn [interp].
    unfold carry_out. cbv zeta. pose proof (p_nothing (ExecuteAsyncCall dest data v) (S0 g1)) as Hp.
    destruct (ExecuteAsyncCall dest data v (S0 g1)) as [h2 [a|e| |]].
    + destruct Hp as [a' ->]. reflexivity.
    + rewrite Hp. cbn [concluded refusal fst snd]. intros (j & z & Hj & Hz).
      destruct (err_is e ErrNotEnoughGas) eqn:He.
      * eexists. split; [cbn [stopped]; rewrite He; exists j, z; split; [exact Hj|]; split; [exact Hz|reflexivity]|].
        unfold act. rewrite run_do. cbn [interp]. rewrite (SetBreak_run _ h2 j z (conj Hj Hz)). reflexivity.
      * destruct (a_fault ed es e 0 h2 (ex_intro _ j (ex_intro _ z (conj Hj Hz)))) as (h3 & j' & z' & q & Hj' & Hz' & Hh3 & Hr3).
        exists h3. split; [|exact Hr3]. cbn [stopped]. rewrite He. exists j', z', q. split; [exact Hj'|]. split; [exact Hz'|exact Hh3].
    + rewrite Hp. reflexivity.
    + rewrite Hp. reflexivity.
  - (* executeOnSameContext *)
    destruct Ha as (dest & f & args & v & Hc & Hv & Hh & Hb & ->). unfold executeOnSameContext, charge.
    call true. apply w_use; intros ?. apply w_shard; [exact Hh|]. rewrite Hb. fin. apply p_same.
  - (* executeOnDestContext *)
    destruct Ha as (dest & f & args & v & Hc & Hv & Hh & ->). unfold executeOnDestContext, charge.
    call true. apply w_use; intros ?. apply w_shard; [exact Hh|]. fin.
    apply (p_dest ed es h i x (in_mem x) (h_big h) (h_out h) false).
  - (* executeOnDestContextByCaller *)
    destruct Ha as (dest & f & args & v & Hc & Hv & Hh & Hb & ->). unfold executeOnDestContextByCaller, charge.
    call true. apply w_use; intros ?. apply w_shard; [exact Hh|]. rewrite Hb. fin.
    apply (p_dest ed es h i x (in_mem x) (h_big h) (h_out h) true).
  - (* delegateExecution *)
    destruct Ha as (dest & f & args & Hc & Hh & Hb & ->). unfold delegateExecution, charge.
    call false. apply w_use; intros ?. apply w_get. apply w_shard; [exact Hh|]. rewrite Hb. fin. apply p_same.
  - (* executeReadOnly *)
    destruct Ha as (dest & f & args & Hc & Hh & Hb & ->). unfold executeReadOnly, charge.
    call false. apply w_use; intros ?. apply w_shard; [exact Hh|]. rewrite Hb. fin. apply p_readonly.
  - (* createContract *)
    destruct Ha as (v & code & meta & args & (vb & H1 & ->) & H2 & H3 & H4 & ->). unfold createContract, charge, charge_bytes.
    apply w_use; intros ?. eapply w_load; [exact H1|sz|sz|]. eapply w_load; [exact H2|sz|sz|]. eapply w_load; [exact H3|sz|sz|].
    eapply w_args; [exact H4|intros l]. apply w_use; intros g1. cbn [res_or_fault fst]. exists g1.
    rewrite run_do. cbn [interp]. rewrite bind_gets, be_decode_value. rewrite bound_granted.
    unfold carry_out. cbv zeta. change (sc_address (S0 g1)) with (r_addr (h_rt (S0 g1))).
    set (ci := mkCreate _ _ _). fold (S0 g1). destruct (CreateNewContract ed ci (S0 g1)) as [h2 [a|e| |]]; cbn [concluded]; try reflexivity.
    intros j z m' Hj Hz Hst. unfold store.
    erewrite StoProofs.run_or_fault_ok; [|cbn [interp]; apply (StoProofs.mem_store_run _ j _ _ _ m' tt (conj Hj Hz)); exact Hst].
    reflexivity.
Qed.
End whole.

Lemma c66 `{E : env} fuel c rq h m : env_ok E -> cur_mem h = ROk m -> blen (m_data m) <= max_i32 ->
  asks h (m_data m) c rq ->
  exists h1, only_gas h h1 /\ concluded c rq (carry_out (vmDest fuel) (vmSame fuel) rq h1) (vmApi fuel c h).
Proof.
  intros Henv Hcm Hm Ha. unfold cur_mem in Hcm.
  destruct (h_cur h) as [i|] eqn:Hi; [|discriminate]. destruct (h_insts h !! i) as [x|] eqn:Hx; [|discriminate].
  injection Hcm as <-. assert (H : running_as h i x) by (split; assumption).
  destruct (asked (vmDest fuel) (vmSame fuel) h i x H Hm c rq (in_points x) Henv Ha) as [g Hg].
  rewrite <-(St_start h i x H) in Hg.
  exists (St h i x g (in_mem x) (h_big h) (h_out h)). split; [|exact Hg].
  exists i, x, g. split; [exact Hi|]. split; [exact Hx|]. unfold St, with_inst. destruct h, x. reflexivity.
Qed.

(** * Tokens *)
Section tokens.
Context `{E : env} (ed : edf) (es : call_input -> M unit) (h : host) (i : nat) (x : inst) (H : running_as h i x)
  (Hm : blen (m_data (in_mem x)) <= max_i32).
Let S0 (g : Z) : host := St h i x g (in_mem x) (h_big h) (h_out h).

Lemma esdt_execute_is t h0 :
  esdt_execute ed (tr_dest t) (tr_token t) (tr_nonce t) (tr_amount t) (i64 (tr_limit t)) (tr_function t) (tr_args t) h0 =
  match TransferESDT (tr_dest t) (r_addr (h_rt h0)) (tr_token t) (u64 (tr_nonce t)) (tr_amount t)
          (Some (token_call h0 t (granted h0 (tr_limit t)))) h0 with
  | (h2, OOk gas) =>
      if AreInSameShard (r_addr (h_rt h0)) (tr_dest t) && e_isSC E (tr_dest t) then
        match ed (token_call h0 t gas) h2 with
        | (h3, OOk (_, None)) => (h3, OOk 0)
        | (h3, OOk (_, Some e)) => (set_h_world (h_world h0) h3, OOk 1)
        | (h3, OErr e) => (set_h_world (h_world h0) h3, OOk 1)
        | (h3, OPanic) => (h3, OPanic)
        | (h3, OFuel) => (h3, OFuel)
        end
      else (h2, OOk 0)
  | (h2, OErr e) => (WithFault e ;;; ret 1) h2
  | (h2, OPanic) => (h2, OPanic)
  | (h2, OFuel) => (h2, OFuel)
  end.
Proof.
  unfold esdt_execute. rewrite bind_gets. unfold indirect_input. rewrite bound_granted. cbv zeta.
  unfold bind at 1. unfold try at 1. unfold sc_address, token_call.
  unfold set_ci_vm, set_vi_esdt. cbn [ci_vm ci_rcpt ci_fn ci_init vi_caller vi_args vi_value vi_ctype vi_gasprice vi_gas vi_locked vi_esdt vi_origtx vi_curtx vi_aftererr].
  destruct (TransferESDT _ _ _ _ _ _ _) as [h2 [gas|e| |]]; try reflexivity.
  destruct (AreInSameShard _ _ && _); [|reflexivity].
  unfold set_vi_gas. cbn [ci_vm ci_rcpt ci_fn ci_init vi_caller vi_args vi_value vi_ctype vi_gasprice vi_gas vi_locked vi_esdt vi_origtx vi_curtx vi_aftererr].
  unfold exec_dest, bind, try. destruct (ed _ h2) as [h3 [[o [e|]]|e| |]]; reflexivity.
Qed.

Lemma esdt_step g t :
  tokens_end ed h (S0 g) t (run_cmd ed es (act (QESDTExecute (tr_dest t) (tr_token t) (tr_nonce t) (tr_amount t) (i64 (tr_limit t)) (tr_function t) (tr_args t)) (fun r => CRet r)) (S0 g)).
Proof.
  unfold act. rewrite run_do. cbn [interp]. rewrite esdt_execute_is.
  unfold tokens_end. change (r_addr (h_rt (S0 g))) with (r_addr (h_rt h)). cbv zeta.
  destruct (TransferESDT _ _ _ _ _ _ _) as [h2 [gas|e| |]]; try reflexivity.
  - unfold AreInSameShard. split.
    + intros Hn. assert (Hf : (e_shard E (r_addr (h_rt h)) =? e_shard E (tr_dest t)) && e_isSC E (tr_dest t) = false).
      { apply Bool.not_true_iff_false. intros Ht. apply andb_true_iff in Ht as [Ht1 Ht2]. apply Hn.
        split; [apply Z.eqb_eq; exact Ht1|exact Ht2]. }
      rewrite Hf. reflexivity.
    + intros [Hs Hsc]. rewrite (proj2 (Z.eqb_eq _ _) Hs), Hsc. cbn [andb].
      destruct (ed _ h2) as [h3 [[o [e|]]|e| |]]; reflexivity.
  - intros (j & z & Hj & Hz). eexists. split.
    + exists j, z. eexists. split; [exact Hj|]. split; [exact Hz|]. reflexivity.
    + unfold bind. rewrite (WithFault_run e h2 j z (conj Hj Hz)). reflexivity.
Qed.

Lemma asked_tokens c t g : asks_tokens (m_data (in_mem x)) c t ->
  exists g1, tokens_end ed h (S0 g1) t (run_cmd ed es (api c) (S0 g)).
Proof.
  assert (Hall : forall ao to tl vo nonce gl fo fl n lo d dest token f args v,
    call_at (m_data (in_mem x)) ao fo fl n lo d dest f args -> number_at (m_data (in_mem x)) vo v ->
    bytes_at (m_data (in_mem x)) (i32 to) (i32 tl) token ->
    exists g1, tokens_end ed h (S0 g1) (mkTokens dest token nonce v gl f args)
      (run_cmd ed es (transferESDTNFTExecute (i32 ao) (i32 to) (i32 tl) (i32 vo) nonce (i64 gl) (i32 fo) (i32 fl) (i32 n) (i32 lo) (i32 d)) (S0 g))).
  { intros ao to tl vo nonce gl fo fl n lo d dest token f args v Hc Hv Ht. unfold transferESDTNFTExecute.
    pose proof (a_load ed es h i x H (in_mem x) Hm (h_big h) (h_out h) g (i32 to) (i32 tl) 1) as Hl.
    unfold S0 at 2. rewrite (Hl _ token Ht (i32_range _) (i32_range _)). clear Hl.
    edestruct (a_extract ed es h i x H (in_mem x) Hm (h_big h) (h_out h) g true ao vo v fo fl n lo d 1) as (g1 & l & Heq); [exact Hc|exact Hv|].
    rewrite Heq. clear Heq. cbn [ca_dest ca_function ca_args ca_actualLen]. unfold ca_val. cbn [ca_value from_option id].
    unfold charge, charge_bytes.
    edestruct (a_use ed es h i x H (in_mem x) (h_big h) (h_out h) g1) as [g2 Heq]. rewrite Heq. clear Heq.
    edestruct (a_use ed es h i x H (in_mem x) (h_big h) (h_out h) g2) as [g3 Heq]. rewrite Heq. clear Heq.
    exists g3. exact (esdt_step g3 (mkTokens dest token nonce v gl f args)). }
  destruct c; intros Ha; try contradiction Ha; cbn [asks_tokens] in Ha; cbn [api].
  - destruct Ha as (dest & token & f & args & v & Hc & Hv & Ht & ->). exact (Hall _ _ _ _ 0 _ _ _ _ _ _ dest token f args v Hc Hv Ht).
  - destruct Ha as (dest & token & f & args & v & Hc & Hv & Ht & ->). exact (Hall _ _ _ _ (i64 nonce) _ _ _ _ _ _ dest token f args v Hc Hv Ht).
Qed.
End tokens.

Lemma c66_tokens `{E : env} fuel c t h m : cur_mem h = ROk m -> blen (m_data m) <= max_i32 ->
  asks_tokens (m_data m) c t ->
  exists h1, only_gas h h1 /\ tokens_end (vmDest fuel) h h1 t (vmApi fuel c h).
Proof.
  intros Hcm Hm Ha. unfold cur_mem in Hcm.
  destruct (h_cur h) as [i|] eqn:Hi; [|discriminate]. destruct (h_insts h !! i) as [x|] eqn:Hx; [|discriminate].
  injection Hcm as <-. assert (H : running_as h i x) by (split; assumption).
  destruct (asked_tokens (vmDest fuel) (vmSame fuel) h i x H Hm c t (in_points x) Ha) as [g Hg].
  rewrite <-(St_start h i x H) in Hg.
  exists (St h i x g (in_mem x) (h_big h) (h_out h)). split; [|exact Hg].
  exists i, x, g. split; [exact Hi|]. split; [exact Hx|]. unfold St, with_inst. destruct h, x. reflexivity.
Qed.
