(** What goes wrong with a warm instance. *)
From Verif Require Import Base WarmModel WarmSpec WarmProofs ExWarm.
From stdpp Require Import list.
From Coq Require Import ZifyBool ZifyNat ZifyN Lia.
Local Open Scope Z_scope.

Section leak.
  Context `{E : warm_env}.
  Context (Hwarm : we_warm = true) (Hmax : 0 < we_max).

  Lemma max0 : we_max <=? Z.of_nat (length (@nil (option nat))) = false.
  Proof. cbn. lia. Qed.

  Lemma start_fresh : forall addr code gas newCode r,
    we_compiles code = true -> (newCode = true -> we_valid code = true) ->
    ri_stack r = [] -> ri_warm_addr r <> Some addr ->
    StartWasmerInstance addr code gas newCode None r =
    (true, mkRInst (ri_heap r ++ [new_inst code gas]) (Some (length (ri_heap r))) [] (Some addr) (Some (length (ri_heap r)))).
  Proof.
    intros addr code gas newCode r Hc Hv Hst Ha. unfold StartWasmerInstance.
    rewrite Hst, max0. unfold setWarmInstanceWhenNeeded. rewrite Hwarm.
    rewrite bool_decide_eq_false_2 by exact Ha. cbn [andb].
    assert (makeInstanceFromCompiledCode None gas newCode r = None) as -> by (destruct newCode; reflexivity).
    unfold makeInstanceFromContractByteCode. rewrite Hc.
    assert (newCode && negb (we_valid code) = false) as ->.
    { destruct newCode; [rewrite Hv by reflexivity|]; reflexivity. }
    rewrite Hwarm. cbn. rewrite Hst. reflexivity.
  Qed.

  Lemma clean_warm : forall h i s a, CleanWasmerInstance (mkRInst h (Some i) s a (Some i)) = mkRInst h (Some i) s a (Some i).
  Proof.
    intros. unfold CleanWasmerInstance, IsWarmInstance. cbn [ri_current ri_warm].
    rewrite bool_decide_eq_true_2 by reflexivity. reflexivity.
  Qed.

  Lemma idle_call : forall a code r, we_compiles code = true -> ri_stack r = [] -> ri_warm_addr r <> Some a ->
    snd (warm_transaction (to_call a code 100 Return) r) =
    mkRInst (ri_heap r ++ [new_inst code 100]) (Some (length (ri_heap r))) [] (Some a) (Some (length (ri_heap r))).
  Proof.
    intros a code r Hc Hst Ha. unfold warm_transaction. cbn [to_call wt_addr wt_code wt_gas wt_new wt_cached wt_body wt_alloc].
    rewrite start_fresh by (auto; discriminate). cbn [conducted snd].
    rewrite clean_warm. cbn [negb andb]. reflexivity.
  Qed.

  Lemma leak : forall a b code n, we_compiles code = true -> a <> b ->
    length (unfreed (snd (warm_transactions (in_turn a b code n) no_instances))) = (2 * n)%nat.
  Proof.
    intros a b code n Hc Hab.
    assert (G : forall n r, ri_stack r = [] -> ri_warm_addr r <> Some a ->
      length (unfreed (snd (warm_transactions (in_turn a b code n) r))) = (length (unfreed r) + 2 * n)%nat).
    { clear n. induction n as [|n IH]; intros r Hst Ha.
      - cbn. lia.
      - assert (Hin : in_turn a b code (S n) = to_call a code 100 Return :: to_call b code 100 Return :: in_turn a b code n) by reflexivity.
        rewrite Hin. cbn [warm_transactions].
        pose proof (idle_call a code r Hc Hst Ha) as H1.
        destruct (warm_transaction (to_call a code 100 Return) r) as [l1 r1]. cbn [snd] in H1. subst r1.
        match goal with |- context [warm_transaction (to_call b code 100 Return) ?r1] =>
          pose proof (idle_call b code r1 Hc eq_refl) as H2 end.
        cbn [ri_warm_addr ri_heap] in H2.
        assert (Hab' : Some a <> Some b) by congruence. specialize (H2 Hab').
        destruct (warm_transaction (to_call b code 100 Return) _) as [l2 r2]. cbn [snd] in H2. subst r2.
        match goal with |- context [warm_transactions (in_turn a b code n) ?r2] =>
          pose proof (IH r2 eq_refl) as H3 end.
        cbn [ri_warm_addr] in H3. assert (Hba : Some b <> Some a) by congruence. specialize (H3 Hba).
        destruct (warm_transactions (in_turn a b code n) _) as [l3 r3]. cbn [snd] in *.
        rewrite H3. unfold unfreed. cbn [ri_heap]. rewrite !List.filter_app, !app_length. cbn. lia. }
    rewrite G; [cbn; lia|reflexivity|discriminate].
  Qed.

  (** the second of two transactions with the same address starts on the
      instance the first one leaves, whatever code it brings *)
  Lemma second : forall a c1 c2 g1 g2 new1 new2 cached points brk mem,
    we_compiles c1 = true -> (new1 = true -> we_valid c1 = true) ->
    fst (warm_transactions
      [mkWarmTx a c1 g1 new1 None (Compute points brk mem Return) false;
       mkWarmTx a c2 g2 new2 cached Return false] no_instances) =
    [[Started (mkWInst c1 0 g1 0 (we_mem c1) false); Found (mkWInst c1 0 g1 0 (we_mem c1) false)];
     [Started (mkWInst c1 0 g2 0 mem false)]].
  Proof.
    intros a c1 c2 g1 g2 new1 new2 cached points brk mem Hc Hv. cbn [warm_transactions]. unfold warm_transaction at 1.
    cbn [wt_addr wt_code wt_gas wt_new wt_cached wt_body wt_alloc].
    rewrite start_fresh by (auto; discriminate).
    cbn [no_instances ri_heap app length conducted compute ri_current set_heap ri_stack ri_warm_addr ri_warm].
    unfold set_heap. cbn [ri_heap ri_current ri_stack ri_warm_addr ri_warm]. rewrite clean_warm. rewrite andb_false_r. cbn [andb].
    unfold warm_transaction. cbn [wt_addr wt_code wt_gas wt_new wt_cached wt_body wt_alloc].
    unfold StartWasmerInstance. cbn [ri_stack]. rewrite max0.
    unfold setWarmInstanceWhenNeeded. rewrite Hwarm. cbn [ri_warm_addr ri_warm andb].
    rewrite bool_decide_eq_true_2 by reflexivity. cbn [conducted]. reflexivity.
  Qed.

  (** a contract that is called back finds its gas counter set to nothing and
      its limit to that of the inner call *)
  Lemma called_back : forall a c gas inner points brk mem ipoints ibrk imem,
    1 < we_max -> we_compiles c = true ->
    fst (warm_transaction
      (mkWarmTx a c gas false None
        (Compute points brk mem (Invoke a c inner false None (Compute ipoints ibrk imem Return) (Compute 0 0 [] Return))) false) no_instances) =
    [Started (mkWInst c 0 gas 0 (we_mem c) false);
     Found (mkWInst c 0 gas 0 (we_mem c) false);
     Started (mkWInst c 0 inner 0 mem false);
     Found (mkWInst c 0 inner 0 mem false);
     Found (mkWInst c ipoints inner ibrk imem false)].
  Proof.
    intros a c gas inner points brk mem ipoints ibrk imem H1 Hc. unfold warm_transaction.
    cbn [wt_addr wt_code wt_gas wt_new wt_cached wt_body wt_alloc].
    rewrite start_fresh by (auto; discriminate).
    cbn [no_instances ri_heap app length conducted compute ri_current set_heap ri_stack ri_warm_addr ri_warm].
    unfold pushInstance, set_stack, set_heap. cbn [ri_heap ri_current ri_stack ri_warm_addr ri_warm].
    unfold StartWasmerInstance. cbn [ri_stack].
    assert (we_max <=? Z.of_nat (length [Some 0%nat]) = false) as -> by (cbn; lia).
    unfold setWarmInstanceWhenNeeded. rewrite Hwarm. cbn [ri_warm_addr ri_warm andb].
    rewrite bool_decide_eq_true_2 by reflexivity. cbn [conducted].
    cbn [compute set_current set_heap ri_current ri_heap ri_stack ri_warm ri_warm_addr].
    unfold popInstance, set_heap, set_current, set_stack, pushInstance. cbn [set_stack ri_stack ri_current ri_heap ri_warm ri_warm_addr]. rewrite bool_decide_eq_true_2 by reflexivity.
    reflexivity.
  Qed.
End leak.
