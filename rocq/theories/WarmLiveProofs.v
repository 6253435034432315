(** Without compiled code at hand, nobody finds an instance that was freed. *)
From Verif Require Import Base WarmModel WarmSpec WarmProofs.
From stdpp Require Import list.
From Coq Require Import ZifyBool ZifyNat ZifyN Lia Sorted.
Local Open Scope Z_scope.

Section live.
  Context `{E : warm_env}.

  Definition live (h : list winst) (i : nat) : Prop := exists w, h !! i = Some w /\ wi_freed w = false.
  Definition guarded (r : rinst) (l : list nat) : Prop :=
    StronglySorted ge l /\
    forall i, In i l -> live (ri_heap r) i /\ exists v, ri_warm r = Some v /\ (i <= v)%nat.
  Definition good (r : rinst) : Prop := forall v, ri_warm r = Some v -> live (ri_heap r) v.
  Fixpoint places (l : list (option nat)) : list nat :=
    match l with [] => [] | Some i :: l => i :: places l | None :: l => places l end.

  Lemma live_alter : forall f h i j, (forall w, wi_freed (f w) = wi_freed w) ->
    live h i -> live (alter f j h) i.
  Proof.
    intros f h i j Hf (w & H1 & H2). destruct (decide (i = j)) as [-> | Hne].
    - exists (f w). rewrite list_lookup_alter, H1. split; [reflexivity|]. rewrite Hf. exact H2.
    - exists w. rewrite list_lookup_alter_ne by congruence. auto.
  Qed.
  Lemma live_other : forall f h i j, i <> j -> live h i -> live (alter f j h) i.
  Proof.
    intros f h i j Hne (w & H1 & H2). exists w. rewrite list_lookup_alter_ne by congruence. auto.
  Qed.
  Lemma live_app : forall h k i, live h i -> live (h ++ k) i.
  Proof.
    intros h k i (w & H1 & H2). exists w. split; [|exact H2]. apply lookup_app_l_Some. exact H1.
  Qed.
  Lemma live_lt : forall h i, live h i -> (i < length h)%nat.
  Proof. intros h i (w & H & _). apply lookup_lt_Some in H. exact H. Qed.

  Lemma guarded_heap : forall r r' l,
    (forall i, In i l -> live (ri_heap r) i -> live (ri_heap r') i) -> ri_warm r' = ri_warm r ->
    guarded r l -> guarded r' l.
  Proof.
    intros r r' l H Hw [H1 H2]. split; [exact H1|]. intros i Hi. destruct (H2 i Hi) as [G1 G2].
    split; [exact (H i Hi G1)|]. rewrite Hw. exact G2.
  Qed.

  Lemma start_good : we_warm = true -> forall addr code gas newCode r,
    good r -> guarded r (places (ri_stack r)) ->
    match StartWasmerInstance addr code gas newCode None r with
    | (true, r0) => exists c, ri_current r0 = Some c /\ ri_stack r0 = ri_stack r /\ good r0 /\
        guarded r0 (c :: places (ri_stack r))
    | (false, r0) => ri_current r0 = None /\ ri_stack r0 = ri_stack r /\ good r0 /\
        guarded r0 (places (ri_stack r))
    end.
  Proof.
    intros Hwarm addr code gas newCode r Hg Hk. unfold StartWasmerInstance.
    destruct (we_max <=? Z.of_nat (length (ri_stack r))).
    { cbn. split_and!; auto. }
    unfold setWarmInstanceWhenNeeded. rewrite Hwarm. cbn [andb].
    assert (Hbyte :
      match makeInstanceFromContractByteCode addr code gas newCode r with
      | (true, r0) => exists c, ri_current r0 = Some c /\ ri_stack r0 = ri_stack r /\ good r0 /\
          guarded r0 (c :: places (ri_stack r))
      | (false, r0) => ri_current r0 = None /\ ri_stack r0 = ri_stack r /\ good r0 /\
          guarded r0 (places (ri_stack r))
      end).
    { unfold makeInstanceFromContractByteCode. destruct (we_compiles code).
      2:{ cbn. split_and!; auto. }
      destruct (newCode && negb (we_valid code)).
      - assert (IsWarmInstance (add_instance (new_inst code gas) r) = false) as Hw.
        { unfold IsWarmInstance. cbn. apply bool_decide_eq_false_2. intros F.
          apply Hg, live_lt in F. lia. }
        unfold CleanWasmerInstance. rewrite Hw. cbn.
        assert (Hl : forall i, live (ri_heap r) i -> live (alter freed (length (ri_heap r)) (ri_heap r ++ [new_inst code gas])) i).
        { intros i Hi. apply live_other; [|apply live_app; exact Hi]. apply live_lt in Hi. lia. }
        split_and!; auto.
        + intros v Hv. apply Hl, Hg. exact Hv.
        + revert Hk. apply guarded_heap; auto.
      - rewrite Hwarm. cbn. eexists. split; [reflexivity|]. split; [reflexivity|].
        assert (Hn : live (ri_heap r ++ [new_inst code gas]) (length (ri_heap r))).
        { exists (new_inst code gas). rewrite lookup_app_r by lia. rewrite Nat.sub_diag. split; reflexivity. }
        split.
        + intros v [= <-]. exact Hn.
        + destruct Hk as [K1 K2]. split.
          * constructor; [exact K1|]. apply List.Forall_forall. intros i Hi.
            destruct (K2 i Hi) as [G _]. apply live_lt in G. lia.
          * cbn. intros i [<- | Hi].
            -- split; [exact Hn|]. eexists. split; [reflexivity|lia].
            -- destruct (K2 i Hi) as [G _]. split; [apply live_app; exact G|].
               eexists. split; [reflexivity|]. apply live_lt in G. lia. }
    assert (Hcomp : makeInstanceFromCompiledCode None gas newCode r = None) by (destruct newCode; reflexivity).
    rewrite Hcomp.
    destruct (bool_decide (ri_warm_addr r = Some addr)); [|exact Hbyte].
    destruct (ri_warm r) as [v|] eqn:Hv; [|exact Hbyte].
    set (f := fun w => mkWInst (wi_code w) 0 gas 0 (wi_mem w) (wi_freed w)).
    assert (Hf : forall w, wi_freed (f w) = wi_freed w) by reflexivity.
    exists v. cbn. split_and!; auto.
    - intros u Hu. cbn in *. apply live_alter; [exact Hf|]. apply Hg. exact Hu.
    - destruct Hk as [K1 K2]. split.
      + constructor; [exact K1|]. apply List.Forall_forall. intros i Hi.
        destruct (K2 i Hi) as [_ (u & G1 & G2)]. rewrite Hv in G1. injection G1 as <-. lia.
      + cbn. intros i [<- | Hi].
        * split; [apply live_alter; [exact Hf|apply Hg; exact Hv]|]. exists v. split; [exact Hv|lia].
        * destruct (K2 i Hi) as [G1 G2]. split; [apply live_alter; [exact Hf|exact G1]|exact G2].
  Qed.

  Lemma clean_good : forall r l, good r -> guarded r l ->
    (forall c, ri_current r = Some c -> ~ In c l) ->
    good (CleanWasmerInstance r) /\ guarded (CleanWasmerInstance r) l /\
    ri_stack (CleanWasmerInstance r) = ri_stack r.
  Proof.
    intros r l Hg Hk Hn. unfold CleanWasmerInstance. destruct (ri_current r) as [c|] eqn:Hc; [|auto].
    destruct (IsWarmInstance r) eqn:Hw; [auto|].
    unfold IsWarmInstance in Hw. rewrite Hc in Hw. apply bool_decide_eq_false_1 in Hw.
    split_and!; [| |reflexivity].
    - intros v Hv. cbn in *. apply live_other; [congruence|]. apply Hg. exact Hv.
    - revert Hk. apply guarded_heap; [|reflexivity]. cbn. intros i Hi. apply live_other.
      intros ->. exact (Hn c eq_refl Hi).
  Qed.

  Lemma conducted_intact : we_warm = true -> forall p r i,
    uncached p -> good r -> ri_current r = Some i -> guarded r (i :: places (ri_stack r)) ->
    exists l r', conducted p r = (l, r') /\ List.Forall intact l /\
      ri_current r' = Some i /\ ri_stack r' = ri_stack r /\ good r' /\ guarded r' (i :: places (ri_stack r)).
  Proof.
    intros Hwarm. induction p as [|points brk mem k IH|addr code gas newCode cached body IHb k IHk];
      intros r i Hu Hg Hc Hk.
    - exists [], r. cbn. split_and!; auto.
    - cbn [conducted uncached] in *.
      assert (Hl : live (ri_heap r) i) by (apply Hk; left; reflexivity).
      destruct (IH (compute points brk mem r) i Hu) as (l & r' & H1 & H2 & H3 & H4 & H5 & H6).
      + unfold compute. rewrite Hc. intros v Hv. cbn in *. apply live_alter; [reflexivity|]. apply Hg. exact Hv.
      + unfold compute. rewrite Hc. exact Hc.
      + unfold compute. rewrite Hc. cbn. revert Hk. apply guarded_heap; [|reflexivity].
        intros j _ Hj. apply live_alter; [reflexivity|exact Hj].
      + rewrite H1. exists (found r :: l), r'.
        assert (Hst : ri_stack (compute points brk mem r) = ri_stack r) by (unfold compute; rewrite Hc; reflexivity).
        rewrite Hst in *. split_and!; auto. constructor; [|exact H2].
        unfold found. rewrite Hc. destruct Hl as (w & -> & Hw). exact Hw.
    - cbn [conducted uncached] in *. destruct Hu as (-> & Hub & Huk).
      assert (Hpl : places (ri_stack (pushInstance r)) = i :: places (ri_stack r)) by (cbn; rewrite Hc; reflexivity).
      assert (Hg0 : good (pushInstance r)) by exact Hg.
      assert (Hk0 : guarded (pushInstance r) (places (ri_stack (pushInstance r)))) by (rewrite Hpl; exact Hk).
      pose proof (start_good Hwarm addr code gas newCode (pushInstance r) Hg0 Hk0) as Hs.
      assert (Hback : exists l1 r1,
        match StartWasmerInstance addr code gas newCode None (pushInstance r) with
        | (true, r0) => let '(l0, r0') := conducted body r0 in (started r0 :: l0, r0')
        | (false, r0) => ([Refused], r0)
        end = (l1, r1) /\ List.Forall intact l1 /\
        ri_current (popInstance r1) = Some i /\ ri_stack (popInstance r1) = ri_stack r /\
        good (popInstance r1) /\ guarded (popInstance r1) (i :: places (ri_stack r))).
      { destruct (StartWasmerInstance addr code gas newCode None (pushInstance r)) as [[|] r0].
        - destruct Hs as (c & S1 & S2 & S3 & S4). rewrite Hpl in S4.
          destruct (IHb r0 c Hub S3 S1) as (l0 & r' & B1 & B2 & B3 & B4 & B5 & B6).
          { rewrite S2, Hpl. exact S4. }
          rewrite S2, Hpl in B6. rewrite B1. do 2 eexists. split; [reflexivity|]. split.
          { constructor; [|exact B2]. destruct S4 as [_ S4].
            destruct (S4 c) as [(w & Hw1 & Hw2) _]; [left; reflexivity|].
            unfold started, found. rewrite S1, Hw1. exact Hw2. }
          unfold popInstance. rewrite B4, S2. cbn [pushInstance set_stack ri_stack]. rewrite Hc, B3.
          destruct B6 as [B6 B7]. apply StronglySorted_inv in B6 as [B6 B8].
          assert (B9 : guarded r' (i :: places (ri_stack r))).
          { split; [exact B6|]. intros j Hj. apply B7. right. exact Hj. }
          destruct (bool_decide_reflect (Some i = Some c)) as [Heq | Hne].
          + injection Heq as <-. cbn. split_and!; auto.
          + assert (Hni : forall c', ri_current (set_stack (ri_stack r) r') = Some c' ->
              ~ In c' (i :: places (ri_stack r))).
            { cbn. intros c' Hc' F. rewrite B3 in Hc'. injection Hc' as <-.
              apply StronglySorted_inv in B6 as [_ B6].
              rewrite List.Forall_forall in B6, B8.
              assert (c >= i)%nat by (apply B8; left; reflexivity).
              destruct F as [-> | F]; [congruence|].
              assert (i >= c)%nat by (apply B6; exact F). apply Hne. f_equal. lia. }
            destruct (clean_good (set_stack (ri_stack r) r') _ B5 B9 Hni) as (C1 & C2 & C3).
            cbn [set_current ri_current ri_stack]. rewrite C3. split_and!; auto.
        - destruct Hs as (S1 & S2 & S3 & S4). rewrite Hpl in S4.
          do 2 eexists. split; [reflexivity|]. split; [constructor; [exact I|constructor]|].
          unfold popInstance. rewrite S2. cbn [pushInstance set_stack ri_stack]. rewrite Hc, S1.
          rewrite bool_decide_eq_false_2 by discriminate.
          unfold CleanWasmerInstance. cbn [set_stack ri_current]. rewrite S1. cbn. split_and!; auto. }
      destruct Hback as (l1 & r1 & -> & L1 & R1 & R2 & R3 & R4).
      destruct (IHk (popInstance r1) i Huk R3 R1) as (l2 & r2 & K1 & K2 & K3 & K4 & K5 & K6).
      { rewrite R2. exact R4. }
      rewrite K1. rewrite R2 in *. exists (l1 ++ l2), r2. split_and!; auto.
      apply List.Forall_app. auto.
  Qed.

  Lemma transaction_intact : we_warm = true -> forall t r,
    uncached_tx t -> good r -> ri_stack r = [] ->
    List.Forall intact (fst (warm_transaction t r)) /\
    good (snd (warm_transaction t r)) /\ ri_stack (snd (warm_transaction t r)) = [].
  Proof.
    intros Hwarm t r [Hu1 Hu2] Hg Hst. unfold warm_transaction. rewrite Hu1.
    assert (Hk0 : guarded r (places (ri_stack r))) by (rewrite Hst; split; [constructor|intros i []]).
    pose proof (start_good Hwarm (wt_addr t) (wt_code t) (wt_gas t) (wt_new t) r Hg Hk0) as Hs.
    assert (Hend : forall r1, good r1 -> ri_stack r1 = [] ->
      let r1' := CleanWasmerInstance r1 in
      let r2 := if negb (wt_new t) && wt_alloc t && IsWarmInstance r1' then ResetWarmInstance r1' else r1' in
      good r2 /\ ri_stack r2 = []).
    { intros r1 G1 G2. cbv zeta.
      destruct (clean_good r1 [] G1) as (C1 & _ & C3).
      - split; [constructor|intros i []].
      - intros c _ [].
      - rewrite G2 in C3. destruct (_ && _ && _); [|auto].
        unfold ResetWarmInstance. destruct (ri_current (CleanWasmerInstance r1)); [|auto].
        cbn. split; [intros v; discriminate|exact C3]. }
    destruct (StartWasmerInstance _ _ _ _ None r) as [[|] r0].
    - destruct Hs as (c & S1 & S2 & S3 & S4).
      destruct (conducted_intact Hwarm (wt_body t) r0 c Hu2 S3 S1) as (l & r' & B1 & B2 & B3 & B4 & B5 & B6).
      { rewrite S2. exact S4. }
      rewrite B1. cbn [fst snd]. split.
      + constructor; [|exact B2]. destruct S4 as [_ S4].
        destruct (S4 c) as [(w & Hw1 & Hw2) _]; [left; reflexivity|].
        unfold started, found. rewrite S1, Hw1. exact Hw2.
      + apply Hend; [exact B5|]. rewrite B4, S2, Hst. reflexivity.
    - destruct Hs as (S1 & S2 & S3 & S4). cbn [fst snd]. split.
      + constructor; [exact I|constructor].
      + apply Hend; [exact S3|]. rewrite S2. exact Hst.
  Qed.

  Lemma transactions_intact : we_warm = true -> forall ts r,
    List.Forall uncached_tx ts -> good r -> ri_stack r = [] ->
    List.Forall (List.Forall intact) (fst (warm_transactions ts r)).
  Proof.
    intros Hwarm. induction ts as [|t ts IH]; intros r Hu Hg Hst; [constructor|].
    inversion Hu as [|? ? H1 H2]; subst. cbn [warm_transactions].
    destruct (transaction_intact Hwarm t r H1 Hg Hst) as (A1 & A2 & A3).
    destruct (warm_transaction t r) as [l r1]. cbn [fst snd] in *.
    specialize (IH r1 H2 A2 A3). destruct (warm_transactions ts r1) as [ls r2]. cbn in *.
    constructor; assumption.
  Qed.

  Lemma alone_intact : forall p d w, wi_freed w = false -> List.Forall intact (fst (alone d p w)).
  Proof.
    assert (Ho : forall d code gas newCode cached v, own_instance d code gas newCode cached = Some v -> wi_freed v = false).
    { intros d code gas newCode cached v. unfold own_instance.
      destruct (d <? we_max); [|discriminate].
      destruct newCode, cached; try destruct (_ && _); congruence || (intros [= <-]; reflexivity). }
    induction p as [|points brk mem k IH|addr code gas newCode cached body IHb k IHk]; intros d w Hw; cbn [alone].
    - constructor.
    - specialize (IH d (mkWInst (wi_code w) points (wi_limit w) brk mem (wi_freed w)) Hw).
      destruct (alone d k _) as [l w']. cbn in *. constructor; assumption.
    - specialize (IHk d w Hw). destruct (alone d k w) as [l w']. cbn [fst] in *.
      apply List.Forall_app. split; [|exact IHk].
      destruct (own_instance (d + 1) code gas newCode cached) as [v|] eqn:Hv.
      + apply Ho in Hv. constructor; [exact Hv|apply IHb; exact Hv].
      + constructor; [exact I|constructor].
  Qed.

  Lemma alone_tx_intact : forall t, List.Forall intact (alone_tx t).
  Proof.
    intros t. unfold alone_tx, own_instance.
    destruct (0 <? we_max); [|constructor; [exact I|constructor]].
    destruct (wt_new t), (wt_cached t);
      try destruct (_ && _); constructor; try exact I; try reflexivity; try constructor;
      apply alone_intact; reflexivity.
  Qed.

  Lemma uncached_intact : forall ts, List.Forall uncached_tx ts ->
    List.Forall (List.Forall intact) (fst (warm_transactions ts no_instances)).
  Proof.
    intros ts Hu. destruct we_warm eqn:Hw.
    - apply transactions_intact; auto. intros v F. discriminate F.
    - destruct (cold Hw ts) as [-> _]. apply List.Forall_forall. intros l Hl.
      apply in_map_iff in Hl as (t & <- & _). apply alone_tx_intact.
  Qed.
End live.
