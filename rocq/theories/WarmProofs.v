(** Code that is not started on a warm instance is on an instance of its own. *)
From Verif Require Import Base WarmModel WarmSpec.
From stdpp Require Import list.
From Coq Require Import ZifyBool ZifyNat ZifyN Lia.
Local Open Scope Z_scope.

Section warm.
  Context `{E : warm_env}.

  Definition sane (r : rinst) : Prop := forall j, ri_warm r = Some j -> (j < length (ri_heap r))%nat.

  Definition misses (addrs : list bytes) (r : rinst) : Prop :=
    we_warm = false \/ NoDup addrs /\ forall a, ri_warm_addr r = Some a -> a ∉ addrs.

  (** all instances from place [n] on are freed, and none is warm *)
  Definition cleaned (n : nat) (r : rinst) : Prop :=
    ri_warm r = None /\ forall j w, (n <= j)%nat -> ri_heap r !! j = Some w -> wi_freed w = true.

  Lemma start_own : forall addr code gas newCode cached r,
    sane r -> (we_warm = false \/ ri_warm_addr r <> Some addr) ->
    match own_instance (Z.of_nat (length (ri_stack r))) code gas newCode cached with
    | Some v => exists r0,
        StartWasmerInstance addr code gas newCode cached r = (true, r0) /\
        ri_current r0 = Some (length (ri_heap r)) /\ ri_heap r0 = ri_heap r ++ [v] /\
        ri_stack r0 = ri_stack r /\ sane r0 /\
        (ri_warm_addr r0 = ri_warm_addr r \/ ri_warm_addr r0 = Some addr) /\
        (we_warm = false -> ri_warm r0 = ri_warm r)
    | None => exists r0,
        StartWasmerInstance addr code gas newCode cached r = (false, r0) /\
        ri_current r0 = None /\
        (ri_heap r0 = ri_heap r \/ exists v, ri_heap r0 = ri_heap r ++ [v] /\ wi_freed v = true) /\
        ri_stack r0 = ri_stack r /\ ri_warm_addr r0 = ri_warm_addr r /\ ri_warm r0 = ri_warm r
    end.
  Proof.
    intros addr code gas newCode cached r Hs Hm. unfold own_instance, StartWasmerInstance.
    destruct (Z.of_nat (length (ri_stack r)) <? we_max) eqn:Hd.
    2:{ assert (we_max <=? Z.of_nat (length (ri_stack r)) = true) as -> by lia.
        eexists. split; [reflexivity|]. cbn. split_and!; auto. }
    assert (we_max <=? Z.of_nat (length (ri_stack r)) = false) as -> by lia.
    assert (setWarmInstanceWhenNeeded addr gas r = None) as ->.
    { unfold setWarmInstanceWhenNeeded. destruct Hm as [-> | Hm]; [reflexivity|].
      rewrite bool_decide_eq_false_2 by exact Hm. rewrite andb_false_r. reflexivity. }
    assert (Hl : forall v, length (ri_heap r ++ [v]) = S (length (ri_heap r))).
    { intros v. rewrite app_length. cbn. lia. }
    assert (Hbyte :
      match (if we_compiles code && (negb newCode || we_valid code)
             then Some (mkWInst code 0 gas 0 (we_mem code) false) else None) with
      | Some v => exists r0,
          makeInstanceFromContractByteCode addr code gas newCode r = (true, r0) /\
          ri_current r0 = Some (length (ri_heap r)) /\ ri_heap r0 = ri_heap r ++ [v] /\
          ri_stack r0 = ri_stack r /\ sane r0 /\
          (ri_warm_addr r0 = ri_warm_addr r \/ ri_warm_addr r0 = Some addr) /\
          (we_warm = false -> ri_warm r0 = ri_warm r)
      | None => exists r0,
          makeInstanceFromContractByteCode addr code gas newCode r = (false, r0) /\
          ri_current r0 = None /\
          (ri_heap r0 = ri_heap r \/ exists v, ri_heap r0 = ri_heap r ++ [v] /\ wi_freed v = true) /\
          ri_stack r0 = ri_stack r /\ ri_warm_addr r0 = ri_warm_addr r /\ ri_warm r0 = ri_warm r
      end).
    { unfold makeInstanceFromContractByteCode.
      destruct (we_compiles code); cbn [andb].
      2:{ eexists. split; [reflexivity|]. cbn. split_and!; auto. }
      assert (negb newCode || we_valid code = negb (newCode && negb (we_valid code))) as ->
        by (destruct newCode, (we_valid code); reflexivity).
      destruct (newCode && negb (we_valid code)); cbn [negb].
      - eexists. split; [reflexivity|].
        assert (IsWarmInstance (add_instance (new_inst code gas) r) = false) as Hw.
        { unfold IsWarmInstance. cbn. apply bool_decide_eq_false_2. intros F.
          apply Hs in F. lia. }
        unfold CleanWasmerInstance. rewrite Hw. cbn. split_and!; auto.
        right. eexists. split.
        + rewrite alter_app_r_alt by lia. rewrite Nat.sub_diag. reflexivity.
        + reflexivity.
      - eexists. split; [reflexivity|].
        destruct we_warm; cbn; split_and!; auto; try discriminate.
        + intros j [= <-]. cbn. rewrite Hl. lia.
        + intros j Hj. cbn. rewrite Hl. apply Hs in Hj. lia. }
    destruct newCode; [exact Hbyte|]. cbn [makeInstanceFromCompiledCode].
    destruct cached as [c|]; [|exact Hbyte].
    eexists. split; [reflexivity|]. cbn. split_and!; auto.
    intros j Hj. cbn. rewrite Hl. apply Hs in Hj. lia.
  Qed.

  Lemma misses_app : forall l1 l2 r, misses (l1 ++ l2) r -> misses l1 r.
  Proof.
    intros l1 l2 r [H | [H1 H2]]; [left; exact H|right].
    apply NoDup_app in H1 as (H1 & _ & _). split; [exact H1|].
    intros a Ha F. apply (H2 a Ha). apply elem_of_app. left. exact F.
  Qed.
  Lemma misses_next : forall l1 l2 r r', misses (l1 ++ l2) r ->
    (forall a, ri_warm_addr r' = Some a -> ri_warm_addr r = Some a \/ a ∈ l1) -> misses l2 r'.
  Proof.
    intros l1 l2 r r' [H | [H1 H2]] Hw; [left; exact H|right].
    apply NoDup_app in H1 as (_ & H1 & H3). split; [exact H3|].
    intros a Ha F. destruct (Hw a Ha) as [G | G].
    - apply (H2 a G). apply elem_of_app. right. exact F.
    - exact (H1 a G F).
  Qed.
  Lemma misses_one : forall a l r, misses (a :: l) r -> we_warm = false \/ ri_warm_addr r <> Some a.
  Proof.
    intros a l r [H | [_ H2]]; [left; exact H|right]. intros F. apply (H2 a F). left.
  Qed.

  Lemma conducted_alone : forall p r i w,
    sane r -> ri_current r = Some i -> ri_heap r !! i = Some w -> misses (invoked p) r ->
    exists r',
      conducted p r = (fst (alone (Z.of_nat (length (ri_stack r))) p w), r') /\
      ri_current r' = Some i /\ ri_stack r' = ri_stack r /\ sane r' /\
      ri_heap r' !! i = Some (snd (alone (Z.of_nat (length (ri_stack r))) p w)) /\
      (length (ri_heap r) <= length (ri_heap r'))%nat /\
      (forall j, (j < length (ri_heap r))%nat -> j <> i -> ri_heap r' !! j = ri_heap r !! j) /\
      (forall a, ri_warm_addr r' = Some a -> ri_warm_addr r = Some a \/ a ∈ invoked p) /\
      (we_warm = false -> ri_warm r = None -> cleaned (length (ri_heap r)) r').
  Proof.
    induction p as [|points brk mem k IH|addr code gas newCode cached body IHb k IHk];
      intros r i w Hs Hc Hi Hm.
    - exists r. cbn. split_and!; auto. intros _ Hn. split; [exact Hn|].
      intros j v Hj F. apply lookup_lt_Some in F. lia.
    - cbn [conducted alone].
      destruct (IH (compute points brk mem r) i (mkWInst (wi_code w) points (wi_limit w) brk mem (wi_freed w)))
        as (r' & E1 & E2 & E3 & E4 & E5 & E6 & E7 & E8 & E9).
      + unfold compute. rewrite Hc. intros j Hj. cbn in *. rewrite alter_length. exact (Hs j Hj).
      + unfold compute. rewrite Hc. exact Hc.
      + unfold compute. rewrite Hc. cbn. rewrite list_lookup_alter, Hi. reflexivity.
      + unfold compute. rewrite Hc. exact Hm.
      + assert (Hst : ri_stack (compute points brk mem r) = ri_stack r) by (unfold compute; rewrite Hc; reflexivity).
        assert (Hwa : ri_warm_addr (compute points brk mem r) = ri_warm_addr r) by (unfold compute; rewrite Hc; reflexivity).
        assert (Hwi : ri_warm (compute points brk mem r) = ri_warm r) by (unfold compute; rewrite Hc; reflexivity).
        assert (Hle : length (ri_heap (compute points brk mem r)) = length (ri_heap r)).
        { unfold compute. rewrite Hc. cbn. apply alter_length. }
        rewrite Hst in *. rewrite Hwa in *. rewrite Hwi in *. rewrite Hle in *.
        rewrite E1. exists r'.
        destruct (alone _ k _) as [l w']. cbn [fst snd] in *.
        split_and!; auto.
        * unfold found. rewrite Hc, Hi. reflexivity.
        * intros j Hj Hji. rewrite E7 by assumption. unfold compute. rewrite Hc. cbn.
          apply list_lookup_alter_ne. congruence.
    - cbn [conducted alone invoked] in *.
      assert (Hs0 : sane (pushInstance r)) by exact Hs.
      pose proof (start_own addr code gas newCode cached (pushInstance r) Hs0 (misses_one _ _ _ Hm)) as Hst.
      assert (Hd : Z.of_nat (length (ri_stack (pushInstance r))) = Z.of_nat (length (ri_stack r)) + 1) by (cbn; lia).
      rewrite Hd in Hst.
      (* the state in which [k] goes on *)
      assert (Hback : exists r1 l1,
        match StartWasmerInstance addr code gas newCode cached (pushInstance r) with
        | (true, r0) => let '(l0, r0') := conducted body r0 in (started r0 :: l0, r0')
        | (false, r0) => ([Refused], r0)
        end = (l1, r1) /\
        l1 = match own_instance (Z.of_nat (length (ri_stack r)) + 1) code gas newCode cached with
             | Some v => Started v :: fst (alone (Z.of_nat (length (ri_stack r)) + 1) body v)
             | None => [Refused]
             end /\
        ri_current (popInstance r1) = Some i /\ ri_stack (popInstance r1) = ri_stack r /\ sane (popInstance r1) /\
        (length (ri_heap r) <= length (ri_heap (popInstance r1)))%nat /\
        (forall j, (j < length (ri_heap r))%nat -> ri_heap (popInstance r1) !! j = ri_heap r !! j) /\
        (forall a, ri_warm_addr (popInstance r1) = Some a -> ri_warm_addr r = Some a \/ a ∈ (addr :: invoked body)) /\
        (we_warm = false -> ri_warm r = None -> cleaned (length (ri_heap r)) (popInstance r1))).
      { destruct (own_instance _ code gas newCode cached) as [v|].
        - destruct Hst as (r0 & -> & S1 & S2 & S3 & S4 & S5 & S6).
          assert (Hpu : ri_heap (pushInstance r) = ri_heap r) by reflexivity. rewrite Hpu in S1, S2.
          destruct (IHb r0 (length (ri_heap r)) v) as (r' & B1 & B2 & B3 & B4 & B5 & B6 & B7 & B8 & B9).
          + exact S4.
          + exact S1.
          + rewrite S2, lookup_app_r by lia. rewrite Nat.sub_diag. reflexivity.
          + destruct Hm as [H | [H1 H2]]; [left; exact H|right].
            apply NoDup_cons in H1 as [Ha Hr]. apply NoDup_app in Hr as (Hb & _ & _).
            split; [exact Hb|]. intros a Hwa F. destruct S5 as [S5 | S5]; rewrite S5 in Hwa.
            * cbn in Hwa. apply (H2 a Hwa). right. apply elem_of_app. left. exact F.
            * injection Hwa as <-. apply Ha. apply elem_of_app. left. exact F.
          + rewrite B1. rewrite S3 in B1, B5. rewrite Hd in B1, B5.
            do 2 eexists. split; [reflexivity|]. rewrite S3, Hd. split.
            { f_equal. unfold started, found. rewrite S1, S2, lookup_app_r by lia.
              rewrite Nat.sub_diag. reflexivity. }
            assert (Hi0 : (i < length (ri_heap r))%nat) by (apply lookup_lt_Some in Hi; exact Hi).
            assert (Hlen : length (ri_heap r0) = S (length (ri_heap r))) by (rewrite S2, app_length; cbn; lia).
            unfold popInstance. rewrite B3, S3. cbn [pushInstance set_stack ri_stack].
            rewrite bool_decide_eq_false_2 by (rewrite Hc, B2; intros [= F]; lia).
            unfold CleanWasmerInstance. cbn [set_stack ri_current]. rewrite B2.
            assert (Hold : forall j, (j < length (ri_heap r))%nat -> ri_heap r' !! j = ri_heap r !! j).
            { intros j Hj. rewrite B7 by lia. rewrite S2. apply lookup_app_l. exact Hj. }
            assert (Hwa : forall a, ri_warm_addr r' = Some a -> ri_warm_addr r = Some a \/ a ∈ (addr :: invoked body)).
            { intros a Ha. destruct (B8 a Ha) as [G | G]; [|right; right; exact G].
              destruct S5 as [S5 | S5]; rewrite S5 in G; [left; exact G|].
              injection G as <-. right. left. }
            assert (Hwarm : IsWarmInstance (set_stack (ri_stack r) r') = IsWarmInstance r') by reflexivity.
            rewrite Hwarm. destruct (IsWarmInstance r') eqn:Hwm; cbn [set_current set_heap set_stack ri_current ri_stack ri_heap ri_warm ri_warm_addr].
            * split_and!; auto; try lia.
              intros Hn Hn2. exfalso. specialize (S6 Hn). destruct (B9 Hn) as [F _].
              { rewrite S6. exact Hn2. }
              unfold IsWarmInstance in Hwm. rewrite B2, F in Hwm.
              rewrite bool_decide_eq_false_2 in Hwm by discriminate. discriminate.
            * split_and!; auto.
              -- intros j Hj. cbn in *. rewrite alter_length. exact (B4 j Hj).
              -- rewrite alter_length. lia.
              -- intros j Hj. rewrite list_lookup_alter_ne by lia. exact (Hold j Hj).
              -- intros Hn Hn2. specialize (S6 Hn). destruct (B9 Hn) as [F1 F2].
                 { rewrite S6. exact Hn2. }
                 split; [exact F1|]. cbn. intros j u Hj Hu.
                 destruct (decide (j = length (ri_heap r))) as [-> | Hne].
                 ++ rewrite list_lookup_alter, B5 in Hu. injection Hu as <-. reflexivity.
                 ++ rewrite list_lookup_alter_ne in Hu by congruence. apply (F2 j u); [lia|exact Hu].
        - destruct Hst as (r0 & -> & S1 & S2 & S3 & S4 & S5).
          do 2 eexists. split; [reflexivity|]. split; [reflexivity|].
          unfold popInstance. rewrite S3. cbn [pushInstance set_stack ri_stack].
          rewrite bool_decide_eq_false_2 by (rewrite Hc, S1; discriminate).
          unfold CleanWasmerInstance. cbn [set_stack ri_current]. rewrite S1.
          cbn [set_current set_heap set_stack ri_current ri_stack ri_heap ri_warm ri_warm_addr] in *.
          assert (Hpu : ri_heap (pushInstance r) = ri_heap r) by reflexivity. rewrite Hpu in S2.
          assert (Hge : (length (ri_heap r) <= length (ri_heap r0))%nat).
          { destruct S2 as [-> | (v & -> & _)]; [lia|]. rewrite app_length. lia. }
          split_and!; auto.
          + intros j Hj. cbn in *. rewrite S5 in Hj. apply Hs in Hj. lia.
          + intros j Hj. destruct S2 as [-> | (v & -> & _)]; [reflexivity|]. apply lookup_app_l. exact Hj.
          + intros a Ha. left. rewrite S4 in Ha. exact Ha.
          + intros Hn Hn2. split; [cbn; rewrite S5; exact Hn2|]. cbn. intros j u Hj Hu.
            destruct S2 as [S2 | (v & S2 & Hv)]; rewrite S2 in Hu.
            * apply lookup_lt_Some in Hu. lia.
            * rewrite lookup_app_r in Hu by lia. apply list_lookup_singleton_Some in Hu as [_ <-]. exact Hv. }
      destruct Hback as (r1 & l1 & -> & L1 & R1 & R2 & R3 & R4 & R5 & R6 & R7).
      assert (Hi0 : (i < length (ri_heap r))%nat) by (apply lookup_lt_Some in Hi; exact Hi).
      destruct (IHk (popInstance r1) i w) as (r' & K1 & K2 & K3 & K4 & K5 & K6 & K7 & K8 & K9).
      + exact R3.
      + exact R1.
      + rewrite R5 by exact Hi0. exact Hi.
      + apply (misses_next (addr :: invoked body) (invoked k) r); [exact Hm|exact R6].
      + rewrite K1. rewrite R2 in *. exists r'.
        destruct (alone (Z.of_nat (length (ri_stack r))) k w) as [l2 w']. cbn [fst snd] in *.
        split_and!; auto.
        * rewrite L1. reflexivity.
        * lia.
        * intros j Hj Hji. rewrite K7 by (try assumption; lia). apply R5. exact Hj.
        * intros a Ha. destruct (K8 a Ha) as [G | G].
          -- destruct (R6 a G) as [G' | G']; [left; exact G'|right].
             rewrite app_comm_cons. apply elem_of_app. left. exact G'.
          -- right. right. apply elem_of_app. right. exact G.
        * intros Hn Hn2. destruct (R7 Hn Hn2) as [F1 F2]. destruct (K9 Hn F1) as [G1 G2].
          split; [exact G1|]. intros j u Hj Hu.
          destruct (decide (length (ri_heap (popInstance r1)) <= j)%nat) as [Hge | Hlt].
          -- exact (G2 j u Hge Hu).
          -- rewrite K7 in Hu by lia. exact (F2 j u Hj Hu).
  Qed.

  Lemma transaction_alone : forall t r,
    sane r -> ri_stack r = [] -> misses (invoked_tx t) r ->
    exists r', warm_transaction t r = (alone_tx t, r') /\
      sane r' /\ ri_stack r' = [] /\
      (forall a, ri_warm_addr r' = Some a -> ri_warm_addr r = Some a \/ a ∈ invoked_tx t) /\
      (we_warm = false -> cleaned 0 r -> cleaned 0 r').
  Proof.
    intros t r Hs Hst Hm. unfold warm_transaction, alone_tx.
    pose proof (start_own (wt_addr t) (wt_code t) (wt_gas t) (wt_new t) (wt_cached t) r Hs (misses_one _ _ _ Hm)) as H.
    rewrite Hst in H. cbn [length] in H. change (Z.of_nat 0) with 0 in H.
    set (after := fun r1 : rinst => let r1' := CleanWasmerInstance r1 in
           if negb (wt_new t) && wt_alloc t && IsWarmInstance r1' then ResetWarmInstance r1' else r1').
    assert (Hafter : forall r1, sane r1 -> ri_stack r1 = [] ->
      sane (after r1) /\ ri_stack (after r1) = [] /\
      (forall a, ri_warm_addr (after r1) = Some a -> ri_warm_addr r1 = Some a)).
    { intros r1 G1 G2.
      assert (F : sane (CleanWasmerInstance r1) /\ ri_stack (CleanWasmerInstance r1) = [] /\
        ri_warm_addr (CleanWasmerInstance r1) = ri_warm_addr r1).
      { unfold CleanWasmerInstance. destruct (ri_current r1) as [i|]; [|auto].
        destruct (IsWarmInstance r1); [auto|]. cbn. split_and!; auto.
        intros j Hj. cbn in *. rewrite alter_length. exact (G1 j Hj). }
      destruct F as (F1 & F2 & F3). unfold after. cbv zeta.
      destruct (_ && _ && _).
      - unfold ResetWarmInstance. destruct (ri_current (CleanWasmerInstance r1)).
        + cbn. split_and!; auto; try discriminate.
        + rewrite F3. auto.
      - rewrite F3. auto. }
    assert (Hcl : forall r1, ri_warm r1 = None -> after r1 = CleanWasmerInstance r1).
    { intros r1 G. unfold after. cbv zeta.
      assert (IsWarmInstance (CleanWasmerInstance r1) = false) as ->.
      { unfold CleanWasmerInstance. destruct (ri_current r1) eqn:Hcu.
        - unfold IsWarmInstance at 2. rewrite Hcu, G. cbn. reflexivity.
        - unfold IsWarmInstance. rewrite Hcu. reflexivity. }
      rewrite andb_false_r. reflexivity. }
    destruct (own_instance 0 _ _ _ _) as [v|].
    - destruct H as (r0 & -> & S1 & S2 & S3 & S4 & S5 & S6).
      destruct (conducted_alone (wt_body t) r0 (length (ri_heap r)) v) as (r1 & B1 & B2 & B3 & B4 & B5 & B6 & B7 & B8 & B9).
      + exact S4.
      + exact S1.
      + rewrite S2, lookup_app_r by lia. rewrite Nat.sub_diag. reflexivity.
      + destruct Hm as [H | [H1 H2]]; [left; exact H|right].
        apply NoDup_cons in H1 as [Ha Hr]. split; [exact Hr|].
        intros a Hwa F. destruct S5 as [S5 | S5]; rewrite S5 in Hwa.
        * apply (H2 a Hwa). right. exact F.
        * injection Hwa as <-. exact (Ha F).
      + rewrite B1. rewrite S3, ?Hst in *. cbn [length] in *. change (Z.of_nat 0) with 0 in *.
        exists (after r1). destruct (Hafter r1 B4 B3) as (A1 & A2 & A3).
        split_and!; auto.
        * f_equal. f_equal. unfold started, found. rewrite S1, S2, lookup_app_r by lia.
          rewrite Nat.sub_diag. reflexivity.
        * intros a Ha. apply A3 in Ha. destruct (B8 a Ha) as [G | G]; [|right; right; exact G].
          destruct S5 as [S5 | S5]; rewrite S5 in G; [left; exact G|]. injection G as <-. right. left.
        * intros Hn [C1 C2]. destruct (B9 Hn) as [F1 F2]; [rewrite S6 by exact Hn; exact C1|].
          rewrite Hcl by exact F1. unfold CleanWasmerInstance. rewrite B2.
          unfold IsWarmInstance. rewrite B2, F1. rewrite bool_decide_eq_false_2 by discriminate. split; [exact F1|]. cbn. intros j u Hj Hu.
          destruct (decide (j = length (ri_heap r))) as [-> | Hne].
          -- rewrite list_lookup_alter, B5 in Hu. injection Hu as <-. reflexivity.
          -- rewrite list_lookup_alter_ne in Hu by congruence.
             destruct (decide (j < length (ri_heap r))%nat) as [Hlt | Hge].
             ++ rewrite B7 in Hu.
                ** rewrite S2, lookup_app_l in Hu by exact Hlt. exact (C2 j u Hj Hu).
                ** rewrite S2, app_length. cbn. lia.
                ** exact Hne.
             ++ apply (F2 j u); [|exact Hu]. rewrite S2, app_length. cbn. lia.
    - destruct H as (r0 & -> & S1 & S2 & S3 & S4 & S5).
      assert (Hs0 : sane r0).
      { intros j Hj. rewrite S5 in Hj. apply Hs in Hj.
        destruct S2 as [-> | (u & -> & _)]; [exact Hj|]. rewrite app_length. lia. }
      exists (after r0). destruct (Hafter r0 Hs0 S3) as (A1 & A2 & A3). split_and!; auto.
      + intros a Ha. apply A3 in Ha. left. rewrite <- S4. exact Ha.
      + intros Hn [C1 C2]. rewrite Hcl by (rewrite S5; exact C1).
        unfold CleanWasmerInstance. rewrite S1. split; [rewrite S5; exact C1|].
        intros j u Hj Hu. destruct S2 as [S2 | (x & S2 & Hx)]; rewrite S2 in Hu.
        * exact (C2 j u Hj Hu).
        * apply lookup_app_Some in Hu as [Hu | [Hge Hu]]; [exact (C2 j u Hj Hu)|].
          apply list_lookup_singleton_Some in Hu as [_ <-]. exact Hx.
  Qed.

  Lemma transactions_alone : forall ts r,
    sane r -> ri_stack r = [] -> misses (concat (map invoked_tx ts)) r ->
    fst (warm_transactions ts r) = map alone_tx ts /\
    (we_warm = false -> cleaned 0 r -> cleaned 0 (snd (warm_transactions ts r))).
  Proof.
    induction ts as [|t ts IH]; intros r Hs Hst Hm.
    - cbn. auto.
    - cbn [map concat] in Hm. cbn [warm_transactions map].
      destruct (transaction_alone t r Hs Hst (misses_app _ _ _ Hm)) as (r1 & -> & A1 & A2 & A3 & A4).
      destruct (IH r1 A1 A2 (misses_next _ _ _ _ Hm A3)) as [B1 B2].
      destruct (warm_transactions ts r1) as [ls r2]. cbn in *. split; [rewrite B1; reflexivity|]. auto.
  Qed.

  Lemma unfreed_cleaned : forall r, cleaned 0 r -> unfreed r = [].
  Proof.
    intros r [_ H]. unfold unfreed. 
    assert (G : forall l : list winst, (forall j w, l !! j = Some w -> wi_freed w = true) ->
      List.filter (fun w => negb (wi_freed w)) l = []).
    { induction l as [|w l IHl]; intros G; [reflexivity|]. cbn.
      rewrite (G 0%nat w eq_refl). cbn. apply IHl. intros j u Hu. exact (G (S j) u Hu). }
    apply G. intros j w Hw. apply (H j w); [lia|exact Hw].
  Qed.

  Lemma cold : we_warm = false -> forall ts,
    fst (warm_transactions ts no_instances) = map alone_tx ts /\
    unfreed (snd (warm_transactions ts no_instances)) = [].
  Proof.
    intros Hn ts. destruct (transactions_alone ts no_instances) as [H1 H2].
    - intros j F. discriminate F.
    - reflexivity.
    - left. exact Hn.
    - split; [exact H1|]. apply unfreed_cleaned. apply H2; [exact Hn|].
      split; [reflexivity|]. intros j w _ F. discriminate F.
  Qed.

  Lemma distinct : forall ts, NoDup (concat (map invoked_tx ts)) ->
    fst (warm_transactions ts no_instances) = map alone_tx ts.
  Proof.
    intros ts Hn. apply transactions_alone.
    - intros j F. discriminate F.
    - reflexivity.
    - right. split; [exact Hn|]. intros a F. discriminate F.
  Qed.
End warm.
