(** Instances: none is lost and none is freed while it is needed. *)
From Verif Require Import VmModel WpProofs EffProofs EffFrameProofs EffWalkProofs EffTopProofs CallSpec FreshSpec KeepProofs CallProofs HeapSpec.

Section heap.
Context `{E : env}.
Notation O := once_opts.

Lemma once_cmd c : cmd_ok O c.
Proof. induction c as [| |B p k IH]; cbn; auto. split; [destruct p; cbn; auto|auto]. Qed.
Lemma once_prog p : prog_ok O p.
Proof. induction p; cbn; auto using once_cmd. Qed.
Lemma once_mod m : mod_ok O m.
Proof. intros name p _. apply once_prog. Qed.
Lemma once_codes code m : e_compile E code = Some m -> mod_ok O m.
Proof. intros _. apply once_mod. Qed.
Lemma once_good h : h_stoprot h = true -> good O true h.
Proof. intros H. split; [auto|]. intros i x _. apply once_mod. Qed.
Lemma once_pay i h : pay_ok O i h.
Proof. right; left. reflexivity. Qed.

Lemma accounted_wf h : accounted h -> wf h.
Proof. intros [A F G] i Hi. apply G, A. left. exact Hi. Qed.
Lemma accounted_same h h' : h_cur h' = h_cur h -> h_ist h' = h_ist h -> h_insts h' = h_insts h -> h_next h' = h_next h ->
  accounted h -> accounted h'.
Proof.
  intros H1 H2 H3 H4 [A F G]. constructor; unfold refers; rewrite ?H1, ?H2, ?H3, ?H4; assumption.
Qed.
Lemma unstarted_refers h j : h_cur h = default None (head (h_ist h)) -> refers h j -> In (Some j) (h_ist h).
Proof.
  intros Hu [Hc|Hi]; [|exact Hi]. rewrite Hu in Hc. destruct (h_ist h) as [|c s]; [discriminate|].
  left. exact Hc.
Qed.

(** the pop of a frame *)
Lemma accounted_pop h h1 h2 b : accounted h -> h_cur h1 = h_cur h -> h_next h1 = h_next h -> h_insts h1 = h_insts h ->
  h_ist h1 = h_cur h :: h_ist h ->
  kept O true h1 h2 b -> accounted h2 -> forall h',
  h_cur h' = h_cur h -> h_ist h' = h_ist h -> h_next h' = h_next h2 ->
  h_insts h' = (if bool_decide (h_cur h = h_cur h2) then h_insts h2
           else match h_cur h2 with Some j => delete j (h_insts h2) | None => h_insts h2 end) ->
  accounted h'.
Proof.
  intros [A F G] Hc Hn Hi Hs K [A2 F2 G2] h' E1 E2 E3 E4.
  pose proof (k_ist _ _ _ _ _ K) as Hs2. rewrite Hs in Hs2.
  assert (R2 : forall j, refers h2 j <-> h_cur h2 = Some j \/ refers h j).
  { intros j. unfold refers. rewrite Hs2. cbn [In]. tauto. }
  assert (R' : forall j, refers h' j <-> refers h j) by (intros j; unfold refers; rewrite E1, E2; tauto).
  assert (Old : forall j, refers h j -> (j < h_next h)%nat) by auto.
  assert (L : forall j, is_Some (h_insts h' !! j) <-> is_Some (h_insts h2 !! j) /\ (refers h j \/ h_cur h2 <> Some j)).
  { intros j. rewrite E4. case_bool_decide as Hd.
    - split; [intros Hj; split; [exact Hj|]|tauto]. destruct (decide (h_cur h2 = Some j)) as [Hj'|]; [|auto].
      left. left. congruence.
    - destruct (k_cur' _ _ _ _ _ K) as [Hx|[Hx|(k & Hx & Hk)]]; rewrite Hx.
      + congruence.
      + split; [intros Hj; split; [exact Hj|]; right; discriminate|tauto].
      + rewrite Hn in Hk. destruct (decide (k = j)) as [->|Hne].
        * rewrite lookup_delete. split; [intros [? Hf]; discriminate|]. intros [_ [Hr|Hr]]; [apply Old in Hr; lia|congruence].
        * rewrite lookup_delete_ne by exact Hne. split; [intros Hj; split; [exact Hj|right; congruence]|tauto]. }
  constructor.
  - intros j Hj. apply R' in Hj. apply L. split; [|auto]. apply A2, R2. auto.
  - intros j Hj. apply R'. apply L in Hj as [Hj [Hr|Hr]]; [exact Hr|]. apply F2, R2 in Hj. tauto.
  - intros j Hj. apply L in Hj as [Hj _]. rewrite E3. auto.
Qed.

Lemma eff_accounted l h h' b : eff O l h h' b -> accounted h -> accounted h'.
Proof.
  induction 1 as [ | l h1 h2 h3 b1 b2 H1 IH1 H2 IH2 | l h i x y Hi Hm Hl | | | | | | | | | l h h2 b H IH | l h s d v
    | l h f Hf | l h ro | h m g Hm Hu | h Hu | h m g Hu
    | | | | | l h h2 a Ho Hc Hro H IH | | | l h h2 b H IH | l h h2 rv H IH | l h h2 H IH | l h i h2 b ok H IH | l h i h2 b ok H IH]; intros Hw;
    try (eapply accounted_same; [..|exact Hw]; reflexivity).
  - auto.
  - destruct Hi as [Hc Hx]. destruct Hw as [A F G]. constructor; unfold with_inst, refers; cbn.
    + intros j Hj. destruct (decide (i = j)) as [<-|]; [rewrite lookup_insert; eauto|]. rewrite lookup_insert_ne by assumption. apply A. exact Hj.
    + intros j Hj. destruct (decide (i = j)) as [<-|]; [left; exact Hc|]. rewrite lookup_insert_ne in Hj by assumption. apply F, Hj.
    + intros j Hj. destruct (decide (i = j)) as [<-|]; [apply G; eauto|]. rewrite lookup_insert_ne in Hj by assumption. apply G, Hj.
  - (* prot *) eapply accounted_same; [..|apply IH; eapply accounted_same; [..|exact Hw]]; reflexivity.
  - (* newinst *) specialize (Hu eq_refl). destruct Hw as [A F G]. constructor; unfold refers; cbn.
    + intros j [[= <-]|Hj]; [rewrite lookup_insert; eauto|]. pose proof (A j (or_intror Hj)) as Hl.
      rewrite lookup_insert_ne; [exact Hl|]. apply G in Hl. lia.
    + intros j Hj. destruct (decide (h_next h = j)) as [<-|]; [auto|]. rewrite lookup_insert_ne in Hj by assumption.
      right. apply unstarted_refers; auto.
    + intros j Hj. destruct (decide (h_next h = j)) as [<-|]; [lia|]. rewrite lookup_insert_ne in Hj by assumption. apply G in Hj. lia.
  - (* curnone *) specialize (Hu eq_refl). destruct Hw as [A F G]. constructor; unfold refers; cbn; [|intros j Hj; right; apply unstarted_refers; auto|auto].
    intros j [?|Hj]; [discriminate|]. apply A. right. exact Hj.
  - (* newclean *) specialize (Hu eq_refl). destruct Hw as [A F G]. constructor; unfold refers; cbn.
    + intros j [?|Hj]; [discriminate|]. pose proof (A j (or_intror Hj)) as Hl. pose proof (G j Hl).
      rewrite lookup_delete_ne, lookup_insert_ne by lia. exact Hl.
    + intros j Hj. destruct (decide (h_next h = j)) as [<-|]; [rewrite lookup_delete in Hj; destruct Hj; discriminate|].
      rewrite lookup_delete_ne, lookup_insert_ne in Hj by assumption. right. apply unstarted_refers; auto.
    + intros j Hj. destruct (decide (h_next h = j)) as [<-|]; [lia|].
      rewrite lookup_delete_ne, lookup_insert_ne in Hj by assumption. apply G in Hj. lia.
  - (* delete *) eapply accounted_same; [..|exact (IH Hw)]; reflexivity.
  - (* snap *) eapply accounted_same; [..|exact (IH Hw)]; reflexivity.
  - (* bc *) assert (accounted h2) as H2 by (apply IH; eapply accounted_same; [..|exact Hw]; reflexivity).
    eapply accounted_same; [..|exact H2]; autorewrite with pops; reflexivity.
  - (* bcleak *) apply IH. eapply accounted_same; [..|exact Hw]; reflexivity.
  - (* dest *)
    assert (Hp : accounted (destPush i h)).
    { destruct Hw as [A F G]. constructor; unfold refers; cbn; [|intros j Hj; apply F in Hj; unfold refers in Hj; tauto|exact G].
      intros j Hj. apply A. unfold refers. tauto. }
    specialize (IH Hp). pose proof (eff_kept O _ _ _ _ H (accounted_wf _ Hp)) as K.
    rewrite destPop_unfold.
    set (h6 := outPop ok (metPop ok (stoPop (bigPop h2)))).
    destruct (rtPop_set h6 (h_rt h) (h_rtst h) (h_cur h) (h_ist h)) as (G1 & G2 & G3 & G4 & G5);
      [unfold h6; autorewrite with pops; apply K|unfold h6; autorewrite with pops; apply K|].
    assert (Hc6 : h_cur h6 = h_cur h2) by (unfold h6; autorewrite with pops; reflexivity).
    assert (Hi6 : h_insts h6 = h_insts h2) by (unfold h6; autorewrite with pops; reflexivity).
    rewrite Hc6, Hi6 in G5.
    eapply (accounted_pop h (destPush i h) h2 b Hw eq_refl eq_refl eq_refl eq_refl K IH); [exact G4|exact G3| |exact G5].
    autorewrite with pops. unfold h6. autorewrite with pops. reflexivity.
  - (* same *)
    assert (Hp : accounted (samePush i h)).
    { destruct Hw as [A F G]. constructor; unfold refers; cbn; [|intros j Hj; apply F in Hj; unfold refers in Hj; tauto|exact G].
      intros j Hj. apply A. unfold refers. tauto. }
    specialize (IH Hp). pose proof (eff_kept O _ _ _ _ H (accounted_wf _ Hp)) as K.
    rewrite samePop_unfold. destruct ok.
    + set (h6 := bcPop false (bigDrop (outDrop (metPop true h2)))).
      destruct (rtPop_set h6 (h_rt h) (h_rtst h) (h_cur h) (h_ist h)) as (G1 & G2 & G3 & G4 & G5);
        [unfold h6; autorewrite with pops; apply K|unfold h6; autorewrite with pops; apply K|].
      assert (Hc6 : h_cur h6 = h_cur h2) by (unfold h6; autorewrite with pops; reflexivity).
      assert (Hi6 : h_insts h6 = h_insts h2) by (unfold h6; autorewrite with pops; reflexivity).
      rewrite Hc6, Hi6 in G5.
      eapply (accounted_pop h (samePush i h) h2 b Hw eq_refl eq_refl eq_refl eq_refl K IH); [exact G4|exact G3| |exact G5].
      autorewrite with pops. unfold h6. autorewrite with pops. reflexivity.
    + set (h6 := outPop false (metPop false (bigPop h2))).
      destruct (rtPop_set h6 (h_rt h) (h_rtst h) (h_cur h) (h_ist h)) as (G1 & G2 & G3 & G4 & G5);
        [unfold h6; autorewrite with pops; apply K|unfold h6; autorewrite with pops; apply K|].
      assert (Hc6 : h_cur h6 = h_cur h2) by (unfold h6; autorewrite with pops; reflexivity).
      assert (Hi6 : h_insts h6 = h_insts h2) by (unfold h6; autorewrite with pops; reflexivity).
      rewrite Hc6, Hi6 in G5.
      eapply (accounted_pop h (samePush i h) h2 b Hw eq_refl eq_refl eq_refl eq_refl K IH); autorewrite with pops; [exact G4|exact G3| |exact G5].
      unfold h6. autorewrite with pops. reflexivity.
Qed.

Lemma heap_api n c h h' r : h_stoprot h = true -> accounted h -> vmApi n c h = (h', r) -> r <> OFuel -> accounted h'.
Proof.
  intros Hs Ha H Hr. eapply eff_accounted; [|exact Ha].
  exact (walk_vmApi O once_codes n false c (once_cmd _) h h' r (once_good h Hs) H Hr).
Qed.
Lemma heap_run n p h h' r : h_stoprot h = true -> accounted h -> vmRun n p h = (h', r) -> r <> OFuel -> accounted h'.
Proof.
  intros Hs Ha H Hr. eapply eff_accounted; [|exact Ha].
  exact (walk_vmRun O once_codes n false p (once_prog _) h h' r (once_good h Hs) H Hr).
Qed.
Lemma heap_dest n i h h' r : h_stoprot h = true -> accounted h -> vmDest n i h = (h', r) -> r <> OFuel -> accounted h'.
Proof.
  intros Hs Ha H Hr. eapply eff_accounted; [|exact Ha]. destruct (walk_vm O once_codes n) as [Hd _].
  exact (Hd false i h h' r (once_good h Hs) H Hr (once_pay i h)).
Qed.
Lemma heap_same n i h h' r : h_stoprot h = true -> accounted h -> vmSame n i h = (h', r) -> r <> OFuel -> accounted h'.
Proof.
  intros Hs Ha H Hr. eapply eff_accounted; [|exact Ha]. destruct (walk_vm O once_codes n) as [_ Hd].
  exact (Hd false i h h' r (once_good h Hs) H Hr (once_pay i h) (or_intror eq_refl)).
Qed.
(** with the frame of the caller back, the instances are the same *)
Lemma accounted_instances h h' : accounted h -> accounted h' -> h_cur h' = h_cur h -> h_ist h' = h_ist h -> same_instances h h'.
Proof.
  intros [A F G] [A' F' G'] H1 H2 j. assert (R : refers h' j <-> refers h j) by (unfold refers; rewrite H1, H2; tauto).
  split; intros H; [apply A, R, F', H|apply A', R, F, H].
Qed.

(** transactions *)
Lemma accounted_clean h2 : accounted h2 -> h_ist h2 = [] -> h_insts (clean h2) = ∅.
Proof.
  intros [A F G] Hi. apply map_empty. intros j. destruct (h_insts (clean h2) !! j) eqn:Hj; [|reflexivity]. exfalso.
  unfold clean, CleanWasmerInstance in Hj. destruct (h_cur h2) as [k|] eqn:Hc; cbn in Hj.
  - destruct (decide (k = j)) as [->|Hne]; [rewrite lookup_delete in Hj; discriminate|]. rewrite lookup_delete_ne in Hj by exact Hne.
    destruct (F j (mk_is_Some _ _ Hj)) as [Hr|Hr]; [congruence|]. rewrite Hi in Hr. destruct Hr.
  - destruct (F j (mk_is_Some _ _ Hj)) as [Hr|Hr]; [congruence|]. rewrite Hi in Hr. destruct Hr.
Qed.
Lemma idle_accounted h : h_insts h = ∅ -> h_cur h = None -> h_ist h = [] -> accounted h.
Proof.
  intros H1 H2 H3. constructor; unfold refers; rewrite ?H1, ?H2, ?H3.
  - intros j [?|[]]; discriminate.
  - intros j [? Hj]. rewrite lookup_empty in Hj. discriminate.
  - intros j [? Hj]. rewrite lookup_empty in Hj. discriminate.
Qed.
Lemma idle_unstarted h : no_stacks h -> unstarted O h.
Proof. intros N _. rewrite (ns_running _ N), (ns_instances _ N). reflexivity. Qed.
Lemma init0_heap h : h_cur (init0 h) = h_cur h /\ h_ist (init0 h) = h_ist h /\ h_insts (init0 h) = h_insts h /\ h_next (init0 h) = h_next h.
Proof. Transparent init0. repeat split. Opaque init0. Qed.
Lemma idle_init0 h : no_stacks h -> h_insts h = ∅ -> accounted (init0 h) /\ h_ist (init0 h) = [].
Proof.
  intros N H0. destruct (init0_heap h) as (I1 & I2 & I3 & I4). rewrite (ns_running _ N) in I1. rewrite (ns_instances _ N) in I2.
  split; [apply idle_accounted; congruence|exact I2].
Qed.
Lemma heap_call n i h h' r : h_stoprot h = true -> no_stacks h -> h_insts h = ∅ -> RunSmartContractCall n i h = (h', r) -> r <> OFuel ->
  h_insts h' = ∅.
Proof.
  intros Hs N H0 H Hr.
  destruct (call_top0 O once_codes n i h h' r (once_good h Hs) (idle_unstarted h N) H Hr) as (h2 & He & ->).
  destruct (idle_init0 h N H0) as [A I]. revert A I He. generalize (init0 h). intros h0 A I He.
  assert (A' : accounted (start (call_frame i) (met0 (ci_vm i)) (ci_rcpt i) (vi_value (ci_vm i)) h0)) by (apply (accounted_same h0); try reflexivity; exact A).
  apply accounted_clean; [exact (eff_accounted _ _ _ _ He A')|].
  rewrite (k_ist _ _ _ _ _ (eff_kept O _ _ _ _ He (accounted_wf _ A'))). exact I.
Qed.
Lemma heap_create n i h h' r : h_stoprot h = true -> no_stacks h -> h_insts h = ∅ -> RunSmartContractCreate n i h = (h', r) -> r <> OFuel ->
  h_insts h' = ∅.
Proof.
  intros Hs N H0 H Hr.
  destruct (create_top0 O once_codes n i h h' r (once_good h Hs) (idle_unstarted h N) H Hr) as (h1 & b1 & He1 & Hc).
  destruct (idle_init0 h N H0) as [A I]. revert A I He1 Hc. generalize (init0 h). intros h0 A I He1 Hc.
  pose proof (eff_accounted _ _ _ _ He1 A) as A1. pose proof (k_ist _ _ _ _ _ (eff_kept O _ _ _ _ He1 (accounted_wf _ A))) as I1.
  destruct Hc as [[-> _]|(a & h2 & -> & He2 & -> & _)]; [apply accounted_clean; [exact A1|congruence]|].
  assert (A' : accounted (start (create_frame i a) (met0 (cc_vm i)) a (vi_value (cc_vm i)) h1)) by (apply (accounted_same h1); try reflexivity; exact A1).
  apply accounted_clean; [exact (eff_accounted _ _ _ _ He2 A')|].
  rewrite (k_ist _ _ _ _ _ (eff_kept O _ _ _ _ He2 (accounted_wf _ A'))). change (h_ist h1 = []). congruence.
Qed.
Lemma heap_history h : history h -> h_insts h = ∅.
Proof.
  intros H. cut (h_stoprot h = true /\ no_stacks h /\ h_insts h = ∅); [tauto|].
  induction H as [h (N & S & I)|n i h h' r _ (S & N & I) H Hr|n i h h' r _ (S & N & I) H Hr|w h _ (S & [] & I)].
  - auto.
  - destruct (call_end n i h h' r S N H Hr) as [[S' _] N']. split; [exact S'|]. split; [exact N'|]. exact (heap_call n i h h' r S N I H Hr).
  - destruct (create_end n i h h' r S N H Hr) as [[S' _] N']. split; [exact S'|]. split; [exact N'|]. exact (heap_create n i h h' r S N I H Hr).
  - split; [exact S|]. split; [constructor; assumption|exact I].
Qed.
End heap.
