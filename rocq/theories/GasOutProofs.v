(** Gas in outputs (C30). *)
From Verif Require Import VmModel WpProofs EffProofs EffFrameProofs EffWalkProofs EffTopProofs CallSpec KeepProofs CallProofs
  TxProofs GasSpec GasProofs.
From Verif Require Import MathProofs.
From Coq Require Import ZifyBool ZifyNat ZifyN.

(** * Saturating sums *)
Lemma add_sat a b : 0 <= a <= max_u64 -> 0 <= b -> AddUint64 a (Z.min max_u64 b) = Z.min max_u64 (a + b).
Proof.
  intros Ha Hb. rewrite add_u64_sat by (unfold in_u64, max_u64 in *; lia). unfold max_u64 in *. lia.
Qed.
Lemma add_sat1 a b : 0 <= a -> 0 <= b -> AddUint64 (Z.min max_u64 a) (Z.min max_u64 b) = Z.min max_u64 (a + b).
Proof. intros Ha Hb. rewrite add_sat by (unfold max_u64; lia). unfold max_u64. lia. Qed.
Lemma add_big a b : 0 <= a -> max_u64 < b -> AddUint64 (Z.min max_u64 a) b = max_u64.
Proof.
  intros Ha Hb. unfold AddUint64, AddUint64WithErr. cbv zeta.
  assert (u64 (Z.min max_u64 a + b) < 2 ^ 64).
  { unfold u64, u64_mod. apply Z.mod_pos_bound. lia. }
  rewrite (proj2 (Z.leb_gt b _)) by (unfold max_u64 in *; lia). rewrite andb_false_r. reflexivity.
Qed.
Lemma add_sat2 a b : 0 <= a -> 0 <= b -> AddUint64 (Z.min max_u64 a) b = Z.min max_u64 (a + b).
Proof.
  intros Ha Hb. destruct (Z.le_gt_cases b max_u64).
  - rewrite add_u64_sat by (unfold in_u64, max_u64 in *; lia). unfold max_u64 in *. lia.
  - rewrite add_big by assumption. unfold max_u64 in *. lia.
Qed.
Lemma transfers_sat x : Forall (fun t => 0 <= ot_gaslimit t /\ 0 <= ot_gaslocked t) (oa_transfers x) ->
  0 <= transfers_gas x /\ getGasTransferredByAccount x = Z.min max_u64 (transfers_gas x).
Proof.
  unfold transfers_gas, getGasTransferredByAccount. intros H.
  assert (G : forall l g, Forall (fun t => 0 <= ot_gaslimit t /\ 0 <= ot_gaslocked t) l -> 0 <= g ->
    0 <= fold_right Z.add 0 (map (fun t => ot_gaslimit t + ot_gaslocked t) l) /\
    fold_left (fun g t => AddUint64 (AddUint64 g (ot_gaslimit t)) (ot_gaslocked t)) l (Z.min max_u64 g)
      = Z.min max_u64 (g + fold_right Z.add 0 (map (fun t => ot_gaslimit t + ot_gaslocked t) l))).
  { induction l as [|t l IH]; intros g Hl Hg; cbn [fold_left fold_right map].
    - split; [lia|f_equal; lia].
    - apply Forall_cons in Hl as [[H1 H2] Hl]. rewrite !add_sat2 by lia.
      destruct (IH (g + ot_gaslimit t + ot_gaslocked t) Hl ltac:(lia)) as [I1 ->]. split; [lia|f_equal; lia]. }
  destruct (G (oa_transfers x) 0 H ltac:(lia)) as [G1 G2]. split; [exact G1|]. change (Z.min max_u64 0) with 0 in G2. exact G2.
Qed.
Definition typed_accounts (m : gmap bytes out_account) : Prop :=
  forall a x, m !! a = Some x -> 0 <= oa_gasused x /\ Forall (fun t => 0 <= ot_gaslimit t /\ 0 <= ot_gaslocked t) (oa_transfers x).
Lemma accounts_gas_insert m a x : m !! a = None -> accounts_gas (<[a := x]> m) = account_gas x + accounts_gas m.
Proof.
  intros Hn. unfold accounts_gas. apply (map_fold_insert_L (fun _ x g => account_gas x + g)); [|exact Hn]. intros. lia.
Qed.
Lemma total_sat m : typed_accounts m -> 0 <= accounts_gas m /\ getCurrentTotalUsedGas m = Z.min max_u64 (accounts_gas m).
Proof.
  unfold getCurrentTotalUsedGas.
  apply (map_fold_ind (fun r m => typed_accounts m -> 0 <= accounts_gas m /\ r = Z.min max_u64 (accounts_gas m))).
  - intros _. split; [reflexivity|reflexivity].
  - intros a x m' r Hn IH Ht. rewrite (accounts_gas_insert m' a x Hn).
    destruct (Ht a x (lookup_insert _ _ _)) as [H1 H2]. destruct (transfers_sat x H2) as [T1 T2].
    destruct IH as [I1 ->].
    { intros b y Hb. apply (Ht b y). destruct (decide (a = b)) as [<-|Hab]; [congruence|]. rewrite lookup_insert_ne by exact Hab. exact Hb. }
    rewrite T2. rewrite add_sat2 by lia. rewrite add_sat1 by lia. unfold account_gas. split; [lia|f_equal; lia].
Qed.

Section sums.
Context `{E : env}.
(** the check of the sum (metering.go:206-221) *)
Definition sums (m : M vm_output) : Prop := forall h h' o, m h = (h', OOk o) -> error_output o \/
  o = h_out h' /\ (e_v2 E = true -> AddUint64 (getCurrentTotalUsedGas (o_accounts o)) (o_gasrem o) = mt_provided (h_met h')).
Lemma sums_bind {A} (m : M A) k : (forall a, sums (k a)) -> sums (bind m k).
Proof. intros Hk h h' o H. unfold bind in H. destruct (m h) as [h1 []]; try discriminate. exact (Hk _ _ _ _ H). Qed.
Lemma sums_CreateErr e : sums (CreateVMOutputInCaseOfError e).
Proof.
  intros h h' o H. left. destruct (outs_CreateErr e h h' o H) as [->|He]; [|exact He].
  unfold CreateVMOutputInCaseOfError in H. rewrite bind_gets in H. cbv zeta in H.
  unfold bind in H. destruct (UpdateGasStateOnFailure h) as [h1 []]; try discriminate. injection H as <- Ho. rewrite <-Ho. eexists _, _. reflexivity.
Qed.
Lemma success_sum h h' u : UpdateGasStateOnSuccess h = (h', OOk u) -> e_v2 E = true ->
  AddUint64 (getCurrentTotalUsedGas (o_accounts (h_out h'))) (o_gasrem (h_out h')) = mt_provided (h_met h').
Proof.
  unfold UpdateGasStateOnSuccess. intros H Hv. unfold bind at 1 in H. destruct (updateSCGasUsed h) as [h1 [?|?| |]]; try discriminate.
  unfold bind at 1 in H. destruct (setGasUsedToOutputAccounts h1) as [h2 [?|?| |]]; try discriminate.
  unfold checkGas in H. rewrite Hv in H. cbn [negb] in H. rewrite bind_gets in H.
  destruct (negb _) eqn:Hb in H; [discriminate|]. injection H as <- <-. unfold accounts in Hb. lia.
Qed.
Lemma sums_GetVMOutput : sums GetVMOutput.
Proof.
  unfold GetVMOutput. apply sums_bind; intros _. apply sums_bind; intros g. apply sums_bind; intros _.
  intros h h' o H. unfold bind, try in H. destruct (UpdateGasStateOnSuccess h) as [h1 [u|e| |]] eqn:Hu; try discriminate.
  - injection H as <- <-. right. split; [reflexivity|]. exact (success_sum h h1 u Hu).
  - exact (sums_CreateErr e h1 h' o H).
Qed.
Lemma clean_met h : h_met (clean h) = h_met h.
Proof. unfold clean, CleanWasmerInstance. destruct (h_cur h); reflexivity. Qed.
Lemma sums_clean : sums (o <- GetVMOutput ;; CleanWasmerInstance ;;; ret o).
Proof.
  intros h h' o H. unfold bind at 1 in H. destruct (GetVMOutput h) as [h1 []] eqn:Hg; try discriminate.
  rewrite (bind_ok _ _ _ _ _ (clean_ok h1)) in H. injection H as <- <-. rewrite clean_out, clean_met. exact (sums_GetVMOutput _ _ _ Hg).
Qed.
Lemma sums_orError m : sums m -> sums (orErrorOutput m).
Proof.
  intros Hm h h' o H. unfold orErrorOutput, bind, try in H. destruct (m h) as [h1 []] eqn:Hmh; try discriminate.
  - injection H as <- <-. exact (Hm _ _ _ Hmh).
  - exact (sums_CreateErr _ _ _ _ H).
Qed.
Lemma sums_cleaning m : sums m -> sums (cleaning m).
Proof.
  intros Hm h h' o H. unfold cleaning, deferring in H. destruct (m h) as [h1 []] eqn:Hmh; try discriminate.
  - rewrite (bind_ok _ _ _ _ _ (clean_ok h1)) in H. injection H as <- <-. rewrite clean_out, clean_met. exact (Hm _ _ _ Hmh).
  - rewrite (bind_ok _ _ _ _ _ (clean_ok h1)) in H. discriminate.
  - rewrite clean_ok in H. discriminate.
Qed.
Lemma sums_deploy run rd d : sums (performCodeDeployment run rd d).
Proof. unfold performCodeDeployment. apply sums_bind; intros _. apply sums_clean. Qed.
Lemma call_sums n i : sums (RunSmartContractCall n i).
Proof.
  unfold RunSmartContractCall, RunSmartContractCallIn.
  destruct (beq _ _).
  - unfold doRunSmartContractUpgrade. apply sums_bind; intros _. apply sums_cleaning, sums_orError.
    repeat (apply sums_bind; intros ?). destruct a3 as [code meta]. apply sums_deploy.
  - unfold doRunSmartContractCall. apply sums_bind; intros _. apply sums_cleaning, sums_orError.
    do 9 (apply sums_bind; intros ?). apply sums_bind; intros ?. apply sums_clean.
Qed.
Lemma create_sums n i : sums (RunSmartContractCreate n i).
Proof.
  rewrite create_unfold.
  unfold doRunSmartContractCreate. apply sums_bind; intros _. apply sums_cleaning, sums_orError. cbv zeta.
  do 5 (apply sums_bind; intros ?). apply sums_deploy.
Qed.

Lemma sum_exact o p : gas_typed o -> p < max_u64 -> AddUint64 (getCurrentTotalUsedGas (o_accounts o)) (o_gasrem o) = p ->
  o_gasrem o + accounts_gas (o_accounts o) = p.
Proof.
  intros [Hg Ht] Hp H. destruct (total_sat (o_accounts o) Ht) as [H1 H2]. rewrite H2, add_sat2 in H by lia. lia.
Qed.
Lemma met0_provided v : gas_input v -> mt_provided (met0 v) = handed v.
Proof.
  intros (H1 & H2 & H3). unfold met0, unlockGasIfAsyncCallback, handed in *. case_bool_decide as Hc.
  - rewrite Hc in *. cbn. rewrite add_u64_sat by (unfold in_u64, max_u64; lia). unfold max_u64. lia.
  - cbn. destruct (vi_ctype v); try lia; contradiction.
Qed.
Lemma call_sum n i h h' o : h_stoprot h = true -> no_stacks h -> e_v2 E = true -> gas_input (ci_vm i) -> handed (ci_vm i) < max_u64 ->
  RunSmartContractCall n i h = (h', OOk o) -> error_output o \/
  (gas_typed o -> o_gasrem o + accounts_gas (o_accounts o) = handed (ci_vm i)).
Proof.
  intros Hs N Hv Hi Hm H. destruct (call_sums n i h h' o H) as [He|[Ho Hsum]]; [left; exact He|right]. intros Ht.
  apply (sum_exact o); [exact Ht|exact Hm|]. rewrite (Hsum Hv).
  destruct (call_top any_opts any_codes n i h h' _ (any_good h Hs) H ltac:(discriminate)) as (h2 & He & ->).
  rewrite clean_met. destruct (init0_ok h) as (I0 & I1 & I2 & I3 & I4 & I5 & I6 & I7 & I8). rewrite (ns_running _ N) in I7.
  revert He I7. generalize (init0 h). intros h0 He I7. apply eff_gas in He.
  - rewrite (g_provided _ _ _ _ He). exact (met0_provided _ Hi).
  - intros j Hj. change (h_cur (start (call_frame i) (met0 (ci_vm i)) (ci_rcpt i) (vi_value (ci_vm i)) h0)) with (h_cur h0) in Hj.
    rewrite I7 in Hj. discriminate.
Qed.
Lemma create_sum n i h h' o : h_stoprot h = true -> no_stacks h -> e_v2 E = true -> gas_input (cc_vm i) -> handed (cc_vm i) < max_u64 ->
  RunSmartContractCreate n i h = (h', OOk o) -> error_output o \/
  (gas_typed o -> o_gasrem o + accounts_gas (o_accounts o) = handed (cc_vm i)).
Proof.
  intros Hs N Hv Hi Hm H. destruct (create_sums n i h h' o H) as [He|[Ho Hsum]]; [left; exact He|].
  destruct (create_top any_opts any_codes n i h h' _ (any_good h Hs) H ltac:(discriminate)) as (h1 & b1 & He1 & Hc).
  destruct Hc as [(_ & _ & Hc)|(a & h2 & -> & He & -> & _)].
  - left. destruct (Hc o eq_refl) as (e & h4 & h5 & H5). destruct (sums_CreateErr e h4 h5 o H5) as [Q|Q]; [exact Q|].
    destruct (outs_CreateErr e h4 h5 o H5) as [Q1|Q1]; [|exact Q1].
    unfold CreateVMOutputInCaseOfError in H5. rewrite bind_gets in H5. cbv zeta in H5.
    unfold bind in H5. destruct (UpdateGasStateOnFailure h4) as [h6 []]; try discriminate. injection H5 as _ <-. eexists _, _. reflexivity.
  - right. intros Ht. apply (sum_exact o); [exact Ht|exact Hm|]. rewrite (Hsum Hv), clean_met.
    destruct (init0_ok h) as (I0 & I1 & I2 & I3 & I4 & I5 & I6 & I7 & I8). rewrite (ns_running _ N) in I7.
    assert (Hw : wf (init0 h)) by (intros j Hj; rewrite I7 in Hj; discriminate).
    pose proof (kept_wf _ _ _ _ _ (eff_kept any_opts _ _ _ _ He1 Hw) Hw) as Hw1. clear He1 Hw I0 I1 I2 I3 I4 I5 I6 I7 I8 H.
    apply eff_gas in He; [|exact Hw1]. rewrite (g_provided _ _ _ _ He). exact (met0_provided _ Hi).
Qed.
End sums.
