(** Everything the model does is an [eff] (EffProofs). *)
From Verif Require Import VmModel WpProofs EffProofs EffFrameProofs KeepsProofs.

Section walk.
Context `{E : env} (O : opts).
Hypothesis codes_ok : forall code m, e_compile E code = Some m -> mod_ok O m.

(** [l]: protection of the VM's keys is on; level *)
Definition walk {A} (l : bool * bool) (m : M A) : Prop :=
  forall h h' r, good O (fst l) h -> m h = (h', r) -> r <> OFuel -> eff O (snd l) h h' (pan r).

(** * The monad *)
Lemma walk_ret {A} l (a : A) : walk l (ret a).
Proof. intros h h' r _ [= <- <-] _. apply E_refl. Qed.
Lemma walk_fail {A} l e : walk (A := A) l (fail e).
Proof. intros h h' r _ [= <- <-] _. apply E_refl. Qed.
Lemma walk_panic {A} l : walk (A := A) l panic.
Proof. intros h h' r _ [= <- <-] _. apply E_refl. Qed.
Lemma walk_nofuel {A} l : walk (A := A) l nofuel.
Proof. intros h h' r _ [= <- <-] H. congruence. Qed.
Lemma walk_gets {A} l (f : host -> A) : walk l (gets f).
Proof. intros h h' r _ [= <- <-] _. apply E_refl. Qed.
Lemma walk_lift {A} l (x : res A) : walk l (lift x).
Proof. intros h h' r _ H _. unfold lift in H. destruct x; injection H as <- <-; apply E_refl. Qed.
Lemma walk_fail_if l b e : walk l (fail_if b e).
Proof. destruct b; [apply walk_fail|apply walk_ret]. Qed.
Lemma walk_bind {A B} l (m : M A) (k : A -> M B) : walk l m -> (forall a, walk l (k a)) -> walk l (bind m k).
Proof.
  intros Hm Hk h h' r Hg H Hr. unfold bind in H. destruct (m h) as [h1 o] eqn:Hmh.
  assert (o <> OFuel) by (intros ->; congruence).
  pose proof (Hm h h1 o Hg Hmh H0) as H1. destruct o as [a|e| |].
  - eapply eff_seq; [exact H1|]. eapply Hk; [|exact H|exact Hr]. eapply eff_good; eauto.
  - injection H as <- <-. exact H1.
  - injection H as <- <-. exact H1.
  - congruence.
Qed.
Lemma walk_try {A} l (m : M A) : walk l m -> walk l (try m).
Proof.
  intros Hm h h' r Hg H Hr. unfold try in H. destruct (m h) as [h1 o] eqn:Hmh.
  assert (o <> OFuel) by (intros ->; congruence).
  pose proof (Hm h h1 o Hg Hmh H0) as H1. destruct o; injection H as <- <-; exact H1.
Qed.
Lemma walk_modify l f : (forall h, eff O (snd l) h (f h) false) -> walk l (modify f).
Proof. intros H h h' r _ [= <- <-] _. apply H. Qed.
Lemma walk_lvl {A} l (m : M A) : walk (fst l, false) m -> walk l m.
Proof. intros H h h' r Hg Hm Hr. eapply eff_lift, H; eauto. Qed.

Hint Resolve walk_ret walk_fail walk_panic walk_gets walk_lift walk_fail_if : walk.

Ltac wk :=
  repeat match goal with
  | |- walk _ (bind _ _) => apply walk_bind; [|intros ?]
  | |- walk _ (try _) => apply walk_try
  | |- forall _, walk _ _ => intros ?
  | |- walk _ (match ?x with _ => _ end) => destruct x
  | |- walk _ (let _ := _ in _) => cbv zeta
  | _ => solve [eauto with walk]
  end.

(** * The running instance *)
Lemma walk_cur_inst l : walk l cur_inst.
Proof.
  intros h h' r _ H _. unfold cur_inst in H. repeat case_match; injection H as <- <-; apply E_refl.
Qed.
Lemma walk_upd_inst l f : (forall x, in_mod (f x) = in_mod x /\ in_limit (f x) = in_limit x /\ (0 <= in_points x -> 0 <= in_points (f x))) ->
  walk l (upd_inst f).
Proof.
  intros Hf h h' r _ H _. unfold upd_inst, bind, cur_inst in H.
  destruct (h_cur h) as [i|] eqn:Hc; [|injection H as <- <-; apply E_refl].
  destruct (h_insts h !! i) as [x|] eqn:Hi; [|injection H as <- <-; apply E_refl].
  injection H as <- <-. apply (E_inst O _ h i x (f x)); [split; auto|apply Hf|apply Hf|apply Hf].
Qed.
Hint Resolve walk_cur_inst : walk.
Lemma AddUint64_nonneg a b : 0 <= AddUint64 a b.
Proof.
  unfold AddUint64, AddUint64WithErr. destruct (_ && _); [|unfold max_u64; lia]. unfold u64. apply Z.mod_pos_bound. reflexivity.
Qed.
Lemma walk_SetPointsUsed l p : 0 <= p -> walk l (SetPointsUsed p).
Proof.
  intros Hp. apply walk_upd_inst. intros x. split; [reflexivity|]. split; [reflexivity|]. intros _. cbn. destruct (_ <? _); [unfold max_i64; lia|exact Hp].
Qed.
Lemma walk_SetBreak l v : walk l (SetRuntimeBreakpointValue v).
Proof. apply walk_upd_inst. intros x. repeat split; exact (fun H => H). Qed.
Hint Resolve walk_SetBreak : walk.
Lemma walk_GetBreak l : walk l GetRuntimeBreakpointValue.
Proof. unfold GetRuntimeBreakpointValue. wk. Qed.
Lemma walk_UseGas l g : walk l (UseGas g).
Proof. unfold UseGas, GetPointsUsed. apply walk_bind; [wk|]. intros p. apply walk_SetPointsUsed, AddUint64_nonneg. Qed.
Lemma walk_RestoreGas l g : walk l (RestoreGas g).
Proof.
  unfold RestoreGas, GetPointsUsed. apply walk_bind; [wk|]. intros p. destruct (_ <=? _) eqn:Hg; [|wk]. apply walk_SetPointsUsed.
  unfold SubUint64. destruct (_ <? _); [lia|]. unfold u64. apply Z.mod_pos_bound. reflexivity.
Qed.
Lemma walk_GasLeft l : walk l GasLeft.
Proof. apply walk_gets. Qed.
Hint Resolve walk_GetBreak walk_UseGas walk_RestoreGas walk_GasLeft : walk.

(** * Outputs *)
Lemma walk_out l f :
  (forall o, o_accounts (f o) = o_accounts o) ->
  (forall o, exists t, o_logs (f o) = o_logs o ++ t) ->
  (forall o, exists t t', o_retdata (f o) = t ++ o_retdata o ++ t') ->
  walk l (modify (fun h => set_h_out (f (h_out h)) h)).
Proof. intros H1 H2 H3. apply walk_modify. intros h. apply E_out; [apply H1|apply H2|apply H3]. Qed.
Ltac out_step := apply walk_out; intros o; try reflexivity;
  try (exists []; rewrite app_nil_r; reflexivity); try (exists [], []; rewrite app_nil_r; reflexivity).
Lemma walk_SetRefund l g : walk l (SetRefund g).
Proof. apply (walk_out l (fun o => set_o_refund (Some (i64 g)) o)); intros o; [reflexivity|exists []|exists [], []]; cbn; rewrite app_nil_r; reflexivity. Qed.
Lemma walk_GetRefund l : walk l GetRefund.
Proof. unfold GetRefund. wk. Qed.
Lemma walk_SetReturnCode l c : walk l (SetReturnCode c).
Proof. apply (walk_out l (fun o => set_o_code c o)); intros o; [reflexivity|exists []|exists [], []]; cbn; rewrite app_nil_r; reflexivity. Qed.
Lemma walk_SetReturnMessage l c : walk l (SetReturnMessage c).
Proof. apply (walk_out l (fun o => set_o_msg c o)); intros o; [reflexivity|exists []|exists [], []]; cbn; rewrite app_nil_r; reflexivity. Qed.
Lemma walk_Finish l d : walk l (Finish d).
Proof. apply (walk_out l (fun o => set_o_retdata (o_retdata o ++ [d]) o)); intros o; [reflexivity|exists []|exists [], [d]]; cbn; rewrite ?app_nil_r; reflexivity. Qed.
Lemma walk_PrependFinish l d : walk l (PrependFinish d).
Proof. apply (walk_out l (fun o => set_o_retdata (d :: o_retdata o) o)); intros o; [reflexivity|exists []|exists [d], []]; cbn; rewrite ?app_nil_r; reflexivity. Qed.
Lemma walk_logs l e : walk l (modify (fun h => set_h_out (set_o_logs (o_logs (h_out h) ++ e) (h_out h)) h)).
Proof. apply (walk_out l (fun o => set_o_logs (o_logs o ++ e) o)); intros o; [reflexivity|exists e|exists [], []]; cbn; rewrite ?app_nil_r; reflexivity. Qed.
Lemma walk_gasrem l g : walk l (modify (fun h => set_h_out (set_o_gasrem g (h_out h)) h)).
Proof. apply (walk_out l (fun o => set_o_gasrem g o)); intros o; [reflexivity|exists []|exists [], []]; cbn; rewrite ?app_nil_r; reflexivity. Qed.
Hint Resolve walk_SetRefund walk_GetRefund walk_SetReturnCode walk_SetReturnMessage walk_Finish walk_PrependFinish
  walk_logs walk_gasrem : walk.
Lemma walk_WriteLog l a t d : walk l (WriteLog a t d).
Proof. unfold WriteLog. wk. Qed.
Lemma walk_FailExecution l e : walk l (FailExecution e).
Proof. unfold FailExecution. wk. Qed.
Lemma walk_SignalUserError l m : walk l (SignalUserError m).
Proof. unfold SignalUserError. wk. Qed.
Lemma walk_FreeGas l g : walk l (FreeGas g).
Proof. unfold FreeGas. wk. Qed.
Hint Resolve walk_WriteLog walk_FailExecution walk_SignalUserError walk_FreeGas : walk.
Lemma walk_WithFault l e : walk l (WithFault e).
Proof. unfold WithFault. wk. Qed.
Hint Resolve walk_WithFault : walk.

(** ** Accounts *)
Lemma acc_le_refl x : acc_le x x.
Proof. repeat split. exists []. rewrite app_nil_r. reflexivity. Qed.

(** the state differs in the accounts only *)
Definition only_accs (h h' : host) : Prop := exists m, h' = set_accounts m h.
Lemma only_accs_refl h : only_accs h h.
Proof. exists (accounts h). unfold set_accounts, accounts. destruct h as [? ? o]; destruct o. reflexivity. Qed.
Lemma only_accs_trans h1 h2 h3 : only_accs h1 h2 -> only_accs h2 h3 -> only_accs h1 h3.
Proof. intros [m ->] [m' ->]. exists m'. reflexivity. Qed.

Lemma GetOutputAccount_spec a h :
  exists h1 x isNew, GetOutputAccount a h = (h1, OOk (x, isNew)) /\ eff O false h h1 false /\ only_accs h h1 /\
    accounts h1 !! a = Some x /\ (forall a' y, accounts h !! a' = Some y -> accounts h1 !! a' = Some y) /\
    (isNew = true -> x = NewVMOutputAccount) /\ (isNew = false -> h1 = h).
Proof.
  unfold GetOutputAccount. destruct (accounts h !! a) as [x|] eqn:Ha.
  - exists h, x, false. repeat split; auto; [apply E_refl|apply only_accs_refl|discriminate].
  - eexists _, _, _. split; [reflexivity|]. split; [apply E_new, Ha|]. split; [eexists; reflexivity|].
    split; [cbn; apply lookup_insert|]. split; [|split; congruence].
    intros a' y Hy. cbn. rewrite lookup_insert_ne by congruence. exact Hy.
Qed.
Lemma walk_GetOutputAccount l a : walk l (GetOutputAccount a).
Proof.
  apply walk_lvl. intros h h' r _ H _.
  destruct (GetOutputAccount_spec a h) as (h1 & x & n & Heq & Heff & _). rewrite Heq in H.
  injection H as <- <-. exact Heff.
Qed.
Lemma eff_alter l h a f : (forall x, acc_le x (f x)) -> eff O l h (set_accounts (alter f a (accounts h)) h) false.
Proof.
  intros Hf. apply E_accs. intros a'. destruct (decide (a' = a)) as [->|Hne].
  - rewrite lookup_alter. destruct (accounts h !! a); cbn; auto.
  - rewrite lookup_alter_ne by congruence. destruct (accounts h !! a'); auto using acc_le_refl.
Qed.
Lemma walk_upd_account l a f : (forall x, acc_le x (f x)) -> walk l (upd_account a f).
Proof. intros Hf. apply walk_modify. intros h. apply eff_alter, Hf. Qed.
Ltac accle := intros ?x; unfold acc_le; cbn; repeat split; try (exists []; rewrite app_nil_r; reflexivity); eauto.
Lemma walk_upd_nonce l a n : walk l (upd_account a (set_oa_nonce n)).
Proof. apply walk_upd_account. accle. Qed.
Lemma walk_upd_code l a n : walk l (upd_account a (set_oa_code n)).
Proof. apply walk_upd_account. accle. Qed.
Lemma walk_upd_transfer l a t : walk l (upd_account a (fun x => set_oa_transfers (oa_transfers x ++ [t]) x)).
Proof. apply walk_upd_account. accle. Qed.
Lemma walk_upd_gasused l a g : walk l (upd_account a (fun x => set_oa_gasused (AddUint64 (oa_gasused x) g) x)).
Proof. apply walk_upd_account. accle. Qed.
Hint Resolve walk_GetOutputAccount walk_upd_nonce walk_upd_code walk_upd_transfer walk_upd_gasused : walk.

Lemma walk_GetNonce l a : walk l (GetNonce a).
Proof. unfold GetNonce. wk. Qed.
Hint Resolve walk_GetNonce : walk.
Lemma walk_IncreaseNonce l a : walk l (IncreaseNonce a).
Proof. unfold IncreaseNonce. wk. Qed.
Lemma walk_NewAddress l a : walk l (NewAddress a).
Proof. unfold NewAddress. wk. Qed.
Lemma NewAddress_new c h h' a : NewAddress c h = (h', OOk a) -> exists c' n, e_newAddress E c' n = ROk a.
Proof.
  unfold NewAddress. unfold bind. destruct (GetNonce c h) as [h1 [n| | |]]; try discriminate.
  cbv zeta. destruct (e_newAddress E c _) eqn:Ha; intros [=]; subst; eauto.
Qed.
Lemma walk_GetCode l a : walk l (GetCode a).
Proof. unfold GetCode. wk. Qed.
Hint Resolve walk_IncreaseNonce walk_NewAddress walk_GetCode : walk.
Lemma walk_DeployCode l d : walk l (DeployCode d).
Proof.
  unfold DeployCode. wk.
  - apply walk_upd_account. accle.
  - apply walk_modify. intros h. apply E_codeupd.
Qed.
Hint Resolve walk_DeployCode : walk.
Lemma delete_eff l a h h2 h' r : op_create O = true -> (exists c n, e_newAddress E c n = ROk a) ->
  r_ro (h_rt h) = false -> eff O l h h2 false -> DeleteOutputAccount a h2 = (h', r) -> eff O l h h' (pan r).
Proof.
  intros Ho Ha Hro He [= <- <-]. eapply eff_seq; [apply (E_delete O _ h h2 a Ho Ha Hro He)|].
  apply (E_codeupd O _ (set_h_trace _ (set_accounts (delete a (accounts h2)) h2))).
Qed.

Lemma GetBalanceBigInt_spec a h :
  exists h1 b x, GetBalanceBigInt a h = (h1, OOk b) /\ eff O false h h1 false /\ only_accs h h1 /\
    accounts h1 !! a = Some x /\ (forall a', is_Some (accounts h !! a') -> is_Some (accounts h1 !! a')) /\
    (b = 0 \/ exists b0, oa_balance x = Some b0 /\ b = b0 + oa_delta x).
Proof.
  unfold GetBalanceBigInt.
  destruct (GetOutputAccount_spec a h) as (h1 & x & isNew & Heq & Heff & Ho & Hx & Hk & Hn & _).
  assert (Hs : forall a', is_Some (accounts h !! a') -> is_Some (accounts h1 !! a')).
  { intros a' [y Hy]. exists y. auto. }
  assert (Hset : forall u, w_accounts (h_world h1) !! a = Some u -> oa_balance x = None ->
    eff O false h (set_accounts (alter (set_oa_balance (Some (ua_balance u))) a (accounts h1)) h1) false /\
    only_accs h (set_accounts (alter (set_oa_balance (Some (ua_balance u))) a (accounts h1)) h1) /\
    accounts (set_accounts (alter (set_oa_balance (Some (ua_balance u))) a (accounts h1)) h1) !! a =
      Some (set_oa_balance (Some (ua_balance u)) x) /\
    (forall a', is_Some (accounts h !! a') ->
       is_Some (accounts (set_accounts (alter (set_oa_balance (Some (ua_balance u))) a (accounts h1)) h1) !! a'))).
  { intros u Hu Hb.
    assert (Heq' : alter (set_oa_balance (Some (ua_balance u))) a (accounts h1) =
                   <[a := set_oa_balance (Some (ua_balance u)) x]> (accounts h1)).
    { apply map_eq. intros a'. destruct (decide (a' = a)) as [->|].
      - rewrite lookup_alter, lookup_insert, Hx. reflexivity.
      - rewrite lookup_alter_ne, lookup_insert_ne by congruence. reflexivity. }
    rewrite Heq'. repeat split.
    - eapply eff_seq; [exact Heff|]. apply E_balance; auto.
    - eapply only_accs_trans; [exact Ho|]. eexists; reflexivity.
    - cbn. apply lookup_insert.
    - intros a' Ha'. cbn. destruct (decide (a' = a)) as [->|].
      + rewrite lookup_insert. eauto.
      + rewrite lookup_insert_ne by congruence. auto. }
  rewrite (bind_ok _ _ _ _ _ Heq). rewrite bind_gets.
  destruct isNew; cbn [negb].
  - rewrite (Hn eq_refl) in *. destruct (w_accounts (h_world h1) !! a) as [u|] eqn:Hu.
    + destruct (Hset u eq_refl eq_refl) as (R1 & R2 & R3 & R4).
      eexists _, _, _. split; [reflexivity|]. repeat split; eauto.
      right. eexists; split; [reflexivity|]. cbn. lia.
    + eexists _, _, _. split; [reflexivity|]. repeat split; eauto.
  - destruct (oa_balance x) as [b|] eqn:Hb.
    + eexists _, _, _. split; [reflexivity|]. repeat split; eauto.
    + destruct (w_accounts (h_world h1) !! a) as [u|] eqn:Hu.
      * destruct (Hset u eq_refl eq_refl) as (R1 & R2 & R3 & R4).
        eexists _, _, _. split; [reflexivity|]. repeat split; eauto.
      * eexists _, _, _. split; [reflexivity|]. repeat split; eauto.
Qed.
Lemma walk_GetBalanceBigInt l a : walk l (GetBalanceBigInt a).
Proof.
  apply walk_lvl. intros h h' r _ H _.
  destruct (GetBalanceBigInt_spec a h) as (h1 & b & x & Heq & Heff & _). rewrite Heq in H.
  injection H as <- <-. exact Heff.
Qed.
Hint Resolve walk_GetBalanceBigInt : walk.

(** * Transfers *)
Lemma paid_only_accs h h' s d v : only_accs h h' -> paid O h s d v -> paid O h' s d v.
Proof. intros [m ->] H. exact H. Qed.

Lemma TransferValueOnly_eff l d s v cp h h' r :
  TransferValueOnly d s v cp h = (h', r) -> r <> OFuel -> paid O h s d v -> eff O l h h' (pan r).
Proof.
  intros H Hr Hp. apply eff_lift. unfold TransferValueOnly in H.
  destruct (v <? 0) eqn:Hv; [injection H as <- <-; apply E_refl|].
  cbn [fail_if] in H. rewrite bind_ret in H. unfold hasSufficientBalance in H.
  destruct (GetBalanceBigInt_spec s h) as (h1 & b & x & Heq & Heff & Ho & Hx & Hk & Hb).
  rewrite bind_assoc, (bind_ok _ _ _ _ _ Heq), bind_ret in H.
  destruct (v <=? b) eqn:Hvb; cbn [negb fail_if] in H; [|injection H as <- <-; exact Heff].
  rewrite bind_ret, bind_gets in H.
  destruct (e_isPayable E (h_world h1) d) as [p|e|] eqn:Hpay; unfold lift at 1 in H; unfold bind at 1 in H;
    [|injection H as <- <-; exact Heff|injection H as <- <-; apply eff_pan; exact Heff].
  rewrite bind_gets in H.
  destruct (_ && negb p && _ && _); cbn [fail_if] in H; [injection H as <- <-; exact Heff|].
  rewrite bind_ret in H.
  destruct (GetOutputAccount_spec s h1) as (h2 & x2 & n2 & Heq2 & Heff2 & Ho2 & Hx2 & Hk2 & _).
  rewrite (bind_ok _ _ _ _ _ Heq2) in H.
  destruct (GetOutputAccount_spec d h2) as (h3 & x3 & n3 & Heq3 & Heff3 & Ho3 & Hx3 & Hk3 & _).
  rewrite (bind_ok _ _ _ _ _ Heq3) in H.
  unfold upd_account in H. rewrite !bind_modify in H. injection H as <- <-.
  eapply eff_seq; [exact Heff|]. eapply eff_seq; [exact Heff2|]. eapply eff_seq; [exact Heff3|].
  assert (Hs3 : accounts h3 !! s = Some x) by auto.
  apply (E_move O false h3 s d v).
  - apply Z.ltb_ge. exact Hv.
  - apply Z.leb_le in Hvb. destruct Hb as [->|(b0 & Hb0 & ->)].
    + left. apply Z.ltb_ge in Hv. lia.
    + right. exists x, b0. auto.
  - eapply paid_only_accs; [|exact Hp]. eauto using only_accs_trans.
  - eauto.
  - eauto.
Qed.

Lemma Transfer_eff l d s g gl v i ct h h' r :
  Transfer d s g gl v i ct h = (h', r) -> good O (fst l) h -> r <> OFuel -> paid O h s d v -> eff O (snd l) h h' (pan r).
Proof.
  intros H Hg Hr Hp. unfold Transfer in H. unfold bind at 1 in H.
  destruct (TransferValueOnly _ _ _ _ h) as [h1 o] eqn:Ht.
  assert (o <> OFuel) as Ho by (intros ->; congruence).
  pose proof (TransferValueOnly_eff (snd l) _ _ _ _ _ _ _ Ht Ho Hp) as He.
  destruct o; try (injection H as <- <-; exact He).
  eapply eff_seq; [exact He|].
  assert (Hw : walk l (GetOutputAccount d ;;; upd_account d (fun x => set_oa_transfers
    (oa_transfers x ++ [mkTransfer v g gl i ct s]) x))) by wk.
  apply (Hw h1 h' r); [eapply eff_good; eauto|exact H|exact Hr].
Qed.
Lemma walk_Transfer_own l d g gl v i ct :
  walk l (a <- gets sc_address ;; Transfer d a g gl v i ct).
Proof.
  intros h h' r Hg H Hr. rewrite bind_gets in H. eapply Transfer_eff; eauto.
  right; right; left. reflexivity.
Qed.
Hint Resolve walk_Transfer_own : walk.

(** * Metering and final outputs *)
Lemma walk_met_used l f : walk l (modify (fun h => set_h_met (set_mt_used (f h) (h_met h)) h)).
Proof. apply walk_modify. intros h. apply E_met. split; [reflexivity|left; reflexivity]. Qed.
Hint Resolve walk_met_used : walk.
Lemma walk_updateSCGasUsed l : walk l updateSCGasUsed.
Proof. unfold updateSCGasUsed. wk. all: apply walk_met_used. Qed.
Lemma eff_imap l h (f : bytes -> out_account -> out_account) : (forall a x, acc_le x (f a x)) ->
  eff O l h (set_accounts (map_imap (fun a x => Some (f a x)) (accounts h)) h) false.
Proof.
  intros Hf. apply E_accs. intros a. rewrite map_lookup_imap.
  destruct (accounts h !! a); cbn; auto.
Qed.
Lemma walk_setGasUsed l : walk l setGasUsedToOutputAccounts.
Proof.
  unfold setGasUsedToOutputAccounts. wk. apply walk_modify. intros h. apply eff_imap. intros a. accle.
Qed.
Lemma walk_checkGas l : walk l checkGas.
Proof. unfold checkGas. wk. Qed.
Hint Resolve walk_updateSCGasUsed walk_setGasUsed walk_checkGas : walk.
Lemma walk_UpdateGasStateOnSuccess l : walk l UpdateGasStateOnSuccess.
Proof. unfold UpdateGasStateOnSuccess. wk. Qed.
Lemma walk_UpdateGasStateOnFailure l : walk l UpdateGasStateOnFailure.
Proof. unfold UpdateGasStateOnFailure. wk. Qed.
Lemma walk_Track l i o p : walk l (TrackGasUsedByBuiltinFunction i o p).
Proof. unfold TrackGasUsedByBuiltinFunction. apply walk_UseGas. Qed.
Lemma walk_UseGasBounded l g : walk l (UseGasBounded g).
Proof. unfold UseGasBounded. wk. Qed.
Hint Resolve walk_UpdateGasStateOnSuccess walk_UpdateGasStateOnFailure walk_Track walk_UseGasBounded : walk.
Lemma walk_deduct l c b p : (snd l = true \/ op_create O = true) -> walk l (deductInitialGas c b p).
Proof.
  intros Hl h h' r _ H Hr. unfold deductInitialGas in H. rewrite bind_gets in H. cbv zeta in H.
  destruct (_ <? _) eqn:Hc; [injection H as <- <-; apply E_refl|]. injection H as <- <-. apply E_met.
  split; [reflexivity|]. right. split; [exact Hl|]. cbn.
  pose proof (AddUint64_nonneg b (MulUint64 (blen c) p)). lia.
Qed.
Lemma walk_deductExec p c : walk (p, true) (DeductInitialGasForExecution c).
Proof. unfold DeductInitialGasForExecution. destruct (e_aot E); apply walk_deduct; left; reflexivity. Qed.
Hint Resolve walk_deductExec : walk.
Lemma walk_CreateErr l e : walk l (CreateVMOutputInCaseOfError e).
Proof. unfold CreateVMOutputInCaseOfError. wk. Qed.
Hint Resolve walk_CreateErr : walk.
Lemma walk_removeNonUpdatedCode l : walk l removeNonUpdatedCode.
Proof.
  apply walk_modify. intros h. apply (eff_imap _ h (fun a x => if bool_decide (a ∈ h_codeupd h) then x
          else set_oa_deployer None (set_oa_meta [] (set_oa_code [] x)))).
  intros a x. case_bool_decide; [apply acc_le_refl|revert x; accle].
Qed.
Hint Resolve walk_removeNonUpdatedCode : walk.
Lemma walk_GetVMOutput l : walk l GetVMOutput.
Proof. unfold GetVMOutput. wk. Qed.
Hint Resolve walk_GetVMOutput : walk.

(** * Storage *)
Lemma getStorage_spec a k h :
  exists h1 v x, getStorageFromAddressUnmetered a k h = (h1, OOk v) /\ eff O false h h1 false /\ only_accs h h1 /\
    accounts h1 !! a = Some x.
Proof.
  unfold getStorageFromAddressUnmetered.
  destruct (GetOutputAccount_spec a h) as (h1 & x & isNew & Heq & Heff & Ho & Hx & Hk & Hn & _).
  rewrite (bind_ok _ _ _ _ _ Heq). destruct (oa_storage x !! k) as [v|] eqn:Hv.
  - exists h1, v, x. auto.
  - rewrite bind_gets. unfold upd_account. rewrite bind_modify.
    assert (Heq' : alter (fun x0 => set_oa_storage (<[k:=GetStorageData (h_world h1) a k]> (oa_storage x0)) x0) a (accounts h1) =
                   <[a := set_oa_storage (<[k:=GetStorageData (h_world h1) a k]> (oa_storage x)) x]> (accounts h1)).
    { apply map_eq. intros a'. destruct (decide (a' = a)) as [->|].
      - rewrite lookup_alter, lookup_insert, Hx. reflexivity.
      - rewrite lookup_alter_ne, lookup_insert_ne by congruence. reflexivity. }
    cbv zeta beta. rewrite Heq'.
    eexists _, _, _. split; [reflexivity|]. split; [|split].
    + eapply eff_seq; [exact Heff|]. apply E_cell; auto.
    + eapply only_accs_trans; [exact Ho|]. eexists; reflexivity.
    + cbn. apply lookup_insert.
Qed.
Lemma walk_getStorage l a k : walk l (getStorageFromAddressUnmetered a k).
Proof.
  apply walk_lvl. intros h h' r _ H _.
  destruct (getStorage_spec a k h) as (h1 & b & x & Heq & Heff & _). rewrite Heq in H.
  injection H as <- <-. exact Heff.
Qed.
Hint Resolve walk_getStorage : walk.
Lemma walk_GetStorageUnmetered l k : walk l (GetStorageUnmetered k).
Proof. unfold GetStorageUnmetered. wk. Qed.
Lemma walk_useExtraKeyGas l k : walk l (useExtraKeyGas k).
Proof. unfold useExtraKeyGas. wk. Qed.
Hint Resolve walk_GetStorageUnmetered walk_useExtraKeyGas : walk.
Lemma walk_GetStorage l k : walk l (GetStorage k).
Proof. unfold GetStorage. wk. Qed.
Lemma walk_GetStorageFromAddress l a k : walk l (GetStorageFromAddress a k).
Proof. unfold GetStorageFromAddress. wk. Qed.
Hint Resolve walk_GetStorage walk_GetStorageFromAddress : walk.

Definition custom_key (k : bytes) : Prop :=
  exists k', k = CustomStorageKey TimeLockKeyPrefix k' \/ k = CustomStorageKey AsyncDataPrefix k'.
Lemma walk_SetStorage l k v : fst l = true \/ custom_key k -> walk l (SetStorage k v).
Proof.
  intros Hl h h' r Hg H Hr. unfold SetStorage in H. rewrite bind_gets in H.
  destruct (r_ro (h_rt h)) eqn:Hro; [injection H as <- <-; apply E_refl|].
  destruct (isElrondReservedKey k) eqn:Hel; cbn [fail_if] in H; [injection H as <- <-; apply E_refl|].
  rewrite bind_ret, bind_gets in H.
  destruct (isArwenProtectedKey k && h_stoprot h) eqn:Hpr; cbn [fail_if] in H; [injection H as <- <-; apply E_refl|].
  rewrite bind_ret in H.
  assert (Hwk : writable_key k).
  { split; [exact Hel|]. destruct Hl as [Hl|Hl]; [|right; exact Hl]. left.
    rewrite (proj1 Hg Hl), andb_true_r in Hpr. exact Hpr. }
  unfold bind at 1 in H. destruct (useExtraKeyGas k h) as [h1 o1] eqn:Hx.
  assert (Hframe1 : h_rt h1 = h_rt h).
  { revert Hx. unfold useExtraKeyGas, UseGas, GetPointsUsed, SetPointsUsed, upd_inst, cur_inst. clear.
    intros Hx. cbv [bind gets modify ret] in Hx. repeat case_match; simplify_eq; reflexivity. }
  assert (Ho1 : o1 <> OFuel) by (intros ->; congruence).
  pose proof (walk_useExtraKeyGas l k h h1 o1 Hg Hx Ho1) as He1.
  destruct o1 as [[]|e| |]; try (injection H as <- <-; exact He1).
  eapply eff_seq; [exact He1|]. pose proof (eff_good _ _ _ _ _ _ He1 Hg) as Hg1.
  rewrite bind_gets in H. unfold GetStorageUnmetered in H. rewrite bind_assoc, bind_gets in H.
  destruct (getStorage_spec (h_stoaddr h1) k h1) as (h2 & old & x & Heq & Heff & Hoa & Hxx).
  rewrite (bind_ok _ _ _ _ _ Heq) in H.
  eapply eff_seq; [apply eff_lift; exact Heff|].
  assert (Hg2 : good O (fst l) h2) by (eapply eff_good; eauto).
  destruct (beq old v).
  { refine ((_ : walk l _) h2 h' r Hg2 H Hr). wk. }
  unfold upd_account in H. rewrite bind_modify in H.
  assert (Hs2 : h_stoaddr h1 = h_stoaddr h2) by (destruct Hoa as [m ->]; reflexivity).
  rewrite Hs2 in H, Hxx.
  assert (Heq' : alter (fun x0 => set_oa_storage (<[k:=v]> (oa_storage x0)) x0) (h_stoaddr h2) (accounts h2) =
                 <[h_stoaddr h2 := set_oa_storage (<[k:=v]> (oa_storage x)) x]> (accounts h2)).
  { apply map_eq. intros a'. destruct (decide (a' = h_stoaddr h2)) as [->|].
    - rewrite lookup_alter, lookup_insert, Hxx. reflexivity.
    - rewrite lookup_alter_ne, lookup_insert_ne by congruence. reflexivity. }
  rewrite Heq' in H.
  assert (Hst : eff O (snd l) h2 (set_accounts (<[h_stoaddr h2 := set_oa_storage (<[k:=v]> (oa_storage x)) x]> (accounts h2)) h2) false).
  { apply E_store; [exact Hxx| |exact Hwk]. destruct Hoa as [m ->]. cbn. rewrite Hframe1. exact Hro. }
  eapply eff_seq; [exact Hst|]. apply (eff_good _ _ _ _ _ _ Hst) in Hg2.
  refine ((_ : walk l _) _ h' r Hg2 H Hr). wk.
Qed.
Lemma walk_SetProtectedStorage l k v : custom_key k -> walk l (SetProtectedStorage k v).
Proof.
  intros Hk h h' r Hg H Hr. unfold SetProtectedStorage in H. rewrite bind_modify in H. unfold deferring in H.
  destruct (SetStorage k v (set_h_stoprot false h)) as [h1 o] eqn:Hs.
  assert (Ho : o <> OFuel) by (intros ->; congruence).
  assert (He : eff O (snd l) (set_h_stoprot false h) h1 (pan o)).
  { eapply (walk_SetStorage (false, snd l)); [right; exact Hk| |exact Hs|exact Ho].
    split; [discriminate|]. apply Hg. }
  apply E_prot in He.
  destruct o; try (unfold bind, modify in H; injection H as <- <-; exact He). congruence.
Qed.

Lemma custom_timelock k : custom_key (CustomStorageKey TimeLockKeyPrefix k).
Proof. exists k. left. reflexivity. Qed.
Lemma custom_async k : custom_key (CustomStorageKey AsyncDataPrefix k).
Proof. exists k. right. reflexivity. Qed.
Hint Resolve walk_SetProtectedStorage custom_timelock custom_async : walk.

(** * Runtime *)
Lemma walk_rt l f : (forall h, frame_le (snd l) (h_rt h) (f h)) -> walk l (modify (fun h => set_h_rt (f h) h)).
Proof. intros H. apply walk_modify. intros h. apply E_rt, H. Qed.
Ltac frle := intros ?h; unfold frame_le; cbn; repeat split; first [discriminate|left; reflexivity|right; reflexivity].
Lemma walk_set_verify l v : walk l (modify (set_h_verify v)).
Proof. apply walk_modify. intros h. apply E_verify. Qed.
Lemma walk_set_codesize l v : walk l (modify (set_h_codesize v)).
Proof. apply walk_modify. intros h. apply E_codesize. Qed.
Hint Resolve walk_set_verify walk_set_codesize : walk.
Lemma walk_GetSCCode l : walk l GetSCCode.
Proof. unfold GetSCCode. wk. Qed.
Lemma walk_VerifyContractCode l : walk l VerifyContractCode.
Proof. unfold VerifyContractCode. wk. Qed.
Hint Resolve walk_GetSCCode walk_VerifyContractCode : walk.
(** the start of an instance, in a frame that has none yet *)
Notation fcur := (fun h => (h_cur h, h_ist h)).
Definition walk0 {A} (p : bool) (m : M A) : Prop :=
  forall h h' r, good O p h -> unstarted O h -> m h = (h', r) -> r <> OFuel -> eff O true h h' (pan r).
Lemma walk0_walk {A} p (m : M A) : walk (p, true) m -> walk0 p m.
Proof. intros Hm h h' r Hg _ H Hr. exact (Hm h h' r Hg H Hr). Qed.
Lemma walk0_bind_pre {A B} p (m : M A) (k : A -> M B) :
  walk (p, true) m -> keeps fcur m -> (forall a, walk0 p (k a)) -> walk0 p (bind m k).
Proof.
  intros Hm Hc Hk h h' r Hg Hu H Hr. unfold bind in H. destruct (m h) as [h1 o] eqn:Hmh.
  assert (Ho : o <> OFuel) by (intros ->; congruence).
  pose proof (Hm h h1 o Hg Hmh Ho) as H1. pose proof (Hc h h1 o Hmh) as Hu1. injection Hu1 as U1 U2. destruct o as [a|e| |].
  - eapply eff_seq; [exact H1|]. eapply Hk; [eapply (eff_good O p); eauto| |exact H|exact Hr].
    unfold unstarted in *. intros Ho1. specialize (Hu Ho1). congruence.
  - injection H as <- <-. exact H1.
  - injection H as <- <-. exact H1.
  - congruence.
Qed.
Lemma walk0_bind_post {A B} p (m : M A) (k : A -> M B) :
  walk0 p m -> (forall a, walk (p, true) (k a)) -> walk0 p (bind m k).
Proof.
  intros Hm Hk h h' r Hg Hu H Hr. unfold bind in H. destruct (m h) as [h1 o] eqn:Hmh.
  assert (Ho : o <> OFuel) by (intros ->; congruence).
  pose proof (Hm h h1 o Hg Hu Hmh Ho) as H1. destruct o as [a|e| |].
  - eapply eff_seq; [exact H1|]. eapply Hk; [eapply (eff_good O p); eauto|exact H|exact Hr].
  - injection H as <- <-. exact H1.
  - injection H as <- <-. exact H1.
  - congruence.
Qed.
Lemma walk0_map_err {A} p (m : M A) f : walk0 p m -> walk0 p (map_err m f).
Proof.
  intros Hm h h' r Hg Hu H Hr. unfold map_err, bind, try in H. destruct (m h) as [h1 o] eqn:Hmh.
  assert (Ho : o <> OFuel) by (intros ->; congruence).
  pose proof (Hm h h1 o Hg Hu Hmh Ho) as H1. destruct o; injection H as <- <-; exact H1.
Qed.
Lemma walk0_curnone p e : walk0 p (modify (set_h_cur None) ;;; (fail e : M unit)).
Proof. intros h h' r _ Hu H _. injection H as <- <-. apply E_curnone, Hu. Qed.
Lemma walk0_fromCompiled p hash g n h h' r : good O p h -> unstarted O h ->
  makeInstanceFromCompiledCode hash g n h = (h', r) ->
  eff O true h h' false /\ (r = OOk true \/ r = OOk false /\ h' = h).
Proof.
  intros Hg Hu H. unfold makeInstanceFromCompiledCode in H.
  destruct (negb _); [injection H as <- <-; split; [apply E_refl|auto]|].
  destruct (_ || _); [injection H as <- <-; split; [apply E_refl|auto]|].
  rewrite bind_gets in H. destruct (h_cache h !! hash) as [code|]; [|injection H as <- <-; split; [apply E_refl|auto]].
  destruct (e_compile E code) as [m|] eqn:Hc; [|injection H as <- <-; split; [apply E_refl|auto]].
  rewrite (bind_ok _ _ _ (fst (new_instance m g h)) tt) in H by reflexivity. rewrite bind_modify in H.
  injection H as <- <-. split; [|auto]. eapply eff_seq; [apply (E_newinst O h m g (codes_ok _ _ Hc) Hu)|apply E_verify].
Qed.
Lemma walk0_fromByteCode p c hash g n : walk0 p (makeInstanceFromContractByteCode c hash g n).
Proof.
  unfold makeInstanceFromContractByteCode. destruct (e_compile E c) as [m|] eqn:Hc; [|apply walk0_curnone].
  intros h h' r Hg Hu H Hr. rewrite (bind_ok _ _ _ (fst (new_instance m g h)) tt) in H by reflexivity.
  pose proof (E_newinst O h m g (codes_ok c m Hc) Hu) as He.
  cbv zeta in H. rewrite bind_modify in H.
  set (ch := if n || _ then _ else _) in *.
  set (h1 := fst (new_instance m g h)) in *.
  assert (He1 : eff O true h (set_h_cache (<[ch := c]> (h_cache h1)) h1) false).
  { eapply eff_seq; [exact He|apply E_cache]. }
  destruct n; [|injection H as <- <-; exact He1].
  unfold bind at 1, try in H. unfold VerifyContractCode in H. rewrite bind_gets in H.
  destruct (negb (h_verify _)); [injection H as <- <-; exact He1|].
  rewrite bind_modify in H.
  set (h2 := set_h_verify false (set_h_cache (<[ch := c]> (h_cache h1)) h1)) in *.
  assert (He2 : eff O true h h2 false) by (eapply eff_seq; [exact He1|apply E_verify]).
  assert (Hcur : cur_inst h2 = (h2, OOk (h_next h, mkInst 0 g BreakpointNone (wm_mem m) m))).
  { unfold cur_inst. change (h_cur h2) with (Some (h_next h)). cbv iota beta.
    change (h_insts h2) with (<[h_next h := mkInst 0 g BreakpointNone (wm_mem m) m]> (h_insts h)).
    rewrite lookup_insert. reflexivity. }
  rewrite (bind_ok _ _ _ _ _ Hcur) in H.
  destruct (verifyModule _); cbn [lift] in H; unfold lift in H.
  - injection H as <- <-. exact He2.
  - unfold bind, CleanWasmerInstance in H. change (h_cur h2) with (Some (h_next h)) in H. cbv iota beta in H.
    injection H as <- <-.
    eapply eff_seq; [apply (E_newclean O h m g Hu)|].
    eapply eff_seq; [apply (E_cache O true _ (<[ch := c]> (h_cache h1)))|].
    exact (E_verify O true _ false).
  - injection H as <- <-. apply eff_pan. exact He2.
Qed.
Lemma walk0_Start p c g n : walk0 p (StartWasmerInstance c g n).
Proof.
  unfold StartWasmerInstance. apply walk0_bind_pre; [wk|kp|]. intros k. destruct (_ <=? _)%nat; [apply walk0_curnone|].
  apply walk0_bind_pre; [wk|kp|]. intros hash h h' r Hg Hu H Hr. unfold bind in H.
  destruct (makeInstanceFromCompiledCode hash g n h) as [h1 o] eqn:Hm.
  destruct (walk0_fromCompiled p hash g n h h1 o Hg Hu Hm) as [H1 [->|[-> ->]]].
  - injection H as <- <-. exact H1.
  - eapply walk0_fromByteCode; eauto.
Qed.
Lemma walk_ExtractCode p : walk (p, true) ExtractCodeUpgradeFromArgs.
Proof. unfold ExtractCodeUpgradeFromArgs. wk. apply walk_rt. frle. Qed.
Lemma walk_GetFunctionToCall l : walk l GetFunctionToCall.
Proof. unfold GetFunctionToCall. wk. Qed.
Lemma walk_GetInit l : walk l GetInitFunction.
Proof. unfold GetInitFunction. wk. Qed.
Lemma walk_HasCallback l : walk l HasCallbackMethod.
Proof. unfold HasCallbackMethod. wk. Qed.
Hint Resolve walk_ExtractCode walk_GetFunctionToCall walk_GetInit walk_HasCallback : walk.
Lemma walk_ExecuteAsyncCall l a d v : walk l (ExecuteAsyncCall a d v).
Proof. unfold ExecuteAsyncCall, UseGasForAsyncStep. wk. apply walk_rt. frle. Qed.
Lemma walk_AddAsync l id c : walk l (AddAsyncContextCall id c).
Proof. unfold AddAsyncContextCall. apply walk_rt. frle. Qed.
Lemma walk_SetAsyncCb l id c : walk l (SetAsyncContextCallback id c).
Proof. unfold SetAsyncContextCallback. wk. apply walk_rt. frle. Qed.
Lemma walk_mem_store l o d : walk l (mem_store o d).
Proof. unfold mem_store. wk. apply walk_upd_inst. intros x. repeat split; exact (fun H => H). Qed.
Hint Resolve walk_ExecuteAsyncCall walk_AddAsync walk_SetAsyncCb walk_mem_store : walk.

(** * Built-in functions *)
Lemma walk_builtin l i : walk l (ProcessBuiltInFunction i).
Proof.
  intros h h' r _ H _. unfold ProcessBuiltInFunction in H.
  pose proof (E_world O (snd l) h i) as He.
  destruct (e_builtin E (h_world h) i) as [w [o|e|]]; injection H as <- <-; try exact He.
  apply eff_pan. exact He.
Qed.
Hint Resolve walk_builtin : walk.
Lemma walk_ExecuteESDT l d s t n v c : walk l (ExecuteESDTTransfer d s t n v c).
Proof. unfold ExecuteESDTTransfer. wk. Qed.
Hint Resolve walk_ExecuteESDT : walk.
Lemma walk_TransferESDT l d s t n v i : walk l (TransferESDT d s t n v i).
Proof. unfold TransferESDT. wk. Qed.
Hint Resolve walk_TransferESDT : walk.

Lemma retransfer_refl o : retransfer o o.
Proof. intros a. reflexivity. Qed.
Lemma retransfer_trans o1 o2 o3 : retransfer o1 o2 -> retransfer o2 o3 -> retransfer o1 o3.
Proof. intros H1 H2 a. rewrite H2. apply H1. Qed.
Lemma retransfer_drop o : retransfer o (dropTransfers o).
Proof.
  intros a. unfold dropTransfers. cbn [o_accounts set_o_accounts]. rewrite lookup_fmap.
  destruct (o_accounts o !! a); reflexivity.
Qed.
Lemma retransfer_addOut f args s r c o : retransfer o (addOutputTransferToVMOutput f args s r c o).
Proof.
  intros a. unfold addOutputTransferToVMOutput. cbn [o_accounts set_o_accounts].
  destruct (decide (a = r)) as [->|].
  - rewrite lookup_insert. reflexivity.
  - rewrite lookup_insert_ne by congruence. reflexivity.
Qed.
Lemma retransfer_addESDT i o : retransfer o (addESDTTransferToVMOutputSCIntraShardCall i o).
Proof.
  unfold addESDTTransferToVMOutputSCIntraShardCall.
  repeat case_match; auto using retransfer_refl, retransfer_addOut.
Qed.

Lemma callBuiltin_eff l i h h' r : good O (fst l) h -> callBuiltinFunction i h = (h', r) -> r <> OFuel ->
  eff O (snd l) h h' (pan r) /\
  (forall post o, r = OOk (post, o) -> exists w w' o0, e_builtin E w i = (w', ROk o0) /\ retransfer o0 o /\
     (forall p, post = Some p -> vi_value (ci_vm p) = 0)).
Proof.
  intros Hg H Hr. split.
  { refine ((_ : walk l _) h h' r Hg H Hr). unfold callBuiltinFunction. wk. }
  intros post o ->. unfold callBuiltinFunction in H. unfold bind at 1, try in H.
  unfold ProcessBuiltInFunction in H. destruct (e_builtin E (h_world h) i) as [w [o0|e|]] eqn:Hb; try discriminate.
  2:{ unfold bind in H. destruct (UseGas _ _) as [? [|?| |]]; discriminate. }
  destruct (isSCExecutionAfterBuiltInFunc i o0) as [p|e|] eqn:Hp; unfold bind at 1, lift in H; try discriminate.
  2:{ unfold bind in H. destruct (UseGas _ _) as [? [|?| |]]; discriminate. }
  unfold bind at 1 in H. destruct (TrackGasUsedByBuiltinFunction _ _ _ _) as [h1 [u|?| |]]; try discriminate.
  injection H as <- <- <-. exists (h_world h), w, o0. split; [exact Hb|]. split.
  - eapply retransfer_trans; [|apply retransfer_addESDT]. destruct p; [apply retransfer_drop|apply retransfer_refl].
  - intros q ->. unfold isSCExecutionAfterBuiltInFunc in Hp.
    destruct (negb _); [discriminate|].
    destruct (if _ && _ then _ else _) as [rc|?|]; cbn in Hp; try discriminate.
    repeat (case_match; cbn in Hp; try discriminate).
    destruct (ParseData _) as [[f args]|?|]; cbn in Hp; try discriminate.
    destruct (fillWithESDTValue i); cbn in Hp; try discriminate. injection Hp as <-. reflexivity.
Qed.

(** * Calls *)

(** who pays for a call *)
Definition pay_ok (i : call_input) (h : host) : Prop :=
  vi_value (ci_vm i) = 0 \/ op_any O = true \/ vi_ctype (ci_vm i) = AsynchronousCallBack \/
  vi_caller (ci_vm i) = r_addr (h_rt h) \/
  (op_byc O = true /\ vi_caller (ci_vm i) = vi_caller (r_input (h_rt h))).
Definition walk_ed (ed : edf) : Prop :=
  forall l i h h' r, good O true h -> ed i h = (h', r) -> r <> OFuel -> pay_ok i h -> eff O l h h' (pan r).
Definition walk_es (es : same) : Prop :=
  forall l i h h' r, good O true h -> es i h = (h', r) -> r <> OFuel -> pay_ok i h ->
    vi_ctype (ci_vm i) <> AsynchronousCallBack \/ op_any O = true -> eff O l h h' (pan r).


(** a walk whose results satisfy [Q] *)
Definition walkp {A} (l : bool * bool) (m : M A) (Q : A -> Prop) : Prop :=
  walk l m /\ forall h h' a, good O (fst l) h -> m h = (h', OOk a) -> Q a.
Lemma walkp_bind {A B} l (m : M A) Q (k : A -> M B) :
  walkp l m Q -> (forall a, Q a -> walk l (k a)) -> walk l (bind m k).
Proof.
  intros [Hm HQ] Hk h h' r Hg H Hr. unfold bind in H. destruct (m h) as [h1 o] eqn:Hmh.
  assert (o <> OFuel) by (intros ->; congruence).
  pose proof (Hm h h1 o Hg Hmh H0) as H1. destruct o as [a|e| |].
  - eapply eff_seq; [exact H1|]. eapply Hk; [|eapply eff_good; eauto|exact H|exact Hr]. eapply HQ; eauto.
  - injection H as <- <-. exact H1.
  - injection H as <- <-. exact H1.
  - congruence.
Qed.
Lemma walkp_try {A} l (m : M A) Q : walkp l m Q ->
  walkp l (try m) (fun x => match x with inl a => Q a | inr _ => True end).
Proof.
  intros [Hm HQ]. split; [apply walk_try, Hm|]. intros h h' a Hg H. unfold try in H.
  destruct (m h) as [h1 o] eqn:Hmh. destruct o; simplify_eq; eauto.
Qed.

Lemma createDest_spec c h : exists r, createDestinationContractCallInput c h = (h, r) /\ r <> OFuel /\
  forall i, r = OOk i -> vi_caller (ci_vm i) = r_addr (h_rt h).
Proof.
  unfold createDestinationContractCallInput, bind, lift, gets, GasLeft, ret.
  destruct (ParseData (ac_data c)) as [[f args]| |]; eexists; (split; [reflexivity|]); split; try discriminate.
  intros i [= <-]. reflexivity.
Qed.
Lemma walk_createCb l c o a f e :
  walkp l (createCallbackContractCallInput c o a f e) (fun i => vi_ctype (ci_vm i) = AsynchronousCallBack).
Proof.
  split; [unfold createCallbackContractCallInput; wk|].
  intros h h' i _ H. unfold createCallbackContractCallInput in H. rewrite bind_gets in H. cbv zeta in H.
  unfold bind at 1 in H. destruct (_ <=? _); cbn [fail_if] in H; [discriminate|].
  injection H as <- <-. reflexivity.
Qed.

Lemma walk_GetFunctionToCall' l : walkp l GetFunctionToCall (prog_ok O).
Proof.
  split; [apply walk_GetFunctionToCall|]. intros h h' p [_ Hm] H.
  unfold GetFunctionToCall, cur_inst, bind, gets in H.
  destruct (h_cur h) as [i|]; [|discriminate]. destruct (h_insts h !! i) as [x|] eqn:Hx; [|discriminate].
  destruct (export (in_mod x) _) eqn:He.
  - injection H as <- <-. eapply Hm; eauto.
  - destruct (beq _ _); discriminate.
Qed.
Lemma walk_GetInit' l : walkp l GetInitFunction (fun x => match x with Some p => prog_ok O p | None => True end).
Proof.
  split; [apply walk_GetInit|]. intros h h' p [_ Hm] H.
  unfold GetInitFunction, cur_inst, bind in H.
  destruct (h_cur h) as [i|]; [|discriminate]. destruct (h_insts h !! i) as [x|] eqn:Hx; [|discriminate].
  injection H as <- <-. destruct (export _ _) eqn:He; [|exact I]. eapply Hm; eauto.
Qed.

Lemma walk_hasCode l a : walk l (hasCode a).
Proof. unfold hasCode. wk. Qed.
Hint Resolve walk_hasCode : walk.
Lemma walk_mode l c : walk l (determineAsyncCallExecutionMode c).
Proof. unfold determineAsyncCallExecutionMode. wk. Qed.
Hint Resolve walk_mode : walk.
Lemma walk_readCell l : walk l readAsyncCell.
Proof. unfold readAsyncCell. wk. Qed.
Hint Resolve walk_readCell : walk.
Lemma walk_set_rfn p name : walk (p, true) (modify (fun h => set_h_rt (set_r_fn name (h_rt h)) h)).
Proof. apply walk_rt. frle. Qed.
Hint Resolve walk_set_rfn : walk.
Lemma walk_getFunctionByCallType pp t :
  walkp (pp, true) (getFunctionByCallType t) (fun x => match x with Some p => prog_ok O p | None => True end).
Proof.
  split; [unfold getFunctionByCallType; wk|].
  intros h h' a Hg H. unfold getFunctionByCallType in H. destruct (negb _).
  { unfold bind in H. destruct (GetFunctionToCall h) as [h1 [p|?| |]] eqn:Hp; try discriminate.
    injection H as <- <-. eapply walk_GetFunctionToCall'; eauto. }
  assert (Hb : forall {A B} (m : M A) (k : A -> M B) h h' b, good O pp h -> walk (pp, true) m -> bind m k h = (h', OOk b) ->
    exists h1 a, good O pp h1 /\ k a h1 = (h', OOk b)).
  { clear. intros A B m k h h' b Hg Hw H. unfold bind in H. destruct (m h) as [h1 o] eqn:Hm.
    destruct o as [a|?| |]; try discriminate. exists h1, a. split; [|exact H].
    eapply eff_good; [|exact Hg]. eapply Hw; [exact Hg|exact Hm|discriminate]. }
  apply Hb in H; [|exact Hg|apply walk_readCell]. destruct H as (h1 & [k buff] & Hg1 & H).
  apply Hb in H; [|exact Hg1|wk]. destruct H as (h2 & m & Hg2 & H).
  apply Hb in H; [|exact Hg2|wk]. destruct H as (h3 & c & Hg3 & H). cbv zeta in H.
  set (cu := find_custom _ _ _) in *.
  apply Hb in H; [|exact Hg3|wk]. destruct H as (h4 & [] & Hg4 & H).
  unfold bind, try in H. destruct (GetFunctionToCall h4) as [h5 [p|?| |]] eqn:Hp; try discriminate.
  - injection H as <- <-. eapply (walk_GetFunctionToCall' (pp, true)); eauto.
  - destruct cu; [injection H as <- <-; exact I|discriminate H].
Qed.

Ltac fuel := match goal with
  | H : (_, OFuel) = (_, ?r), Hr : ?r <> OFuel |- _ => injection H as <- <-; exact (Hr eq_refl)
  end.

Section calls.
Context (run : prog -> M bool) (rd : edf).
Hypothesis Hrun : forall l p, prog_ok O p -> walk (true, l) (run p).
Hypothesis Hrd : walk_ed rd.

Lemma walk_rd_cb l i : vi_ctype (ci_vm i) = AsynchronousCallBack -> walk (true, l) (rd i).
Proof. intros Ht h h' r Hg H Hr. eapply Hrd; eauto. right; right; left. exact Ht. Qed.

(** a call made with the input of createDestinationContractCallInput *)
Lemma walk_createDest_rd {B} l c (k : ed_res -> M B) (k' : err -> M B) :
  (forall x, walk (true, l) (k x)) -> (forall e, walk (true, l) (k' e)) ->
  walk (true, l) (r <- try (createDestinationContractCallInput c) ;;
                  match r with inl i => bind (rd i) k | inr e => k' e end).
Proof.
  intros Hk Hk' h h' r Hg H Hr. destruct (createDest_spec c h) as (x & Heq & Hx & Hi).
  unfold bind at 1, try in H. rewrite Heq in H. destruct x as [i|e| |]; cbv beta iota in H.
  - unfold bind in H. destruct (rd i h) as [h1 o] eqn:Hm.
    assert (o <> OFuel) as Ho by (intros ->; congruence).
    pose proof (Hrd l i h h1 o Hg Hm Ho) as He.
    specialize (He ltac:(right; right; right; left; apply Hi; reflexivity)).
    destruct o as [a|e| |]; try (injection H as <- <-; exact He).
    eapply eff_seq; [exact He|]. eapply Hk; [|exact H|exact Hr]. eapply (eff_good O true); eauto.
  - eapply Hk'; eauto.
  - injection H as <- <-. apply E_refl.
  - congruence.
Qed.

Lemma walk_syncDest l c : walk (true, l) (executeSyncDestinationCall rd c).
Proof.
  unfold executeSyncDestinationCall.
  pose proof (walk_createDest_rd l c (fun '(o, _, e) => ret (o, e)) (fun e => ret (None, Some e))) as H.
  intros h h' r Hg Hm Hr. refine (H _ _ h h' r Hg _ Hr); [intros [[? ?] ?]; wk|wk|].
  unfold bind in *. destruct (try _ h) as [h1 [[i|e]|?| |]]; exact Hm.
Qed.
Lemma walk_syncCb l c o e : walk (true, l) (executeSyncCallbackCall rd c o e).
Proof.
  unfold executeSyncCallbackCall. destruct o as [o|]; [|wk].
  eapply walkp_bind; [apply walkp_try, walk_createCb|]. intros [i|er] Hi; [|wk].
  apply walk_bind; [wk|]. intros _. apply walk_bind; [apply walk_rd_cb, Hi|]. wk.
Qed.
Lemma walk_set_gas0 p : walk (p, true) (modify (fun h => set_h_rt (set_r_input (set_vi_gas 0 (r_input (h_rt h))) (h_rt h)) h)).
Proof. apply walk_rt. frle. Qed.
Hint Resolve walk_set_gas0 walk_syncDest walk_syncCb : walk.
Lemma walk_processCb p o e : walk (p, true) (processCallbackVMOutput o e).
Proof. unfold processCallbackVMOutput. wk. Qed.
Hint Resolve walk_processCb : walk.

(** a transfer from the running contract, its error looked at *)
Lemma walk_own_transfer {B} l (m : host -> bytes) d g gl v i ct (k : unit + err -> M B) :
  (forall h, m h = sc_address h) -> (forall x, walk l (k x)) ->
  walk l (a <- gets m ;; r <- try (Transfer d a g gl v i ct) ;; k r).
Proof.
  intros Hm Hk h h' r Hg H Hr. rewrite bind_gets, Hm in H. revert h' r H Hr.
  change (forall h' r, (r <- try (Transfer d (sc_address h) g gl v i ct) ;; k r) h = (h', r) -> r <> OFuel ->
     eff O (snd l) h h' (pan r)).
  intros h' r H Hr. unfold bind at 1, try in H.
  destruct (Transfer _ _ _ _ _ _ _ h) as [h1 o] eqn:Ht.
  assert (o <> OFuel) as Ho by (intros ->; congruence).
  assert (He : eff O (snd l) h h1 (pan o)) by (eapply Transfer_eff; eauto; right; right; left; reflexivity).
  assert (Hg1 : good O (fst l) h1) by (eapply eff_good; eauto).
  destruct o; try congruence.
  - eapply eff_seq; [exact He|]. eapply Hk; eauto.
  - eapply eff_seq; [exact He|]. eapply Hk; eauto.
  - injection H as <- <-. exact He.
Qed.
Lemma walk_sendAsync l c : walk l (sendAsyncCallToDestination c).
Proof. unfold sendAsyncCallToDestination. apply walk_own_transfer; [reflexivity|]. wk. Qed.
Lemma walk_sendCb l : walk l sendCallbackToCurrentCaller.
Proof.
  unfold sendCallbackToCurrentCaller. intros h h' r Hg H Hr. rewrite !bind_gets in H. cbv zeta in H. unfold GasLeft in H at 1.
  rewrite bind_gets in H.
  eapply (walk_own_transfer l sc_address); [reflexivity| |exact Hg|rewrite bind_gets; exact H|exact Hr]. cbv beta. wk.
Qed.
Lemma walk_sendStorageCb l a d : walk l (sendStorageCallbackToDestination a d).
Proof.
  unfold sendStorageCallbackToDestination. intros h h' r Hg H Hr. rewrite !bind_gets in H. cbv zeta in H. unfold GasLeft in H at 1.
  rewrite bind_gets in H.
  eapply (walk_own_transfer l sc_address); [reflexivity| |exact Hg|rewrite bind_gets; exact H|exact Hr]. cbv beta. wk.
Qed.
Hint Resolve walk_sendAsync walk_sendCb walk_sendStorageCb : walk.

Lemma walk_asyncBreak : walk (true, true) (handleAsyncCallBreakpoint rd).
Proof. unfold handleAsyncCallBreakpoint. wk. Qed.
Hint Resolve walk_asyncBreak : walk.
Lemma walk_break : walk (true, true) (handleBreakpoint rd).
Proof. unfold handleBreakpoint. wk. Qed.
Hint Resolve walk_break : walk.
Lemma walk_callFunction p : prog_ok O p -> walk (true, true) (callFunction run rd p).
Proof. intros Hp. unfold callFunction. apply walk_bind; [apply Hrun, Hp|]. wk. Qed.

Lemma walk_set_actx l f : walk l (set_actx_map f).
Proof. unfold set_actx_map. apply walk_rt. frle. Qed.
Hint Resolve walk_set_actx : walk.
Lemma walk_callbackAsync f c o e : (forall s, walk (true, true) (f s)) -> walk (true, true) (callbackAsync rd f c o e).
Proof.
  intros Hf. unfold callbackAsync. apply walk_bind; [apply Hf|]. intros _.
  eapply walkp_bind; [apply walk_createCb|]. intros i Hi.
  apply walk_bind; [apply walk_rd_cb, Hi|]. wk.
Qed.
Lemma walk_processAsyncCall f c : (forall s, walk (true, true) (f s)) -> walk (true, true) (processAsyncCall rd f c).
Proof.
  intros Hf. unfold processAsyncCall.
  pose proof (walk_createDest_rd true (gen_handler c) (fun '(o, info, e) =>
      match info with
      | None => panic
      | Some info =>
          if bool_decide (ai_map (getPendingAsyncCalls info) = ∅)
          then match o with Some o => callbackAsync rd f c o e | None => panic end
          else match e with Some e => fail e | None => ret tt end
      end) (fun _ => panic)) as H.
  intros h h' r Hg Hm Hr. refine (H _ _ h h' r Hg _ Hr).
  - intros [[o i] e]. destruct i as [i|]; [|wk]. destruct (bool_decide _); [|wk].
    destruct o; [apply walk_callbackAsync, Hf|wk].
  - wk.
  - unfold bind in *. destruct (try _ h) as [h1 [[i|e]|?| |]]; exact Hm.
Qed.
Lemma walk_savePending l p : walk l (savePendingAsyncCalls p).
Proof. unfold savePendingAsyncCalls. wk. Qed.
Hint Resolve walk_savePending : walk.
Lemma walk_processAsyncCalls cs : walk (true, true) (processAsyncCalls rd cs).
Proof.
  induction cs as [|[[id i] c] cs IH]; cbn [processAsyncCalls]; wk.
  apply walk_processAsyncCall. wk.
Qed.
Lemma walk_sendAsyncCalls l cs : walk l (sendAsyncCalls cs).
Proof. induction cs as [|c cs IH]; cbn [sendAsyncCalls]; wk. Qed.
Hint Resolve walk_processAsyncCalls walk_sendAsyncCalls : walk.
Lemma walk_processAsyncInfo : walk (true, true) (processAsyncInfo rd).
Proof. unfold processAsyncInfo. wk. Qed.
Hint Resolve walk_processAsyncInfo : walk.
Lemma walk_readCell' l : walkp l readAsyncCell (fun x => custom_key (fst x)).
Proof.
  split; [apply walk_readCell|]. intros h h' x Hg H. unfold readAsyncCell in H. rewrite bind_gets in H. cbv zeta in H.
  unfold bind in H. destruct (GetStorageUnmetered _ h) as [h1 [b|?| |]]; try discriminate.
  injection H as <- <-. apply custom_async.
Qed.
Lemma walk_processCallbackStack l : walk l processCallbackStack.
Proof.
  unfold processCallbackStack. eapply walkp_bind; [apply walk_readCell'|]. intros [key buff] Hk. cbn [fst] in Hk. wk.
Qed.
Hint Resolve walk_processCallbackStack : walk.

(** * Running contracts *)
Lemma walk_checkFinal l : walk l checkFinalGasAfterExit.
Proof. unfold checkFinalGasAfterExit, GetPointsUsed. wk. Qed.
Lemma walk_verifyAllowed l : walk l verifyAllowedFunctionCall.
Proof. unfold verifyAllowedFunctionCall. wk. Qed.
Hint Resolve walk_checkFinal walk_verifyAllowed walk_callFunction : walk.
Lemma walk_callInit : walk (true, true) (callInitFunction run rd).
Proof. unfold callInitFunction. eapply walkp_bind; [apply walk_GetInit'|]. intros [p|] Hp; wk. Qed.
Lemma walk_callSC : walk (true, true) (callSCMethod run rd).
Proof.
  unfold callSCMethod. apply walk_bind; [wk|intros _]. apply walk_bind; [wk|intros t].
  eapply walkp_bind; [apply walkp_try, walk_getFunctionByCallType|]. intros [[p|]|e] Hp; wk.
Qed.
Lemma walk_callIndirect : walk (true, true) (callSCMethodIndirect run rd).
Proof.
  unfold callSCMethodIndirect. eapply walkp_bind; [apply walkp_try, walk_GetFunctionToCall'|]. intros [p|e] Hp; wk.
Qed.
Hint Resolve walk_callInit walk_callSC walk_callIndirect : walk.
Lemma walk_map_err {A} l (m : M A) f : walk l m -> walk l (map_err m f).
Proof. intros H. unfold map_err. wk. Qed.
Lemma walk_orOutOfGas l m : walk l m -> walk l (orOutOfGas m).
Proof. intros H. unfold orOutOfGas. wk. Qed.
Lemma walk_deductDirect p d : walk (p, true) (DeductInitialGasForDirectDeployment d).
Proof. apply walk_deduct. left. reflexivity. Qed.
Lemma walk_deductIndirect l d : op_create O = true -> walk l (DeductInitialGasForIndirectDeployment d).
Proof. intros H. apply walk_deduct. right. exact H. Qed.
Hint Resolve walk_map_err walk_orOutOfGas walk_deductDirect : walk.
Lemma keeps_cur_deduct c b p : keeps fcur (deductInitialGas c b p).
Proof. kp. Qed.
Lemma walk0_deploy d : walk0 true (deployContract run rd d).
Proof.
  unfold deployContract, MustVerifyNextContractCode, GetGasForExecution.
  apply walk0_bind_pre; [wk| |].
  { unfold orOutOfGas, DeductInitialGasForDirectDeployment. apply keeps_bind; [apply keeps_try, keeps_cur_deduct|]. intros [u|e]; kp. }
  intros _. apply walk0_bind_pre; [wk|kp|]. intros _. apply walk0_bind_pre; [wk|kp|]. intros g.
  apply walk0_bind_post; [apply walk0_map_err, walk0_Start|]. intros _. wk.
Qed.
Lemma walk_failIf l : walk l failIfReturnCodeNotOk.
Proof. unfold failIfReturnCodeNotOk. wk. Qed.
Hint Resolve walk_failIf : walk.
Lemma walk0_upgrade i : walk0 true (executeUpgrade run rd i).
Proof.
  unfold executeUpgrade. apply walk0_bind_pre; [wk|kp|]. intros w. apply walk0_bind_pre; [wk|apply keeps_lift|]. intros _.
  apply walk0_bind_pre; [wk|kp|]. intros [code meta]. apply walk0_bind_post; [apply walk0_deploy|]. intros _. wk.
Qed.
Lemma walk0_execute i : walk0 true (execute run rd i).
Proof.
  unfold execute, GetGasForExecution. apply walk0_bind_pre; [wk|kp|]. intros own. apply walk0_bind_pre; [wk|kp|]. intros _.
  apply walk0_bind_pre; [wk|kp|]. intros _. destruct (beq _ _); [apply walk0_upgrade|].
  apply walk0_bind_pre; [wk|kp|]. intros code. apply walk0_bind_pre; [wk| |].
  { unfold DeductInitialGasForExecution. destruct (e_aot E); apply keeps_cur_deduct. }
  intros _. apply walk0_bind_pre; [wk|kp|]. intros g. apply walk0_bind_post; [apply walk0_Start|]. intros _. wk.
Qed.
Lemma transfer_unstarted d s v c h h' r : unstarted O h -> TransferValueOnly d s v c h = (h', r) -> unstarted O h'.
Proof.
  intros Hu H. assert (Hk : keeps fcur (TransferValueOnly d s v c)) by kp. apply Hk in H. injection H as H1 H2.
  unfold unstarted in *. intros Ho1. specialize (Hu Ho1). congruence.
Qed.
Lemma unstarted_dest i h : unstarted O (destPush i h).
Proof. intros _. reflexivity. Qed.
Lemma unstarted_same i h : unstarted O (samePush i h).
Proof. intros _. reflexivity. Qed.

(** * Calls on the destination's context *)
Lemma paid_push i h h1 :
  r_addr (h_rt h1) = ci_rcpt i -> h_rtst h1 = h_rt h :: h_rtst h -> pay_ok i h ->
  vi_ctype (ci_vm i) <> AsynchronousCallBack \/ vi_value (ci_vm i) = 0 \/ op_any O = true ->
  paid O h1 (vi_caller (ci_vm i)) (ci_rcpt i) (vi_value (ci_vm i)).
Proof.
  intros Ha Hs Hp Ht. unfold paid. rewrite Ha, Hs. cbn [head].
  destruct Hp as [H|[H|[H|[H|[H H']]]]].
  - left. exact H.
  - right; left. exact H.
  - destruct Ht as [Ht|[Ht|Ht]]; [congruence|left; exact Ht|right; left; exact Ht].
  - right; right; right; left. split; [reflexivity|]. cbn. congruence.
  - right; right; right; right. split; [reflexivity|]. split; [exact H|]. cbn. congruence.
Qed.

Lemma destInput_same i h :
  let j := unlocked (dest_input i h) in
  ci_rcpt j = ci_rcpt i /\ ci_fn j = ci_fn i /\ ci_init j = ci_init i /\ vi_caller (ci_vm j) = vi_caller (ci_vm i) /\
  vi_value (ci_vm j) = vi_value (ci_vm i) /\ vi_ctype (ci_vm j) = vi_ctype (ci_vm i) /\
  vi_args (ci_vm j) = vi_args (ci_vm i) /\ vi_esdt (ci_vm j) = vi_esdt (ci_vm i).
Proof.
  cbv zeta. destruct (copyTx_same (r_input (h_rt h)) i) as (R1 & R2 & R3 & R4 & R5 & R6 & R7 & _ & _ & R8).
  unfold unlocked, unlockGasIfAsyncCallback, dest_input. cbn [ci_rcpt ci_fn ci_init ci_vm set_ci_vm].
  repeat split; try assumption; destruct (bool_decide _); cbn; assumption.
Qed.

Lemma CreateErr_ok e h : exists h' o, CreateVMOutputInCaseOfError e h = (h', OOk o).
Proof.
  unfold CreateVMOutputInCaseOfError. rewrite bind_gets. cbv zeta. unfold UpdateGasStateOnFailure.
  rewrite bind_assoc, bind_gets.
  destruct (GetOutputAccount_spec (r_addr (h_rt h)) h) as (h1 & x & n & Heq & _).
  rewrite bind_assoc, (bind_ok _ _ _ _ _ Heq), bind_assoc, bind_gets. unfold upd_account. rewrite bind_modify.
  eexists _, _. reflexivity.
Qed.
Lemma GetVMOutput_ok h : exists h' o, GetVMOutput h = (h', OOk o).
Proof.
  unfold GetVMOutput, removeNonUpdatedCode. rewrite bind_modify. unfold GasLeft. rewrite bind_gets, bind_modify.
  set (h1 := set_h_out _ _). clearbody h1.
  assert (Hu : exists h2, UpdateGasStateOnSuccess h1 = (h2, OOk tt) \/ exists e, UpdateGasStateOnSuccess h1 = (h2, OErr e)).
  { unfold UpdateGasStateOnSuccess, updateSCGasUsed. rewrite bind_assoc, bind_gets.
    destruct (GetOutputAccount_spec (r_addr (h_rt h1)) h1) as (h2 & x & n & Heq & _).
    rewrite bind_assoc, (bind_ok _ _ _ _ _ Heq). unfold setGasUsedToOutputAccounts. rewrite bind_modify.
    rewrite bind_assoc, bind_modify, bind_assoc, bind_gets.
    destruct (negb _); cbn [fail_if].
    - eexists. right. eexists. reflexivity.
    - rewrite bind_ret. unfold checkGas. destruct (negb _); [eexists; left; reflexivity|].
      rewrite bind_gets. destruct (negb _); cbn [fail_if]; [eexists; right; eexists; reflexivity|eexists; left; reflexivity]. }
  destruct Hu as (h2 & [Hu|[e Hu]]); unfold bind, try; rewrite Hu.
  - eexists _, _. reflexivity.
  - apply CreateErr_ok.
Qed.

Lemma bind_cong {A B} (m : M A) (k k' : A -> M B) h : (forall a h, k a h = k' a h) -> bind m k h = bind m k' h.
Proof. intros H. unfold bind. destruct (m h) as [h1 [a|e| |]]; auto. Qed.
Lemma finish_unfold e h :
  finishExecuteOnDestContext e h =
  (o <- match e with Some e => CreateVMOutputInCaseOfError e | None => GetVMOutput end ;;
   destPopM (bool_decide (o_code o = RcOk)) ;;; RestoreGas (o_gasrem o) ;;; ret o) h.
Proof.
  unfold finishExecuteOnDestContext. apply bind_cong. intros o h1. unfold destPopM.
  rewrite bind_assoc. apply bind_cong. intros _ h2. rewrite bind_assoc. apply bind_cong. intros _ h3.
  rewrite bind_assoc. reflexivity.
Qed.
Lemma finish_run e h : exists h1 o,
  match e with Some e => CreateVMOutputInCaseOfError e | None => GetVMOutput end h = (h1, OOk o) /\
  finishExecuteOnDestContext e h = (RestoreGas (o_gasrem o) ;;; ret o) (destPop (bool_decide (o_code o = RcOk)) h1).
Proof.
  assert (Hm : exists h1 o, match e with Some e => CreateVMOutputInCaseOfError e | None => GetVMOutput end h = (h1, OOk o))
    by (destruct e; [apply CreateErr_ok|apply GetVMOutput_ok]).
  destruct Hm as (h1 & o & Hm). exists h1, o. split; [exact Hm|].
  rewrite finish_unfold, (bind_ok _ _ _ _ _ Hm), (bind_ok _ _ _ _ _ (destPop_ok _ _)). reflexivity.
Qed.
Lemma RestoreGas_noerr g h h' e : RestoreGas g h <> (h', OErr e).
Proof.
  intros H. unfold RestoreGas, GetPointsUsed in H. rewrite bind_gets in H. unfold SetPointsUsed, upd_inst, cur_inst in H.
  destruct (_ <=? _); [|discriminate]. unfold bind in H. destruct (h_cur h); [|discriminate].
  destruct (h_insts h !! _); discriminate.
Qed.
Lemma finish_noerr e h h' x : finishExecuteOnDestContext e h <> (h', OErr x).
Proof.
  destruct (finish_run e h) as (h1 & o & _ & ->). intros H. unfold bind in H.
  destruct (RestoreGas _ _) as [h2 [?|?| |]] eqn:Hr; try discriminate. eapply RestoreGas_noerr, Hr.
Qed.

Lemma finishDest_eff l i h h2 b e h' r :
  eff O true (destPush i h) h2 b -> good O true h2 -> finishExecuteOnDestContext e h2 = (h', r) -> r <> OFuel ->
  eff O l h h' (b || pan r).
Proof.
  intros He Hg H Hr. destruct (finish_run e h2) as (h3 & o & Hm & Hf). rewrite Hf in H. clear Hf.
  assert (Hw : walk (true, true) (match e with Some e => CreateVMOutputInCaseOfError e | None => GetVMOutput end))
    by (destruct e; wk).
  pose proof (Hw h2 h3 _ Hg Hm ltac:(discriminate)) as He3. cbn [pan snd] in He3.
  pose proof (E_trans O _ _ _ _ _ _ He He3) as He'. rewrite orb_false_r in He'.
  assert (Hg3 : good O true h3) by exact (eff_good O true _ _ _ _ He3 Hg).
  set (ok := bool_decide (o_code o = RcOk)) in *.
  pose proof (E_dest O l h i h3 b ok He') as Hd.
  assert (Hg4 : good O true (destPop ok h3)).
  { destruct Hg3 as [G1 G2]. split.
    - intros _. rewrite destPop_stoprot. auto.
    - eapply mods_sub; [apply destPop_insts|exact G2]. }
  eapply E_trans; [exact Hd|]. refine ((_ : walk (true, l) _) _ h' r Hg4 H Hr). wk.
Qed.

Lemma execDestNB_eff l i h h' r :
  good O true h -> executeOnDestContextNoBuiltinFunction run rd i h = (h', r) -> r <> OFuel -> pay_ok i h ->
  eff O l h h' (pan r).
Proof.
  intros Hg H Hr Hp. unfold executeOnDestContextNoBuiltinFunction in H.
  rewrite (bind_ok _ _ _ _ _ (pushDest_eq i h)) in H.
  destruct (destInput_same i h) as (J1 & J2 & J3 & J4 & J5 & J6 & _).
  set (j := unlocked (dest_input i h)) in *.
  assert (Hg1 : good O true (destPush i h)) by exact Hg.
  assert (Hbody : forall h2 o, destBody run rd j (destPush i h) = (h2, o) -> o <> OFuel ->
                    eff O true (destPush i h) h2 (pan o)).
  { intros h2 o Hb Ho. unfold destBody in Hb. unfold bind at 1, try in Hb.
    lazymatch type of Hb with context [bind ?t (fun _ => execute run rd j)] => set (tr := t) in Hb; set (m := bind tr (fun _ => execute run rd j)) in Hb end.
    destruct (m (destPush i h)) as [h3 o3] eqn:Hm.
    assert (Ho3 : o3 <> OFuel) by (intros ->; congruence).
    assert (He3 : eff O true (destPush i h) h3 (pan o3)).
    { unfold m in Hm. unfold bind at 1 in Hm.
      destruct (tr (destPush i h)) as [h4 o4] eqn:Ht.
      assert (Ho4 : o4 <> OFuel) by (intros ->; congruence).
      assert (He4 : eff O true (destPush i h) h4 (pan o4)).
      { unfold tr in Ht. destruct (negb _ || _) eqn:Hc.
        - eapply TransferValueOnly_eff; [exact Ht|exact Ho4|].
          rewrite J4, J1, J5. apply (paid_push i h).
          + apply (proj1 (copyTx_same (r_input (h_rt h)) i)).
          + reflexivity.
          + exact Hp.
          + rewrite J6, J5 in Hc. apply orb_true_iff in Hc. destruct Hc as [Hc|Hc].
            * left. intros Ht'. rewrite Ht' in Hc. discriminate.
            * right; left. apply Z.eqb_eq, Hc.
        - injection Ht as <- <-. apply E_refl. }
      destruct o4; try (injection Hm as <- <-; exact He4).
      eapply eff_seq; [exact He4|]. eapply (walk0_execute j); [| |exact Hm|exact Ho3].
      - eapply (eff_good O true); eauto.
      - unfold tr in Ht. destruct (negb _ || _); [exact (transfer_unstarted _ _ _ _ _ _ _ (unstarted_dest i h) Ht)|].
        injection Ht as <-. apply unstarted_dest. }
    assert (Hg3 : good O true h3) by (eapply (eff_good O true); eauto).
    destruct o3 as [u|er| |].
    - eapply eff_seq; [exact He3|]. refine ((_ : walk (true, true) _) h3 h2 o Hg3 Hb Ho). wk. apply (walk_try (true, true) (processAsyncInfo rd)). wk.
    - injection Hb as <- <-. exact He3.
    - injection Hb as <- <-. exact He3.
    - congruence. }
  unfold deferring in H. destruct (destBody run rd j (destPush i h)) as [h2 o] eqn:Hb.
  assert (Ho : o <> OFuel) by (intros ->; injection H as <- <-; exact (Hr eq_refl)).
  pose proof (Hbody h2 o eq_refl Ho) as He.
  assert (Hg2 : good O true h2) by (eapply (eff_good O true); eauto).
  assert (Hfin : forall x, (let '(info, e) := match x with inl x => x | inr e => (None, Some e) end in
       o <- finishExecuteOnDestContext e ;;
       ret (Some o, info,
            match e with
            | Some e => Some e
            | None => if bool_decide (o_code o = RcOk) then None else Some ErrExecutionFailed
            end)) h2 = (h', r) -> pan o = false -> eff O l h h' (pan r)).
  { intros x Hx Hpo. destruct (match x with inl x => x | inr e => _ end) as [info e].
    unfold bind in Hx. destruct (finishExecuteOnDestContext e h2) as [h3 o3] eqn:Hf.
    assert (Ho3 : o3 <> OFuel) by (intros ->; injection Hx as <- <-; exact (Hr eq_refl)).
    pose proof (finishDest_eff l i h h2 _ e h3 o3 He Hg2 Hf Ho3) as He3. rewrite Hpo in He3. cbn [orb] in He3.
    destruct o3; try (injection Hx as <- <-; exact He3). }
  destruct o as [[info er]|er| |].
  - apply (Hfin (inl (info, er)) H eq_refl).
  - apply (Hfin (inr er) H eq_refl).
  - unfold bind in H. destruct (finishExecuteOnDestContext None h2) as [h3 o3] eqn:Hf.
    assert (Ho3 : o3 <> OFuel) by (intros ->; injection H as <- <-; exact (Hr eq_refl)).
    pose proof (finishDest_eff l i h h2 _ None h3 o3 He Hg2 Hf Ho3) as He3. cbn [orb pan] in He3.
    destruct o3; try (injection H as <- <-; exact He3); exfalso; apply Ho3; reflexivity.
  - exfalso; apply Ho; reflexivity.
Qed.

Lemma handleBuiltin_eff l i h h' r : good O (fst l) h -> handleBuiltinFunctionCall i h = (h', r) -> r <> OFuel ->
  eff O (snd l) h h' (pan r) /\
  (forall post o p, r = OOk (post, o) -> post = Some p -> vi_value (ci_vm p) = 0).
Proof.
  intros Hg H Hr. unfold handleBuiltinFunctionCall in H. unfold bind at 1 in H.
  destruct (callBuiltinFunction i h) as [h1 o1] eqn:Hc.
  assert (Ho1 : o1 <> OFuel) by (intros ->; congruence).
  destruct (callBuiltin_eff l i h h1 o1 Hg Hc Ho1) as [He Hpost].
  destruct o1 as [[post o]|e| |].
  2-3: injection H as <- <-; split; [exact He|intros; discriminate].
  2: congruence.
  destruct (Hpost post o eq_refl) as (w & w' & o0 & Hb & Hre & Hv).
  assert (Ha : exists h2, AddToActiveState o h1 = (h2, OOk tt)) by (eexists; reflexivity).
  destruct Ha as [h2 Ha]. rewrite (bind_ok _ _ _ _ _ Ha) in H. injection H as <- <-.
  split; [|intros ? ? ? [= <- <-]; apply Hv].
  eapply eff_seq; [exact He|]. pose proof (E_addout O (snd l) h1 w i w' o0 o Hb Hre) as Hadd.
  rewrite Ha in Hadd. exact Hadd.
Qed.

Lemma bcPopSet_ok h : blockchain_PopSetActiveState h = (bcPop true h, OOk tt).
Proof. reflexivity. Qed.
Lemma bcPopDiscard_ok h : blockchain_PopDiscard h = (bcPop false h, OOk tt).
Proof. reflexivity. Qed.

Lemma execDest_eff l i h h' r :
  good O true h -> ExecuteOnDestContext run rd i h = (h', r) -> r <> OFuel -> pay_ok i h -> eff O l h h' (pan r).
Proof.
  intros Hg H Hr Hp. unfold ExecuteOnDestContext in H.
  rewrite (bind_ok _ _ h (bcPush h) tt) in H by reflexivity.
  assert (Hg1 : good O true (bcPush h)) by exact Hg.
  assert (Hp1 : pay_ok i (bcPush h)) by exact Hp.
  assert (Hgp : forall rv h2, good O true h2 -> good O true (bcPop rv h2)).
  { intros rv h2 [G1 G2]. split; [intros _; rewrite bcPop_h_stoprot; auto|].
    eapply mods_sub; [|exact G2]. rewrite bcPop_h_insts. reflexivity. }
  lazymatch type of H with bind ?t _ _ = _ => set (m := t) in H end. unfold bind at 1 in H.
  destruct (m (bcPush h)) as [h1 o1] eqn:Hm.
  assert (Ho1 : o1 <> OFuel) by (intros ->; fuel).
  assert (Hs : eff O l (bcPush h) h1 (pan o1) /\ forall p o, o1 = OOk (inl (Some p, o)) -> pay_ok p h1).
  { unfold m in Hm. destruct (e_isBuiltin E (ci_fn i)).
    - unfold bind at 1, try in Hm. destruct (handleBuiltinFunctionCall i (bcPush h)) as [h2 o2] eqn:Hh.
      assert (Ho2 : o2 <> OFuel) by (intros ->; fuel).
      destruct (handleBuiltin_eff (true, l) i (bcPush h) h2 o2 Hg1 Hh Ho2) as [He Hv].
      destruct o2 as [[post o]|e| |]; cbv beta iota in Hm.
      + injection Hm as <- <-. split; [exact He|]. intros p o' [= -> <-]. left. eapply Hv; reflexivity.
      + injection Hm as <- <-. split; [exact He|]. intros; discriminate.
      + injection Hm as <- <-. split; [exact He|]. intros; discriminate.
      + exfalso; apply Ho2; reflexivity.
    - injection Hm as <- <-. split; [apply E_refl|]. intros p o [= <- <-]. exact Hp1. }
  destruct Hs as [He Hpp]. assert (Hg1' : good O true h1) by (eapply (eff_good O true); eauto).
  destruct o1 as [[[post o]|e]|e| |].
  - unfold bind at 1 in H.
    lazymatch type of H with context [match post with Some i => @?f i | None => ?g end] => set (m2 := match post with Some i => f i | None => g end) in H end.
    destruct (m2 h1) as [h2 o2] eqn:Hm2.
    assert (Ho2 : o2 <> OFuel) by (intros ->; fuel).
    assert (He2 : eff O l h1 h2 (pan o2)).
    { unfold m2 in Hm2. destruct post as [p|].
      - eapply execDestNB_eff; [exact Hg1'|exact Hm2|exact Ho2|]. eapply Hpp; reflexivity.
      - injection Hm2 as <- <-. apply E_refl. }
    pose proof (eff_seq _ _ _ _ _ _ He He2) as He'.
    destruct o2 as [[[o2 info] e]|e| |].
    + destruct e; [rewrite (bind_ok _ _ _ _ _ (bcPopSet_ok h2)) in H|rewrite (bind_ok _ _ _ _ _ (bcPopDiscard_ok h2)) in H];
        injection H as <- <-; apply E_bc; exact He'.
    + injection H as <- <-. exfalso.
      (* executeOnDestContextNoBuiltinFunction gives no error *)
      unfold m2 in Hm2. destruct post as [p|]; [|discriminate].
      unfold executeOnDestContextNoBuiltinFunction in Hm2.
      rewrite (bind_ok _ _ _ _ _ (pushDest_eq p h1)) in Hm2. unfold deferring in Hm2.
      destruct (destBody _ _ _ _) as [h3 [[inf er]|er| |]]; [| |destruct (bind _ _ _) as [? []]; discriminate|discriminate].
      * unfold bind in Hm2. destruct (finishExecuteOnDestContext _ _) as [h4 [?|?| |]] eqn:Hf; try discriminate.
        eapply finish_noerr, Hf.
      * unfold bind in Hm2. destruct (finishExecuteOnDestContext _ _) as [h4 [?|?| |]] eqn:Hf; try discriminate.
        eapply finish_noerr, Hf.
    + injection H as <- <-. apply E_bcleak. exact He'.
    + exfalso; apply Ho2; reflexivity.
  - rewrite (bind_ok _ _ _ _ _ (bcPopSet_ok h1)) in H. eapply eff_seq; [apply E_bc; exact He|].
    refine ((_ : walk (true, l) _) _ h' r (Hgp true h1 Hg1') H Hr). wk.
  - exfalso. unfold m in Hm. destruct (e_isBuiltin E (ci_fn i)); [|discriminate].
    unfold bind, try in Hm. destruct (handleBuiltinFunctionCall i (bcPush h)) as [? [[? ?]|?| |]]; discriminate.
  - injection H as <- <-. apply E_bcleak. exact He.
  - exfalso; apply Ho1; reflexivity.
Qed.

(** * Calls on the same context *)
Lemma finishSame_run e h :
  (exists h', finishExecuteOnSameContext e h = (h', OOk tt) /\ h' = samePop false h) \/
  (exists h1 o, GetVMOutput h = (h1, OOk o) /\
     finishExecuteOnSameContext e h = RestoreGas (o_gasrem o) (samePop true h1)).
Proof.
  unfold finishExecuteOnSameContext. rewrite bind_gets. destruct (negb _ || _).
  - left. eexists. split; [exact (samePop_ok false h)|reflexivity].
  - right. destruct (GetVMOutput_ok h) as (h1 & o & Hm). exists h1, o. split; [exact Hm|].
    rewrite (bind_ok _ _ _ _ _ Hm).
    transitivity ((samePopM true ;;; RestoreGas (o_gasrem o)) h1).
    + unfold samePopM. rewrite bind_assoc. apply bind_cong. intros _ h2. rewrite bind_assoc. apply bind_cong. intros _ h3.
      rewrite bind_assoc. apply bind_cong. intros _ h4. rewrite bind_assoc. reflexivity.
    + rewrite (bind_ok _ _ _ _ _ (samePop_ok true h1)). reflexivity.
Qed.

Lemma finishSame_eff l i h h2 b e h' r :
  eff O true (samePush i h) h2 b -> good O true h2 -> finishExecuteOnSameContext e h2 = (h', r) -> r <> OFuel ->
  eff O l h h' (b || pan r).
Proof.
  intros He Hg H Hr. destruct (finishSame_run e h2) as [(h3 & Hf & ->)|(h3 & o & Hm & Hf)]; rewrite Hf in H.
  - injection H as <- <-. cbn [pan]. rewrite orb_false_r. eapply E_same. exact He.
  - pose proof (walk_GetVMOutput (true, true) h2 h3 _ Hg Hm ltac:(discriminate)) as He3. cbn [pan snd] in He3.
    pose proof (E_trans O _ _ _ _ _ _ He He3) as He'. rewrite orb_false_r in He'.
    assert (Hg3 : good O true h3) by exact (eff_good O true _ _ _ _ He3 Hg).
    pose proof (E_same O l h i h3 b true He') as Hd.
    assert (Hg4 : good O true (samePop true h3)).
    { destruct Hg3 as [G1 G2]. split.
      - intros _. rewrite samePop_stoprot. auto.
      - eapply mods_sub; [apply samePop_insts|exact G2]. }
    eapply E_trans; [exact Hd|]. exact (walk_RestoreGas (true, l) _ _ h' r Hg4 H Hr).
Qed.

Lemma execSame_unfold i h : e_isBuiltin E (ci_fn i) = false ->
  ExecuteOnSameContext run rd i h =
  let j := unlocked (dest_input i h) in
  deferring (TransferValueOnly (ci_rcpt j) (vi_caller (ci_vm j)) (vi_value (ci_vm j)) false ;;; execute run rd j)
    (fun r => match r with
              | inl _ => finishExecuteOnSameContext None
              | inr e => finishExecuteOnSameContext (Some e) ;;; fail e
              end)
    (finishExecuteOnSameContext None) (samePush i h).
Proof.
  intros Hb. unfold ExecuteOnSameContext. rewrite Hb. cbn [fail_if]. rewrite bind_ret.
  rewrite (bind_ok _ _ h (bigPush h) tt) by reflexivity.
  rewrite (bind_ok _ _ _ (outPush (bigPush h)) tt) by reflexivity.
  rewrite bind_gets.
  change (r_input (h_rt (outPush (bigPush h)))) with (r_input (h_rt h)).
  cbv zeta. fold (dest_input i h).
  set (h4 := outPush _).
  rewrite (bind_ok _ _ _ (rtPush h4) tt) by reflexivity.
  rewrite (bind_ok _ _ _ (set_h_rt (dest_frame i h) (rtPush h4)) tt) by reflexivity.
  set (h5 := set_h_rt _ _).
  rewrite (bind_ok _ _ _ (metPush h5) tt) by reflexivity.
  rewrite (bind_ok _ _ _ (set_h_met (met0 (ci_vm (dest_input i h))) (metPush h5))
             (unlockGasIfAsyncCallback (ci_vm (dest_input i h)))) by reflexivity.
  set (h6 := set_h_met _ _).
  rewrite (bind_ok _ _ _ (bcPush h6) tt) by reflexivity.
  reflexivity.
Qed.

Lemma execSame_eff l i h h' r :
  good O true h -> ExecuteOnSameContext run rd i h = (h', r) -> r <> OFuel -> pay_ok i h ->
  vi_ctype (ci_vm i) <> AsynchronousCallBack \/ op_any O = true -> eff O l h h' (pan r).
Proof.
  intros Hg H Hr Hp Hct.
  destruct (e_isBuiltin E (ci_fn i)) eqn:Hbi.
  { unfold ExecuteOnSameContext in H. rewrite Hbi in H. injection H as <- <-. apply E_refl. }
  rewrite (execSame_unfold i h Hbi) in H. cbv zeta in H.
  destruct (destInput_same i h) as (J1 & J2 & J3 & J4 & J5 & J6 & _).
  set (j := unlocked (dest_input i h)) in *.
  assert (Hg1 : good O true (samePush i h)) by exact Hg.
  unfold deferring in H. destruct (bind _ _ (samePush i h)) as [h2 o] eqn:Hb.
  assert (Ho : o <> OFuel) by (intros ->; fuel).
  assert (He : eff O true (samePush i h) h2 (pan o)).
  { unfold bind at 1 in Hb. destruct (TransferValueOnly _ _ _ _ (samePush i h)) as [h4 o4] eqn:Ht.
    assert (Ho4 : o4 <> OFuel) by (intros ->; fuel).
    assert (He4 : eff O true (samePush i h) h4 (pan o4)).
    { eapply TransferValueOnly_eff; [exact Ht|exact Ho4|].
      rewrite J4, J1, J5. apply (paid_push i h).
      - apply (proj1 (copyTx_same (r_input (h_rt h)) i)).
      - reflexivity.
      - exact Hp.
      - destruct Hct; auto. }
    destruct o4; try (injection Hb as <- <-; exact He4).
    eapply eff_seq; [exact He4|]. eapply (walk0_execute j); [| |exact Hb|exact Ho].
    - eapply (eff_good O true); eauto.
    - exact (transfer_unstarted _ _ _ _ _ _ _ (unstarted_same i h) Ht). }
  assert (Hg2 : good O true h2) by (eapply (eff_good O true); eauto).
  destruct o as [[]|er| |].
  - exact (finishSame_eff l i h h2 _ None h' r He Hg2 H Hr).
  - unfold bind in H. destruct (finishExecuteOnSameContext (Some er) h2) as [h3 o3] eqn:Hf.
    assert (Ho3 : o3 <> OFuel) by (intros ->; fuel).
    pose proof (finishSame_eff l i h h2 _ _ h3 o3 He Hg2 Hf Ho3) as He3. cbn [pan orb] in He3.
    destruct o3; injection H as <- <-; exact He3.
  - destruct (finishExecuteOnSameContext None h2) as [h3 o3] eqn:Hf.
    assert (Ho3 : o3 <> OFuel) by (intros ->; fuel).
    pose proof (finishSame_eff l i h h2 _ _ h3 o3 He Hg2 Hf Ho3) as He3. cbn [pan orb] in He3.
    destruct o3; try (injection H as <- <-; exact He3). exfalso; apply Ho3; reflexivity.
  - exfalso; apply Ho; reflexivity.
Qed.

End calls.

(** * API calls *)

(** the frame's address, without looking at the instances *)
Lemma eff_rt l h h' b : eff O l h h' b ->
  h_rtst h' = h_rtst h /\ h_ist h' = h_ist h /\ r_addr (h_rt h') = r_addr (h_rt h) /\
  vi_caller (r_input (h_rt h')) = vi_caller (r_input (h_rt h)).
Proof.
  induction 1 as [ | l h1 h2 h3 b1 b2 H1 IH1 H2 IH2 | | | | | | | | | | l h h2 b H IH |
    | l h f Hf | l h ro | h m g Hm | h | h m g
    | | | | | l h h2 a Ho Hc Hro H IH | | | l h h2 b H IH | l h h2 rv H IH | l h h2 H IH | l h i h2 b ok H IH | l h i h2 b ok H IH];
    try (repeat split; reflexivity); try exact IH.
  - destruct IH1 as (A1 & A2 & A3 & A4), IH2 as (B1 & B2 & B3 & B4). repeat split; congruence.
  - destruct Hf as (? & ? & ? & ? & ? & ? & ?). repeat split; auto.
  - autorewrite with pops. exact IH.
  - destruct IH as (A1 & A2 & _). rewrite destPop_unfold.
    set (h6 := outPop _ _).
    destruct (rtPop_set h6 (h_rt h) (h_rtst h) (h_cur h) (h_ist h)) as (G1 & G2 & G3 & G4 & G5);
      [unfold h6; autorewrite with pops; exact A1|unfold h6; autorewrite with pops; exact A2|].
    rewrite G1, G2, G3. repeat split.
  - destruct IH as (A1 & A2 & _). rewrite samePop_unfold. destruct ok.
    + set (h6 := bcPop _ _).
      destruct (rtPop_set h6 (h_rt h) (h_rtst h) (h_cur h) (h_ist h)) as (G1 & G2 & G3 & G4 & G5);
        [unfold h6; autorewrite with pops; exact A1|unfold h6; autorewrite with pops; exact A2|].
      rewrite G1, G2, G3. repeat split.
    + set (h6 := outPop _ _).
      destruct (rtPop_set h6 (h_rt h) (h_rtst h) (h_cur h) (h_ist h)) as (G1 & G2 & G3 & G4 & G5);
        [unfold h6; autorewrite with pops; exact A1|unfold h6; autorewrite with pops; exact A2|].
      autorewrite with pops. rewrite G1, G2, G3. repeat split.
Qed.

Section api.
Context (ed : edf) (es : same).
Hypothesis Hed : walk_ed ed.
Hypothesis Hes : walk_es es.

(** a call made by the running contract *)
Lemma exec_dest_eff l i h h' r : good O true h -> exec_dest ed i h = (h', r) -> r <> OFuel -> pay_ok i h ->
  eff O l h h' (pan r).
Proof.
  intros Hg H Hr Hp. unfold exec_dest, bind in H. destruct (ed i h) as [h1 o] eqn:Hd.
  assert (Ho : o <> OFuel) by (intros ->; fuel).
  pose proof (Hed l i h h1 o Hg Hd Ho Hp) as He.
  destruct o as [x|e| |]; try (injection H as <- <-; exact He).
  destruct (snd x); injection H as <- <-; exact He.
Qed.

Lemma create_eff l i h h' r : op_create O = true -> good O true h -> CreateNewContract ed i h = (h', r) -> r <> OFuel ->
  vi_caller (cc_vm i) = r_addr (h_rt h) -> eff O l h h' (pan r).
Proof.
  intros Hop Hg H Hr Hc. unfold CreateNewContract in H.
  assert (Hb : forall {A} (m : M A) (k : A -> M bytes) hs h0, good O true h0 -> eff O l hs h0 false ->
            walk (true, l) m -> bind m k h0 = (h', r) ->
            (forall a h1, good O true h1 -> eff O l hs h1 false -> k a h1 = (h', r) -> eff O l hs h' (pan r)) ->
            eff O l hs h' (pan r)).
  { clear -Hr. intros A m k hs h0 Hg He Hw H Hk. unfold bind in H. destruct (m h0) as [h1 o] eqn:Hm.
    assert (Ho : o <> OFuel) by (intros ->; fuel).
    pose proof (Hw h0 h1 o Hg Hm Ho) as He1. cbn [snd] in He1.
    destruct o as [a|e| |].
    - eapply Hk; [exact (eff_good O true _ _ _ _ He1 Hg)|eapply eff_seq; eauto|exact H].
    - injection H as <- <-. eapply eff_seq; eauto.
    - injection H as <- <-. eapply eff_seq; eauto.
    - exfalso; apply Ho; reflexivity. }
  cbv zeta in H.
  eapply (Hb _ _ _ h); [exact Hg|apply E_refl|apply walk_deductIndirect; assumption|exact H|]. clear H. intros [] h1 Hg1 He1 H.
  rewrite bind_gets in H.
  destruct (r_ro (h_rt h1)) eqn:Hrof; [cbn in H; injection H as <- <-; exact He1|].
  rewrite (bind_ok _ _ h1 h1 tt) in H by reflexivity.
  assert (Hc1 : vi_caller (cc_vm i) = r_addr (h_rt h1)).
  { destruct (eff_rt _ _ _ _ He1) as (_ & _ & -> & _). exact Hc. }
  eapply eff_seq; [exact He1|]. clear Hc He1 Hg h. rename h1 into h, Hg1 into Hg, Hc1 into Hc.
  unfold bind at 1 in H. destruct (NewAddress _ h) as [h4 on] eqn:Hna.
  assert (Hon : on <> OFuel) by (intros ->; fuel).
  pose proof (walk_NewAddress (true, l) _ h h4 on Hg Hna Hon) as He4. cbn [snd] in He4.
  destruct on as [a|e| |]; [|injection H as <- <-; exact He4..|exfalso; apply Hon; reflexivity].
  pose proof (eff_good O true _ _ _ _ He4 Hg) as Hg4.
  pose proof (NewAddress_new _ _ _ _ Hna) as Hfresh.
  eapply Hb; [exact Hg4|exact He4|apply walk_gets|exact H|]. clear H. intros ex h5 Hg5 He5 H.
  eapply Hb; [exact Hg5|exact He5|apply walk_fail_if|exact H|]. clear H. intros [] h6 Hg6 He6 H.
  eapply Hb; [exact Hg6|exact He6|apply walk_DeployCode|exact H|]. clear H. intros [] h7 Hg7 He7 H.
  eapply Hb; [exact Hg7|exact He7|apply walk_set_verify|exact H|]. clear H. intros [] h8 Hg8 He8 H.
  unfold bind at 1 in H. destruct (ed _ h8) as [h9 o] eqn:Hd.
  assert (Ho : o <> OFuel) by (intros ->; fuel).
  assert (He9 : eff O l h8 h9 (pan o)).
  { eapply Hed; [exact Hg8|exact Hd|exact Ho|]. right; right; right; left. cbn [ci_vm].
    destruct (eff_rt _ _ _ _ He8) as (_ & _ & -> & _). exact Hc. }
  destruct o as [[[? ?] e]|e| |].
  - pose proof (eff_seq O l _ _ _ _ He8 He9) as He. pose proof (eff_good O true _ _ _ _ He9 Hg8) as Hg9.
    destruct e as [e|]; [|eapply eff_seq; [exact He|]; refine ((_ : walk (true, l) _) h9 h' r Hg9 H Hr); wk].
    unfold bind at 1 in H. destruct (DeleteOutputAccount a h9) as [h10 od] eqn:Hdl.
    injection (id Hdl) as _ Hod. subst od. injection H as <- <-.
    exact (delete_eff l a h h9 h10 (OOk tt) Hop Hfresh Hrof He Hdl).
  - injection H as <- <-. eapply eff_seq; [exact He8|exact He9].
  - injection H as <- <-. eapply eff_seq; [exact He8|exact He9].
  - exfalso; apply Ho; reflexivity.
Qed.

Lemma esdt_eff l dest token nonce v g f args : walk (true, l) (esdt_execute ed dest token nonce v g f args).
Proof.
  intros h h' r Hg H Hr. unfold esdt_execute in H. rewrite bind_gets in H. cbv zeta in H.
  unfold bind at 1, try in H.
  destruct (TransferESDT _ _ _ _ _ _ h) as [h1 o] eqn:Ht.
  assert (Ho : o <> OFuel) by (intros ->; fuel).
  pose proof (walk_TransferESDT (true, l) _ _ _ _ _ _ h h1 o Hg Ht Ho) as He. cbn [snd] in He |- *.
  assert (Hg1 : good O true h1) by exact (eff_good O true _ _ _ _ He Hg).
  destruct o as [gas|e| |].
  - destruct (AreInSameShard _ _ && _); [|injection H as <- <-; exact He].
    unfold bind at 1 in H. destruct (exec_dest ed _ h1) as [h2 o2] eqn:Hx.
    assert (Ho2 : o2 <> OFuel) by (intros ->; fuel).
    assert (He2 : eff O l h1 h2 (pan o2)).
    { eapply exec_dest_eff; [exact Hg1|exact Hx|exact Ho2|]. left. reflexivity. }
    destruct o2 as [?|e| |]; cbv beta iota in H.
    + injection H as <- <-. eapply eff_seq; eauto.
    + injection H as <- <-. apply E_snap. eapply eff_seq; eauto.
    + injection H as <- <-. eapply eff_seq; eauto.
    + exfalso; apply Ho2; reflexivity.
  - eapply eff_seq; [exact He|]. refine ((_ : walk (true, l) _) h1 h' r Hg1 H Hr). wk.
  - injection H as <- <-. exact He.
  - exfalso; apply Ho; reflexivity.
Qed.

Lemma walk_interp {B} l (p : prim B) : prim_ok O p -> walk (true, l) (interp ed es p).
Proof.
  destruct p; cbn [prim_ok interp]; intros Hp.
  - wk.
  - wk.
  - wk.
  - wk.
  - wk.
  - wk.
  - intros h h' r _ H _. unfold big_op in H. destruct (big_put _ _) as [m x]. injection H as <- <-. apply E_big.
  - intros h h' r _ H _. unfold big_op in H. destruct (big_get _ _) as [m x]. injection H as <- <-. apply E_big.
  - apply walk_modify. intros h. apply E_big.
  - apply walk_SetStorage. left. reflexivity.
  - wk.
  - wk.
  - wk.
  - wk.
  - wk.
  - wk.
  - apply walk_Transfer_own.
  - wk.
  - wk.
  - wk.
  - wk.
  - wk.
  - intros h h' r Hg H Hr. rewrite bind_gets in H. eapply exec_dest_eff; eauto.
    destruct byCaller; [|right; right; right; left; reflexivity]. right; right; right; right. split; [auto|reflexivity].
  - intros h h' r Hg H Hr. rewrite bind_gets in H.
    eapply Hes; [exact Hg|exact H|exact Hr|right; right; right; left; reflexivity|left; discriminate].
  - intros h h' r Hg H Hr. rewrite bind_gets in H. unfold SetReadOnly in H. rewrite bind_modify in H. cbn [snd].
    set (h1 := set_h_trace _ _) in H.
    assert (He1 : eff O l h h1 false) by apply (E_ro O l h true).
    assert (Hg1 : good O true h1) by exact Hg.
    eapply eff_seq; [exact He1|].
    unfold bind at 1, try in H. destruct (es _ h1) as [h2 o] eqn:Hx.
    assert (Ho : o <> OFuel) by (intros ->; fuel).
    assert (He2 : eff O l h1 h2 (pan o)).
    { eapply Hes; [exact Hg1|exact Hx|exact Ho|right; right; right; left; reflexivity|left; discriminate]. }
    destruct o as [?|e| |]; cbv beta iota in H.
    + rewrite bind_modify in H. injection H as <- <-. eapply eff_seq; [exact He2|]. apply (E_ro O l h2 false).
    + rewrite bind_modify in H. injection H as <- <-. eapply eff_seq; [exact He2|]. apply (E_ro O l h2 false).
    + injection H as <- <-. exact He2.
    + exfalso; apply Ho; reflexivity.
  - apply esdt_eff.
  - intros h h' r Hg H Hr. rewrite bind_gets in H. eapply create_eff; eauto.
Qed.

Lemma walk_run_cmd l c : cmd_ok O c -> walk (true, l) (run_cmd ed es c).
Proof.
  induction c as [x| |B p k IH]; cbn [cmd_ok run_cmd]; intros Hc; [wk|wk|].
  destruct Hc as [Hp Hk]. apply walk_bind; [apply walk_try, walk_interp, Hp|]. intros x. apply IH, Hk.
Qed.

Lemma walk_runner l p : prog_ok O p -> walk (true, l) (runner ed es p).
Proof.
  unfold runner. induction p as [| |n p IH|o n k IH|o d p IH|k IH|c k IH]; cbn [prog_ok run_prog]; intros Hp; wk.
  - apply walk_upd_inst. intros ?x. split; [reflexivity|]. split; [reflexivity|]. intros _. apply AddUint64_nonneg.
  - apply walk_upd_inst. intros x. repeat split; exact (fun H => H).
  - apply walk_upd_inst. intros x. repeat split; exact (fun H => H).
  - apply walk_run_cmd, Hp.
  - apply IH, Hp.
Qed.
End api.

(** * The knot *)
Lemma walk_vm n : walk_ed (vmDest n) /\ walk_es (vmSame n).
Proof.
  induction n as [|n [IHd IHs]].
  - split; intros l i h h' r _ H Hr; injection H as <- <-; congruence.
  - assert (Hrun : forall l p, prog_ok O p -> walk (true, l) (runner (vmDest n) (vmSame n) p))
      by (intros; apply walk_runner; assumption).
    split.
    + intros l i h h' r Hg H Hr Hp. exact (execDest_eff _ _ Hrun IHd l i h h' r Hg H Hr Hp).
    + intros l i h h' r Hg H Hr Hp Ht. exact (execSame_eff _ _ Hrun IHd l i h h' r Hg H Hr Hp Ht).
Qed.
Lemma walk_vmApi n l c : cmd_ok O (api c) -> walk (true, l) (vmApi n c).
Proof. destruct (walk_vm n). apply walk_run_cmd; assumption. Qed.
Lemma walk_vmRun n l p : prog_ok O p -> walk (true, l) (vmRun n p).
Proof. destruct (walk_vm n). apply walk_runner; assumption. Qed.
End walk.

(** without the restriction to one instance *)
Section lax.
Context `{E : env} (O : opts) `{L : !lax O}.
Hypothesis codes_ok : forall code m, e_compile E code = Some m -> mod_ok O m.
Lemma lax_unstarted h : unstarted O h.
Proof. intros H. rewrite is_lax in H. discriminate H. Qed.
Lemma walk0_lax {A} p (m : M A) : walk0 O p m -> walk O (p, true) m.
Proof. intros Hm h h' r Hg H Hr. exact (Hm h h' r Hg (lax_unstarted h) H Hr). Qed.
Lemma walk_Start p c g n : walk O (p, true) (StartWasmerInstance c g n).
Proof. apply walk0_lax, walk0_Start, codes_ok. Qed.
Context (run : prog -> M bool) (rd : edf).
Hypothesis Hrun : forall l p, prog_ok O p -> walk O (true, l) (run p).
Hypothesis Hrd : walk_ed O rd.
Lemma walk_deploy d : walk O (true, true) (deployContract run rd d).
Proof. apply walk0_lax, walk0_deploy; assumption. Qed.
Lemma walk_execute i : walk O (true, true) (execute run rd i).
Proof. apply walk0_lax, walk0_execute; assumption. Qed.
End lax.
