(** Proofs for C43: the module that runs is the compilation of the code which
    the address has. *)
From Verif Require Import MathProofs VmModel WpProofs EffProofs EffFrameProofs EffWalkProofs EffTopProofs CallSpec KeepProofs CallProofs
  CallDataProofs OutProofs GasAsyncProofs ClassProofs CodeSpec IdentProofs DeploySpec DeployProofs.
From Coq Require Import ZifyBool ZifyNat ZifyN.

Section start.
Context `{E : env} (a : bytes).

Definition out_code (h : host) : bytes := default [] (oa_code <$> accounts h !! a).
Notation fn := (fun h : host => (out_code h, h_world h, h_cache h, r_addr (h_rt h))).

Lemma out_code_alter g b h : (forall x, oa_code (g x) = oa_code x) ->
  out_code (set_accounts (alter g b (accounts h)) h) = out_code h.
Proof.
  intros Hg. unfold out_code. cbn. destruct (decide (b = a)) as [->|Hn].
  - rewrite lookup_alter. destruct (accounts h !! a) as [x|]; [cbn; apply Hg|reflexivity].
  - rewrite lookup_alter_ne by exact Hn. reflexivity.
Qed.
Lemma n_alter g b h : (forall x, oa_code (g x) = oa_code x) ->
  fn (set_accounts (alter g b (accounts h)) h) = fn h.
Proof. intros Hg. cbn beta. rewrite out_code_alter by exact Hg. reflexivity. Qed.
Lemma n_GetOutputAccount b : keeps fn (GetOutputAccount b).
Proof.
  intros h h' r H. unfold GetOutputAccount in H. destruct (accounts h !! b) eqn:Hb; injection H as <- <-; [reflexivity|].
  cbn beta. assert (Ho : out_code (set_accounts (<[b:=NewVMOutputAccount]> (accounts h)) h) = out_code h).
  { unfold out_code. cbn. destruct (decide (b = a)) as [->|Hn].
    - rewrite lookup_insert, Hb. reflexivity.
    - rewrite lookup_insert_ne by exact Hn. reflexivity. }
  rewrite Ho. reflexivity.
Qed.
Hint Resolve n_GetOutputAccount : keeps.
Ltac kn := kp; try (apply n_alter; reflexivity).
Lemma n_Transfer d s v c : keeps fn (TransferValueOnly d s v c).
Proof. kn. Qed.
Lemma n_UseGas g : keeps fn (UseGas g).
Proof. kn. Qed.
Lemma n_deduct c : keeps fn (DeductInitialGasForExecution c).
Proof. kn. Qed.

(** the code is found *)
Lemma GetCode_now h h' c : GetCode a h = (h', OOk c) ->
  c = code_now h a /\ c <> [] /\ out_code h' = c /\ h_world h' = h_world h /\ h_cache h' = h_cache h /\ h_rt h' = h_rt h.
Proof.
  unfold GetCode, code_now. intros H. apply ok_bind in H as (h1 & [x isNew] & H1 & H). unfold GetOutputAccount in H1.
  change (o_accounts (h_out h)) with (accounts h).
  assert (Hb : forall l : bytes, (0 <? blen l) = negb (bool_decide (l = []))).
  { intros [|b l]; [reflexivity|]. rewrite bool_decide_false by discriminate. unfold blen. cbn [length negb]. lia. }
  assert (Hz : forall l : bytes, (blen l =? 0) = bool_decide (l = [])).
  { intros [|b l]; [reflexivity|]. rewrite bool_decide_false by discriminate. unfold blen. cbn [length]. lia. }
  assert (Hw : forall h2 y, accounts h2 !! a = Some y -> h_world h2 = h_world h ->
    (w <- gets h_world ;; u <- lift (GetUserAccount w a) ;;
     match u with None => fail ErrInvalidAccount | Some u => if blen (ua_code u) =? 0 then fail ErrContractNotFound else
       upd_account a (set_oa_code (ua_code u)) ;;; ret (ua_code u) end) h2 = (h', OOk c) ->
    c = default [] (ua_code <$> w_accounts (h_world h) !! a) /\ c <> [] /\ out_code h' = c /\
      h_world h' = h_world h2 /\ h_cache h' = h_cache h2 /\ h_rt h' = h_rt h2).
  { intros h2 y Hy Hwd H2. rewrite bind_gets, Hwd in H2. unfold GetUserAccount in H2.
    destruct (w_accounts (h_world h) !! a) as [u|].
    - unfold bind at 1, lift in H2. rewrite Hz in H2. case_bool_decide as Hu; [discriminate H2|].
      unfold upd_account in H2. rewrite bind_modify in H2. injection H2 as <- <-.
      split; [reflexivity|]. split; [exact Hu|]. split; [|split; [reflexivity|split; reflexivity]].
      unfold out_code. cbn. rewrite lookup_alter, Hy. reflexivity.
    - destruct (e_missing_err E); discriminate H2. }
  destruct (accounts h !! a) as [x0|] eqn:Hx; injection H1 as <- <- <-.
  - cbn [negb andb fmap option_fmap option_map from_option] in *. rewrite Hb in H. cbn.
    case_bool_decide as Hc; cbn [negb] in H.
    + exact (Hw _ _ Hx eq_refl H).
    + injection H as <- <-. split; [reflexivity|]. split; [exact Hc|]. split; [|split; [reflexivity|split; reflexivity]].
      unfold out_code. rewrite Hx. reflexivity.
  - cbn [negb andb] in H. rewrite bool_decide_true by reflexivity.
    apply Hw with (y := NewVMOutputAccount) in H; [exact H| |reflexivity]. cbn. apply lookup_insert.
Qed.
Lemma code_now_out h : out_code h <> [] -> code_now h a = out_code h.
Proof. intros H. unfold code_now. change (default [] (oa_code <$> o_accounts (h_out h) !! a)) with (out_code h). rewrite bool_decide_false by exact H. reflexivity. Qed.

(** the instance is started *)
Lemma Start_code code g h h' : e_aot E = false \/ cache_right h (r_addr (h_rt h)) code ->
  StartWasmerInstance code g false h = (h', OOk tt) ->
  exists m, e_compile E code = Some m /\ running_module h' = Some m /\ out_code h' = out_code h /\ h_world h' = h_world h /\ h_rt h' = h_rt h.
Proof.
  intros Hcache H. unfold StartWasmerInstance in H. rewrite bind_gets in H. destruct (_ <=? _)%nat.
  { rewrite bind_modify in H. discriminate H. }
  rewrite bind_gets in H.
  assert (Hnew : forall hash h0, h_world h0 = h_world h -> out_code h0 = out_code h -> h_rt h0 = h_rt h ->
    makeInstanceFromContractByteCode code hash g false h0 = (h', OOk tt) ->
    exists m, e_compile E code = Some m /\ running_module h' = Some m /\ out_code h' = out_code h /\ h_world h' = h_world h /\ h_rt h' = h_rt h).
  { intros hash h0 A1 A2 A3 H0. unfold makeInstanceFromContractByteCode in H0.
    destruct (e_compile E code) as [m|] eqn:Hm; [|rewrite bind_modify in H0; discriminate H0].
    apply ok_bind in H0 as (h1 & [] & H1 & H0). cbv zeta in H0. rewrite bind_modify in H0.
    injection H0 as <-. injection H1 as <-. exists m. split; [reflexivity|]. split; [|split; [exact A2|split; [exact A1|exact A3]]].
    unfold running_module. cbn. rewrite lookup_insert. reflexivity. }
  apply ok_bind in H as (h1 & used & H1 & H). unfold makeInstanceFromCompiledCode in H1.
  destruct (e_aot E) eqn:Haot; cbn [negb] in H1; [|injection H1 as <- <-; eapply Hnew; try exact H; reflexivity].
  destruct Hcache as [Hc|Hc]; [discriminate Hc|]. unfold GetCodeHash in *.
  destruct (_ || _) eqn:Hz; [injection H1 as <- <-; eapply Hnew; try exact H; reflexivity|].
  rewrite bind_gets in H1. unfold cache_right in Hc.
  destruct (w_accounts (h_world h) !! r_addr (h_rt h)) as [u|]; [|discriminate Hz].
  destruct (h_cache h !! ua_codehash u) as [c|] eqn:Hl; [|injection H1 as <- <-; eapply Hnew; try exact H; reflexivity].
  assert (c = code) as ->.
  { apply (Hc u c eq_refl); [|exact Hl]. intros He. rewrite He in Hz. discriminate Hz. }
  destruct (e_compile E code) as [m|] eqn:Hm; [|injection H1 as <- <-; eapply Hnew; try exact H; reflexivity].
  apply ok_bind in H1 as (h2 & [] & H2 & H1). rewrite bind_modify in H1. injection H1 as <- <-. injection H as <-.
  injection H2 as <-. exists m. split; [reflexivity|]. split; [|split; [reflexivity|split; reflexivity]].
  unfold running_module. cbn. rewrite lookup_insert. reflexivity.
Qed.

(** [hs] runs the code which [a] has, the one it had in [h] *)
Definition runs_code (h : host) (hs : host) : Prop :=
  r_addr (h_rt hs) = a /\ code_now hs a = code_now h a /\ exists m, e_compile E (code_now hs a) = Some m /\ running_module hs = Some m.
Definition code_is (h0 h : host) : Prop :=
  r_addr (h_rt h) = a /\ h_world h = h_world h0 /\ h_cache h = h_cache h0 /\ out_code h = out_code h0.
Definition code_got (h0 : host) (c : bytes) (h : host) : Prop :=
  r_addr (h_rt h) = a /\ h_world h = h_world h0 /\ h_cache h = h_cache h0 /\ out_code h = c /\ c = code_now h0 a /\ c <> [].
Lemma pre_is h0 {A} (m : M A) : keeps fn m -> forall h h' x, code_is h0 h -> m h = (h', OOk x) -> code_is h0 h'.
Proof. intros Hm h h' x (H1 & H2 & H3 & H4) H. apply Hm in H. injection H as K1 K2 K3 K4. repeat split; congruence. Qed.
Lemma pre_got h0 c {A} (m : M A) : keeps fn m -> forall h h' x, code_got h0 c h -> m h = (h', OOk x) -> code_got h0 c h'.
Proof. intros Hm h h' x (H1 & H2 & H3 & H4 & H5 & H6) H. apply Hm in H. injection H as K1 K2 K3 K4. repeat split; congruence. Qed.
Lemma pre_code h0 h h' c : code_is h0 h -> GetSCCode h = (h', OOk c) -> code_got h0 c h'.
Proof.
  intros (H1 & H2 & H3 & H4) H. unfold GetSCCode in H. rewrite bind_gets, H1 in H. apply ok_bind in H as (h1 & c' & Hc & H).
  rewrite bind_modify in H. injection H as <- <-. apply GetCode_now in Hc as (C1 & C2 & C3 & C4 & C5 & C6).
  assert (Hn : code_now h a = code_now h0 a).
  { unfold code_now. change (default [] (oa_code <$> o_accounts (h_out h) !! a)) with (out_code h).
    change (default [] (oa_code <$> o_accounts (h_out h0) !! a)) with (out_code h0). rewrite H2, H4. reflexivity. }
  assert (r_addr (h_rt h1) = a) by congruence. assert (c' = code_now h0 a) by congruence.
  repeat split; try assumption; cbn; congruence.
Qed.
Context (rd : edf).
Lemma pre_start h0 c g : e_aot E = false \/ cache_right h0 a (code_now h0 a) ->
  forall h h' x, code_got h0 c h -> StartWasmerInstance c g false h = (h', OOk x) -> runs_code h0 h'.
Proof.
  intros Hc h h' [] (H1 & H2 & H3 & H4 & H5 & H6) H.
  apply Start_code in H as (m & S1 & S2 & S3 & S4 & S5).
  - assert (Hout : out_code h' = c) by congruence. unfold runs_code. rewrite code_now_out by congruence. rewrite Hout.
    split; [congruence|]. split; [exact H5|]. exists m. split; assumption.
  - destruct Hc as [Hc|Hc]; [left; exact Hc|right]. unfold cache_right in *. rewrite H1, H2, H3, H5. exact Hc.
Qed.
Lemma now_execute h0 i : e_aot E = false \/ cache_right h0 a (code_now h0 a) -> ci_fn i <> UpgradeFunctionName ->
  starts (code_is h0) (runs_code h0) (fun run => execute run rd i).
Proof.
  intros Hc Hf. unfold execute. apply (starts_before _ _ (code_is h0)); [apply pre_is; kn|intros f].
  apply (starts_before _ _ (code_is h0)); [apply pre_is; kn|intros _]. apply (starts_before _ _ (code_is h0)); [apply pre_is, n_UseGas|intros _].
  unfold beq. rewrite bool_decide_false by exact Hf.
  intros run1 run2 Hr h Hh. unfold bind at 1 6. destruct (GetSCCode h) as [h1 [c|e| |]] eqn:Hg; try reflexivity.
  apply (pre_code h0) in Hg; [|exact Hh]. revert h1 Hg. cut (starts (code_got h0 c) (runs_code h0) (fun run =>
    DeductInitialGasForExecution c ;;; g <- GetGasForExecution ;; StartWasmerInstance c g false ;;;
    callSCMethodIndirect run rd ;;; failIfReturnCodeNotOk)).
  { intros Hs h1 Hg. exact (Hs run1 run2 Hr h1 Hg). }
  apply (starts_before _ _ (code_got h0 c)); [apply pre_got, n_deduct|intros _].
  apply (starts_before _ _ (code_got h0 c)); [apply pre_got; kn|intros g].
  apply (starts_before _ _ (runs_code h0)); [apply pre_start, Hc|intros _]. apply starts_after.
  unfold callSCMethodIndirect. apply (starts_before _ _ (runs_code h0)).
  { intros h1 h2 r HP H. unfold try in H. destruct (GetFunctionToCall h1) as [h3 o] eqn:Hf2.
    assert (h3 = h1) as ->.
    { clear H. unfold GetFunctionToCall, bind in Hf2. destruct (cur_inst h1) as [h4 [[j x]|e| |]] eqn:Hci; try (injection Hf2 as <- _;
        unfold cur_inst in Hci; destruct (h_cur h1); [destruct (h_insts h1 !! _)|]; congruence).
      apply cur_inst_mod in Hci as [-> _]. cbn in Hf2. destruct (export _ _); [injection Hf2 as <- _; reflexivity|].
      destruct (beq _ _); injection Hf2 as <- _; reflexivity. }
    destruct o; try discriminate H; injection H as <- _; exact HP. }
  intros [p|e]; [|apply starts_const]. unfold callFunction. apply starts_after, starts_run.
Qed.
End start.

Section start2.
Context `{E : env}.
Definition right_code (h : host) (a : bytes) : Prop := e_aot E = false \/ cache_right h a (code_now h a).

Lemma nb_now rd i h : ci_fn i <> UpgradeFunctionName -> right_code h (ci_rcpt i) ->
  starts_only_in (runs_code (ci_rcpt i) h) (fun run => executeOnDestContextNoBuiltinFunction run rd i) h.
Proof.
  intros Hf Hc run1 run2 Hr. unfold executeOnDestContextNoBuiltinFunction. rewrite !(bind_ok _ _ _ _ _ (pushDest_eq i h)).
  destruct (unl i h) as (U1 & U2 & U3 & U4). unfold deferring.
  assert (Hst : starts (code_is (ci_rcpt i) h) (runs_code (ci_rcpt i) h) (fun run => destBody run rd (unlocked (dest_input i h)))).
  { unfold destBody. apply starts_after, starts_try. eapply starts_before; [|intros _; apply now_execute; [exact Hc|rewrite U1; exact Hf]].
    destruct (_ || _); apply pre_is; [apply n_Transfer|kp]. }
  rewrite (Hst run1 run2 Hr (destPush i h)); [reflexivity|]. split; [|repeat split].
  destruct (copyTx_same (r_input (h_rt h)) i) as (R1 & _). exact R1.
Qed.
Lemma dest_now rd i h : e_isBuiltin E (ci_fn i) = false -> ci_fn i <> UpgradeFunctionName -> right_code h (ci_rcpt i) ->
  starts_only_in (runs_code (ci_rcpt i) h) (fun run => ExecuteOnDestContext run rd i) h.
Proof.
  intros Hb Hf Hc run1 run2 Hr. unfold ExecuteOnDestContext. rewrite !(bind_ok _ _ h (bcPush h) tt) by reflexivity.
  rewrite Hb. rewrite !bind_ret. apply bind_head. exact (nb_now rd i (bcPush h) Hf Hc run1 run2 Hr).
Qed.
Lemma same_now rd i h : ci_fn i <> UpgradeFunctionName -> right_code h (ci_rcpt i) ->
  starts_only_in (runs_code (ci_rcpt i) h) (fun run => ExecuteOnSameContext run rd i) h.
Proof.
  intros Hf Hc run1 run2 Hr. destruct (e_isBuiltin E (ci_fn i)) eqn:Hbi.
  { unfold ExecuteOnSameContext. rewrite Hbi. reflexivity. }
  rewrite !(execSame_unfold _ _ i h Hbi). cbv zeta. destruct (unl i h) as (U1 & U2 & U3 & U4). set (j := unlocked (dest_input i h)) in *.
  assert (Hst : starts (code_is (ci_rcpt i) h) (runs_code (ci_rcpt i) h) (fun run =>
      TransferValueOnly (ci_rcpt j) (vi_caller (ci_vm j)) (vi_value (ci_vm j)) false ;;; execute run rd j)).
  { eapply starts_before; [|intros _; apply now_execute; [exact Hc|rewrite U1; exact Hf]]. apply pre_is, n_Transfer. }
  unfold deferring. rewrite (Hst run1 run2 Hr (samePush i h)); [reflexivity|]. split; [|repeat split].
  destruct (copyTx_same (r_input (h_rt h)) i) as (R1 & _). exact R1.
Qed.

(** ** Transactions *)
Lemma try_same {A} (m : M A) h h' r : (forall h1 o, m h = (h1, o) -> h1 = h) -> try m h = (h', OOk r) -> h' = h.
Proof. intros Hm H. unfold try in H. destruct (m h) as [h1 o] eqn:Ho. specialize (Hm _ _ eq_refl). destruct o; try discriminate H; injection H as <- _; exact Hm. Qed.
Lemma cur_inst_any h h1 o : cur_inst h = (h1, o) -> h1 = h.
Proof. unfold cur_inst. destruct (h_cur h); [destruct (h_insts h !! _)|]; congruence. Qed.
Notation f2 a := (fun h : host => (out_code a h, h_world h, r_addr (h_rt h), running_module h)).
Lemma pre_runs a h0 {A} (m : M A) : keeps (f2 a) m -> forall h h' x, runs_code a h0 h -> m h = (h', OOk x) -> runs_code a h0 h'.
Proof.
  intros Hm h h' x (H1 & H2 & m0 & H3 & H4) H. apply Hm in H. injection H as K1 K2 K3 K4.
  assert (Hn : code_now h' a = code_now h a).
  { unfold code_now. change (default [] (oa_code <$> o_accounts (h_out h) !! a)) with (out_code a h).
    change (default [] (oa_code <$> o_accounts (h_out h') !! a)) with (out_code a h'). rewrite K1, K2. reflexivity. }
  split; [congruence|]. split; [congruence|]. exists m0. rewrite Hn, K4. split; assumption.
Qed.
Lemma f2_alter a g b h : (forall x, oa_code (g x) = oa_code x) -> f2 a (set_accounts (alter g b (accounts h)) h) = f2 a h.
Proof. intros Hg. cbn beta. rewrite out_code_alter by exact Hg. reflexivity. Qed.
Lemma f2_GetOutputAccount a b : keeps (f2 a) (GetOutputAccount b).
Proof.
  intros h h' r H. pose proof (n_GetOutputAccount a b h h' r H) as K. injection K as K1 K2 K3 K4.
  assert (running_module h' = running_module h).
  { unfold GetOutputAccount in H. destruct (accounts h !! b); injection H as <- <-; reflexivity. }
  cbn beta. congruence.
Qed.
Hint Resolve f2_GetOutputAccount : keeps.
Lemma f2_byType a t : keeps (f2 a) (getFunctionByCallType t).
Proof. kp; try (apply f2_alter; reflexivity). Qed.
Lemma bind_eq {A B} (m : M A) (k1 k2 : A -> M B) h :
  (forall h1 x, m h = (h1, OOk x) -> k1 x h1 = k2 x h1) -> bind m k1 h = bind m k2 h.
Proof. intros H. unfold bind. destruct (m h) as [h1 [x|e| |]]; try reflexivity. apply H. reflexivity. Qed.
Lemma call_now rd i h : ci_fn i <> UpgradeFunctionName ->
  (e_aot E = false \/ forall code, code_at (h_world h) (ci_rcpt i) code -> cache_right h (ci_rcpt i) code) ->
  starts_only_in (fun hs => r_addr (h_rt hs) = ci_rcpt i /\ code_now hs (ci_rcpt i) = default [] (ua_code <$> w_accounts (h_world h) !! ci_rcpt i) /\
      exists m, e_compile E (code_now hs (ci_rcpt i)) = Some m /\ running_module hs = Some m)
    (fun run => RunSmartContractCallIn run rd i) h.
Proof.
  intros Hf Hc run1 run2 Hr. unfold RunSmartContractCallIn, beq. rewrite bool_decide_false by exact Hf.
  rewrite !doCall_eq. apply cleaning_ext. rewrite !(opening_run _ _ _ (init0_rt _)).
  set (h0 := start _ _ _ _ _). set (a := ci_rcpt i) in *. Transparent init0.
  assert (Hw : h_world h0 = h_world h) by reflexivity.
  assert (Hca : h_cache h0 = h_cache h) by reflexivity.
  assert (Ho : out_code a h0 = []).
  { assert (Hgen : forall hx, accounts hx = ∅ -> out_code a (start (call_frame i) (met0 (ci_vm i)) a (vi_value (ci_vm i)) hx) = []).
    { intros hx Hx. unfold out_code, start, addTx, stoSet. cbn. unfold accounts in Hx |- *. cbn. rewrite Hx, lookup_insert, lookup_empty. reflexivity. }
    apply Hgen. reflexivity. }
  Opaque init0. assert (Hn : code_now h0 a = default [] (ua_code <$> w_accounts (h_world h) !! a)).
  { unfold code_now. change (default [] (oa_code <$> o_accounts (h_out h0) !! a)) with (out_code a h0). rewrite Ho, Hw. reflexivity. }
  assert (Hr' : forall p hs, runs_code a h0 hs -> run1 p hs = run2 p hs).
  { intros p hs (R1 & R2 & R3). apply Hr. split; [exact R1|]. split; [congruence|exact R3]. }
  assert (Hi : code_is a h0 h0) by (split; [reflexivity|]; repeat split).
  clearbody h0. revert h0 Hw Hca Ho Hn Hr' Hi. intros h0 Hw Hca Ho Hn Hr' Hi.
  assert (Hcr : code_now h0 a <> [] -> e_aot E = false \/ cache_right h0 a (code_now h0 a)).
  { intros Hne. destruct Hc as [Hc|Hc]; [left; exact Hc|right]. unfold cache_right. rewrite Hw, Hca. apply Hc.
    rewrite Hn in Hne. split; [rewrite Hn; exact Hne|]. rewrite Hn. destruct (w_accounts (h_world h) !! a) as [u|]; [|contradiction (Hne eq_refl)].
    exists u. split; reflexivity. }
  assert (Hst : forall v, starts (code_is a h0) (runs_code a h0) (fun run =>
      checkGasForGetCode v ;;;
      contract <- map_err GetSCCode (fun _ => ErrContractNotFound) ;;
      map_err (DeductInitialGasForExecution contract) (fun _ => ErrNotEnoughGas) ;;;
      g <- GetGasForExecution ;;
      map_err (StartWasmerInstance contract g false) (fun _ => ErrContractInvalid) ;;;
      callSCMethod run rd ;;;
      o <- GetVMOutput ;;
      CleanWasmerInstance ;;;
      ret o)).
  { intros v. apply (starts_before _ _ (code_is a h0)); [apply pre_is; kp|intros _].
    intros ra rb Hab hx Hx. apply bind_eq. intros h1 c Hg.
    apply map_err_inv in Hg. apply (pre_code a h0) in Hg; [|exact Hx].
    assert (Hcc : e_aot E = false \/ cache_right h0 a (code_now h0 a)).
    { apply Hcr. destruct Hg as (_ & _ & _ & _ & G1 & G2). congruence. }
    revert h1 Hg. cut (starts (code_got a h0 c) (runs_code a h0) (fun run =>
      map_err (DeductInitialGasForExecution c) (fun _ => ErrNotEnoughGas) ;;;
      g <- GetGasForExecution ;;
      map_err (StartWasmerInstance c g false) (fun _ => ErrContractInvalid) ;;;
      callSCMethod run rd ;;; o <- GetVMOutput ;; CleanWasmerInstance ;;; ret o)).
    { intros Hs h1 Hg. exact (Hs ra rb Hab h1 Hg). }
    apply (starts_before _ _ (code_got a h0 c)).
    { intros h1 h2 [] Hg Hd. apply map_err_inv in Hd. exact (pre_got a h0 c _ (n_deduct a c) _ _ _ Hg Hd). }
    intros _. apply (starts_before _ _ (code_got a h0 c)); [apply pre_got; kp|intros g].
    apply (starts_before _ _ (runs_code a h0)).
    { intros h1 h2 [] Hg Hd. apply map_err_inv in Hd. exact (pre_start a h0 c g Hcc _ _ _ Hg Hd). }
    intros _. apply starts_after. unfold callSCMethod.
    apply (starts_before _ _ (runs_code a h0)); [apply pre_runs; kp|intros _].
    apply (starts_before _ _ (runs_code a h0)); [apply pre_runs; kp|intros t].
    apply (starts_before _ _ (runs_code a h0)); [apply pre_runs, keeps_try, f2_byType|].
    intros [[p|]|e]; [|apply starts_const..]. apply starts_after. unfold callFunction. apply starts_after, starts_run. }
  exact (Hst _ run1 run2 Hr' h0 Hi).
Qed.

(** * The cache *)
(** the instance of an address whose chain hash is that of the code leaves the cache right *)
Lemma Start_cache code g (isNew : bool) h h' r : cache_ok h ->
  (isNew = true \/ GetCodeHash h (r_addr (h_rt h)) = [] \/ GetCodeHash h (r_addr (h_rt h)) = e_sha256 E code) ->
  StartWasmerInstance code g isNew h = (h', r) -> cache_ok h'.
Proof.
  intros Hc Hh H. unfold StartWasmerInstance in H. rewrite bind_gets in H. destruct (_ <=? _)%nat.
  { rewrite bind_modify in H. injection H as <- <-. exact Hc. }
  rewrite bind_gets in H. set (hash := GetCodeHash h (r_addr (h_rt h))) in *.
  assert (Hnew : forall h0, h_cache h0 = h_cache h -> makeInstanceFromContractByteCode code hash g isNew h0 = (h', r) -> cache_ok h').
  { intros h0 Hc0 H0. unfold makeInstanceFromContractByteCode in H0. destruct (e_compile E code) as [m|].
    2:{ rewrite bind_modify in H0. injection H0 as <- <-. unfold cache_ok. cbn [h_cache set_h_cur]. rewrite Hc0. exact Hc. }
    unfold bind at 1, new_instance in H0. cbv zeta beta iota in H0. rewrite bind_modify in H0.
    set (key := if isNew || (blen hash =? 0) then e_sha256 E code else hash) in H0.
    assert (Hk : key = e_sha256 E code).
    { unfold key. destruct isNew; [reflexivity|]. destruct Hh as [Hh|[-> | ->]]; [discriminate Hh|reflexivity|]. destruct (_ || _); reflexivity. }
    assert (Hok : forall hx, h_cache hx = <[key := code]> (h_cache h) -> cache_ok hx).
    { intros hx Hx k c Hl. rewrite Hx in Hl. destruct (decide (key = k)) as [<-|Hne].
      - rewrite lookup_insert in Hl. injection Hl as <-. symmetry. exact Hk.
      - rewrite lookup_insert_ne in Hl by exact Hne. apply Hc, Hl. }
    set (h1 := set_h_cache _ _) in H0. assert (Hc1 : h_cache h1 = <[key := code]> (h_cache h)) by (unfold h1; cbn; rewrite Hc0; reflexivity).
    clearbody h1 key. destruct isNew; [|injection H0 as <- <-; apply Hok, Hc1].
    assert (Kc : keeps h_cache VerifyContractCode) by kp.
    assert (Kw : keeps h_cache CleanWasmerInstance).
    { intros hx hy ry Hy. unfold CleanWasmerInstance in Hy. destruct (h_cur hx); injection Hy as <- _; reflexivity. }
    assert (K : keeps h_cache (r <- try VerifyContractCode ;; match r with inl _ => ret tt | inr e => CleanWasmerInstance ;;; fail e end)).
    { apply keeps_bind; [apply keeps_try, Kc|]. intros [u|e]; [kp|]. apply keeps_bind; [exact Kw|kp]. }
    apply K in H0. apply Hok. congruence. }
  unfold bind in H. unfold makeInstanceFromCompiledCode in H.
  destruct (e_aot E); cbn [negb] in H; [|exact (Hnew _ eq_refl H)].
  destruct (isNew || _); [exact (Hnew _ eq_refl H)|]. rewrite bind_gets in H.
  destruct (h_cache h !! hash) as [c|]; [|exact (Hnew _ eq_refl H)].
  destruct (e_compile E c) as [m|]; [|exact (Hnew _ eq_refl H)].
  unfold bind, new_instance, modify, ret in H. cbv beta iota zeta in H. injection H as <- <-. exact Hc.
Qed.
End start2.
