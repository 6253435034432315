(** Proofs for C42: the code of a contract that is not upgradeable is not
    replaced by any call transaction. *)
From Verif Require Import MathProofs VmModel WpProofs EffProofs EffFrameProofs EffWalkProofs EffTopProofs CallSpec KeepProofs CallProofs
  TxProofs InvSpec OutProofs GasAsyncProofs ClassProofs CodeSpec IdentProofs DeploySpec DeployProofs.
From Coq Require Import ZifyBool ZifyNat ZifyN.

Definition holds (J : host -> Prop) {A} (m : M A) : Prop := forall h h' r, J h -> m h = (h', r) -> J h'.

Section engine.
Context (J : host -> Prop).
Lemma h_bind {A B} (m : M A) (k : A -> M B) : holds J m -> (forall a, holds J (k a)) -> holds J (bind m k).
Proof.
  intros Hm Hk h h' r Hh H. unfold bind in H. destruct (m h) as [h1 o] eqn:Ho. apply Hm in Ho; [|exact Hh].
  destruct o; [exact (Hk _ _ _ _ Ho H)|injection H as <- <-; exact Ho..].
Qed.
Lemma h_try {A} (m : M A) : holds J m -> holds J (try m).
Proof.
  intros Hm h h' r Hh H. unfold try in H. destruct (m h) as [h1 o] eqn:Ho. apply Hm in Ho; [|exact Hh].
  destruct o; injection H as <- <-; exact Ho.
Qed.
Lemma h_deferring {A B} (m : M A) (g : A + err -> M B) p :
  holds J m -> (forall a, holds J (g a)) -> holds J p -> holds J (deferring m g p).
Proof.
  intros Hm Hg Hp h h' r Hh H. unfold deferring in H. destruct (m h) as [h1 o] eqn:Ho. apply Hm in Ho; [|exact Hh].
  destruct o; [exact (Hg _ _ _ _ Ho H)|exact (Hg _ _ _ _ Ho H)| |injection H as <- <-; exact Ho].
  destruct (p h1) as [h2 o2] eqn:Hph. apply Hp in Hph; [|exact Ho]. destruct o2; injection H as <- <-; exact Hph.
Qed.
Lemma h_gets {A B} (f : host -> A) (k : A -> M B) :
  (forall h h' r, J h -> k (f h) h = (h', r) -> J h') -> holds J (bind (gets f) k).
Proof. intros Hk h h' r Hh H. rewrite bind_gets in H. exact (Hk _ _ _ Hh H). Qed.
Lemma h_fuel {A} : holds J (nofuel : M A).
Proof. intros h h' r Hh [= <- <-]. exact Hh. Qed.
End engine.

Section frozen.
Context `{E : env}.
Notation fw := (fun h : host => (h_world h, h_bcst h, h_codeupd h)).
Context (J : host -> Prop)
  (J_same : forall h h', fw h' = fw h -> J h -> J h')
  (J_push : forall h, J h -> J (set_h_bcst (h_world h :: h_bcst h) h))
  (J_pop : forall h w s, J h -> h_bcst h = w :: s -> J (set_h_bcst s (set_h_world w h)))
  (J_drop : forall h w s, J h -> h_bcst h = w :: s -> J (set_h_bcst s h))
  (J_builtin : forall h i, J h -> J (set_h_world (fst (e_builtin E (h_world h) i)) h))
  (J_back : forall h h0, J h -> J h0 -> J (set_h_world (h_world h0) h))
  (J_upgrade : forall h i, J h -> may_upgrade (h_world h) (ci_rcpt i) (vi_caller (ci_vm i)) ->
     forall c m d h1, J h1 -> J (set_h_codeupd ({[di_addr (mkDeploy c m (ci_rcpt i) d)]} ∪ h_codeupd h1) h1))
  (J_create : forall h a, J h -> w_accounts (h_world h) !! a = None ->
     forall h1, J h1 -> J (set_h_codeupd ({[a]} ∪ h_codeupd h1) h1))
  (J_delete : forall h a, J h -> J (set_h_codeupd (h_codeupd h ∖ {[a]}) h)).

Lemma h_keeps {A} (m : M A) : keeps fw m -> holds J m.
Proof. intros Hm h h' r Hh H. exact (J_same _ _ (Hm _ _ _ H) Hh). Qed.
Lemma h_bcPush : holds J blockchain_PushState.
Proof. intros h h' r Hh [= <- <-]. apply J_push, Hh. Qed.
Lemma h_bcPop : holds J blockchain_PopSetActiveState.
Proof. intros h h' r Hh [= <- <-]. destruct (h_bcst h) as [|w s] eqn:Hs; [exact Hh|exact (J_pop _ _ _ Hh Hs)]. Qed.
Lemma h_bcDrop : holds J blockchain_PopDiscard.
Proof. intros h h' r Hh [= <- <-]. destruct (h_bcst h) as [|w s] eqn:Hs; [exact Hh|exact (J_drop _ _ _ Hh Hs)]. Qed.
Lemma h_builtin i : holds J (ProcessBuiltInFunction i).
Proof.
  intros h h' r Hh H. pose proof (J_builtin h i Hh) as Hb. unfold ProcessBuiltInFunction in H.
  destruct (e_builtin E (h_world h) i) as [w [o|e|]]; injection H as <- <-; exact Hb.
Qed.
Lemma h_Delete a : holds J (DeleteOutputAccount a).
Proof. intros h h' r Hh [= <- <-]. refine (J_same _ _ _ (J_delete h a Hh)). reflexivity. Qed.
Lemma w_clean : keeps fw CleanWasmerInstance.
Proof. intros h h' r H. unfold CleanWasmerInstance in H. destruct (h_cur h); injection H as <- _; reflexivity. Qed.
Lemma w_new w g : keeps fw (new_instance w g).
Proof. intros h h' r H. unfold new_instance in H. injection H as <- _. reflexivity. Qed.
Lemma w_popi : keeps fw popInstance.
Proof.
  intros h h' r H. unfold popInstance in H. destruct (h_ist h) as [|p s]; [injection H as <- _; reflexivity|].
  destruct (bool_decide _); [injection H as <- _; reflexivity|].
  assert (K : keeps fw (CleanWasmerInstance ;;; modify (set_h_cur p))) by (apply keeps_bind; [exact w_clean|intros; apply keeps_modify; reflexivity]).
  exact (K _ _ _ H).
Qed.
Lemma w_big f : keeps fw (big_op f).
Proof. intros h h' r H. unfold big_op in H. destruct (f (h_big h)). injection H as <- <-. reflexivity. Qed.
Lemma w_rtPop : keeps fw runtime_PopSetActiveState.
Proof.
  intros h h' r H. unfold runtime_PopSetActiveState in H. destruct (h_rtst h) as [|f s]; [injection H as <- _; reflexivity|].
  apply w_popi in H. exact H.
Qed.
Hint Resolve w_clean w_new w_big w_rtPop : keeps.
Lemma w_bigPop : keeps fw bigint_PopSetActiveState. Proof. kp; cbv zeta; repeat case_match; reflexivity. Qed.
Lemma w_bigDrop : keeps fw bigint_PopDiscard. Proof. kp; cbv zeta; repeat case_match; reflexivity. Qed.
Lemma w_stoPop : keeps fw storage_PopSetActiveState. Proof. kp; cbv zeta; repeat case_match; reflexivity. Qed.
Lemma w_metPop : keeps fw metering_PopSetActiveState. Proof. kp; cbv zeta; repeat case_match; reflexivity. Qed.
Lemma w_metMerge : keeps fw metering_PopMergeActiveState. Proof. kp; cbv zeta; repeat case_match; reflexivity. Qed.
Lemma w_outPop : keeps fw output_PopSetActiveState. Proof. kp; cbv zeta; repeat case_match; reflexivity. Qed.
Lemma w_outMerge : keeps fw output_PopMergeActiveState. Proof. kp; cbv zeta; repeat case_match; reflexivity. Qed.
Lemma w_outDrop : keeps fw output_PopDiscard. Proof. kp; cbv zeta; repeat case_match; reflexivity. Qed.
Hint Resolve w_bigPop w_bigDrop w_stoPop w_metPop w_metMerge w_outPop w_outMerge w_outDrop : keeps.
Lemma w_UseGas g : keeps fw (UseGas g). Proof. kp. Qed.
Lemma w_RestoreGas g : keeps fw (RestoreGas g). Proof. kp. Qed.
Lemma w_GetVMOutput : keeps fw GetVMOutput. Proof. kp. Qed.
Lemma w_CreateErr e : keeps fw (CreateVMOutputInCaseOfError e). Proof. kp. Qed.
Lemma w_Start c g b : keeps fw (StartWasmerInstance c g b). Proof. kp. Qed.
Hint Resolve w_UseGas w_RestoreGas w_GetVMOutput w_CreateErr w_Start : keeps.
Lemma w_Transfer d s v c : keeps fw (TransferValueOnly d s v c). Proof. kp. Qed.
Lemma w_GetSCCode : keeps fw GetSCCode. Proof. kp. Qed.
Lemma w_finishDest e : keeps fw (finishExecuteOnDestContext e). Proof. kp. Qed.
Hint Resolve w_Transfer w_GetSCCode w_finishDest : keeps.

Ltac hj := repeat (intros;
  lazymatch goal with
  | |- holds _ (bind _ _) => apply h_bind
  | |- holds _ (try _) => apply h_try
  | |- holds _ (deferring _ _ _) => apply h_deferring
  | |- holds _ (if ?b then _ else _) => destruct b
  | |- holds _ (match ?b with _ => _ end) => destruct b
  | |- holds _ (let _ := _ in _) => cbv zeta
  | |- holds _ nofuel => apply h_fuel
  | H : forall i, holds J (?ed i) |- holds J (?ed _) => apply H
  | |- holds _ ?m => first [solve [eauto with holds nocore] | solve [apply h_keeps; kp] | let g := head_of m in unfold g]
  end).
Hint Resolve h_bcPush h_bcPop h_bcDrop h_builtin h_Delete : holds.

(** ** Functions that run other contracts *)
Section mid.
Context (run : prog -> M bool) (rd : edf) (Hrun : forall p, holds J (run p)) (Hrd : forall i, holds J (rd i)).
Lemma h_handleBuiltin i : holds J (handleBuiltinFunctionCall i).
Proof. hj. Qed.
Hint Resolve h_handleBuiltin : holds.
Lemma h_breakpoint : holds J (handleBreakpoint rd).
Proof. hj. Qed.
Hint Resolve h_breakpoint : holds.
Lemma h_callFunction p : holds J (callFunction run rd p).
Proof. hj. Qed.
Hint Resolve h_callFunction : holds.
Lemma h_processCalls cs : holds J (processAsyncCalls rd cs).
Proof. induction cs as [|[[id i] c] cs IH]; cbn [processAsyncCalls]; [hj|]. apply h_bind; [hj|intros b]. apply h_bind; [hj|intros _; exact IH]. Qed.
Lemma h_sendCalls cs : holds J (sendAsyncCalls cs).
Proof. induction cs as [|c cs IH]; cbn [sendAsyncCalls]; [hj|]. apply h_bind; [hj|intros b]. apply h_bind; [hj|intros _; exact IH]. Qed.
Hint Resolve h_processCalls h_sendCalls : holds.
Lemma h_processInfo : holds J (processAsyncInfo rd).
Proof. hj. Qed.
Lemma h_callInit : holds J (callInitFunction run rd).
Proof. hj. Qed.
Hint Resolve h_processInfo h_callInit : holds.
Lemma h_callSC : holds J (callSCMethod run rd).
Proof. hj. Qed.
Lemma h_DeployCode d : (forall h1, J h1 -> J (set_h_codeupd ({[di_addr d]} ∪ h_codeupd h1) h1)) -> holds J (DeployCode d).
Proof.
  intros Hd. unfold DeployCode. apply h_bind; [hj|intros _]. apply h_bind; [hj|intros _].
  intros h h' r Hh [= <- <-]. apply Hd, Hh.
Qed.
Lemma h_deploy d : (forall h1, J h1 -> J (set_h_codeupd ({[di_addr d]} ∪ h_codeupd h1) h1)) -> holds J (deployContract run rd d).
Proof.
  intros Hd. unfold deployContract. apply h_bind; [hj|intros _]. apply h_bind; [hj|intros _]. apply h_bind; [hj|intros g].
  apply h_bind; [hj|intros _]. apply h_bind; [hj|intros _]. apply h_DeployCode, Hd.
Qed.
Lemma h_upgrade i : holds J (executeUpgrade run rd i).
Proof.
  unfold executeUpgrade. apply h_gets. intros h h' r Hh H. unfold bind at 1, lift in H.
  destruct (checkUpgradePermission (h_world h) i) as [[]|e|] eqn:Hp; [|injection H as <- <-; exact Hh..].
  apply permission_iff in Hp. revert H. revert h' r. pose proof (J_upgrade h i Hh Hp) as Hd.
  cut (holds J ('(code, meta) <- ExtractCodeUpgradeFromArgs ;;
    deployContract run rd (mkDeploy code meta (ci_rcpt i) (vi_caller (ci_vm i))) ;;; failIfReturnCodeNotOk)); [intros K h' r; exact (K h h' r Hh)|].
  apply h_bind; [hj|intros [c m]]. apply h_bind; [apply h_deploy, Hd|intros _]. hj.
Qed.
Hint Resolve h_upgrade : holds.
Lemma h_execute i : holds J (execute run rd i).
Proof. hj. Qed.
Hint Resolve h_execute : holds.
Lemma h_pushDest i : holds J (pushDest i).
Proof. hj. Qed.
Hint Resolve h_pushDest : holds.
Lemma h_dest i : holds J (ExecuteOnDestContext run rd i).
Proof. hj. Qed.
Lemma h_same i : holds J (ExecuteOnSameContext run rd i).
Proof. hj. Qed.
Lemma h_Create i : holds J (CreateNewContract rd i).
Proof.
  unfold CreateNewContract. cbv zeta. apply h_bind; [hj|intros _]. apply h_bind; [hj|intros ro]. apply h_bind; [hj|intros _].
  apply h_bind; [hj|intros a]. apply h_gets. intros h h' r Hh H. unfold AccountExists in H.
  case_bool_decide as He; [injection H as <- <-; exact Hh|]. apply eq_None_not_Some in He.
  pose proof (J_create h a Hh He) as Hd. revert h' r H.
  match goal with |- forall h' r, ?m h = _ -> _ => cut (holds J m); [intros K h' r; exact (K h h' r Hh)|] end.
  apply h_bind; [hj|intros _]. apply h_bind; [apply h_DeployCode, Hd|intros _]. hj.
Qed.
End mid.
Hint Resolve h_handleBuiltin h_Create : holds.

Lemma h_esdt rd dest token nonce v g f args : (forall i, holds J (rd i)) -> holds J (esdt_execute rd dest token nonce v g f args).
Proof.
  intros Hrd. unfold esdt_execute. apply h_gets. intros h0 h' r Hh H. cbv zeta in H. revert h' r H.
  match goal with |- forall h' r, ?m h0 = _ -> _ => cut (holds J m); [intros K h' r; exact (K h0 h' r Hh)|] end.
  apply h_bind; [hj|intros [gas|e]]; [|hj]. destruct (_ && _); [|hj]. apply h_bind; [hj|intros [x|e]]; [hj|].
  apply h_bind; [|hj]. intros h h' r Hx [= <- <-]. apply J_back; assumption.
Qed.
Hint Resolve h_esdt : holds.
Lemma h_interp rd es {B} (p : prim B) : (forall i, holds J (rd i)) -> (forall i, holds J (es i)) -> holds J (interp rd es p).
Proof. intros Hrd Hes. destruct p; cbn [interp]; hj. Qed.
Lemma h_cmd rd es c : (forall i, holds J (rd i)) -> (forall i, holds J (es i)) -> holds J (run_cmd rd es c).
Proof.
  intros Hrd Hes. induction c as [x| |B p k IH]; cbn [run_cmd]; [hj..|].
  apply h_bind; [apply h_try, h_interp; assumption|exact IH].
Qed.
Lemma h_prog api p : (forall c, holds J (api c)) -> holds J (run_prog api p).
Proof.
  intros Ha. induction p as [| |g k IH|o l k IH|o d k IH|k IH|c k IH]; cbn [run_prog]; [hj..| | | | |].
  - apply h_bind; [hj|intros [? x]]. cbv zeta. apply h_bind; [hj|intros _]. destruct (_ <? _); [hj|exact IH].
  - apply h_bind; [hj|intros [? x]]. destruct (_ && _); [apply IH|hj].
  - apply h_bind; [hj|intros [? x]]. cbv zeta. destruct (_ && _); [|hj]. apply h_bind; [hj|intros _]. exact IH.
  - apply h_bind; [hj|intros [? x]]. destruct (m_grow _); [|apply IH]. apply h_bind; [hj|intros _]. apply IH.
  - apply h_bind; [apply Ha|intros r]. apply h_bind; [hj|intros bp]. destruct (_ =? _); [apply IH|hj].
Qed.
Lemma h_vm n : (forall i, holds J (vmDest n i)) /\ (forall i, holds J (vmSame n i)).
Proof.
  induction n as [|n [IH1 IH2]]; [split; intros i; apply h_fuel|].
  assert (Hr : forall p, holds J (vmRun n p)) by (intros p; apply h_prog; intros c; apply h_cmd; assumption).
  split; intros i; [apply (h_dest (vmRun n) (vmDest n))|apply (h_same (vmRun n) (vmDest n))]; assumption.
Qed.
Lemma h_vmRun n p : holds J (vmRun n p).
Proof. apply h_prog. intros c. apply h_cmd; apply h_vm. Qed.
End frozen.

(** * Accounts that are not upgradeable *)
Section settled.
Context `{E : env} (a : bytes) (Hb : builtins_keep_owner a).
Definition settled (h : host) : Prop := Forall (not_upgradeable a) (h_world h :: h_bcst h) /\ a ∉ h_codeupd h.
Notation fw := (fun h : host => (h_world h, h_bcst h, h_codeupd h)).

Lemma s_same h h' : fw h' = fw h -> settled h -> settled h'.
Proof. intros [= K1 K2 K3]. unfold settled. rewrite K1, K2, K3. auto. Qed.
Lemma s_push h : settled h -> settled (set_h_bcst (h_world h :: h_bcst h) h).
Proof. intros [H1 H2]. split; [|exact H2]. cbn. inversion H1; subst. repeat constructor; assumption. Qed.
Lemma s_pop h w s : settled h -> h_bcst h = w :: s -> settled (set_h_bcst s (set_h_world w h)).
Proof. intros [H1 H2] Hs. split; [|exact H2]. cbn. rewrite Hs in H1. inversion H1; assumption. Qed.
Lemma s_drop h w s : settled h -> h_bcst h = w :: s -> settled (set_h_bcst s h).
Proof. intros [H1 H2] Hs. split; [|exact H2]. cbn. rewrite Hs in H1. inversion H1 as [|? ? H3 H4]; subst. inversion H4; constructor; assumption. Qed.
Lemma s_builtin h i : settled h -> settled (set_h_world (fst (e_builtin E (h_world h) i)) h).
Proof.
  intros [H1 H2]. split; [|exact H2]. inversion H1 as [|? ? (u & U1 & U2) H4]; subst. constructor; [|exact H4].
  destruct (Hb _ i _ U1) as (u' & V1 & V2 & V3). exists u'. split; [exact V1|]. rewrite V2. exact U2.
Qed.
Lemma s_back h h0 : settled h -> settled h0 -> settled (set_h_world (h_world h0) h).
Proof. intros [H1 H2] [H3 _]. split; [|exact H2]. cbn. inversion H1; inversion H3; subst. constructor; assumption. Qed.
Lemma s_note b h : b <> a -> settled h -> settled (set_h_codeupd ({[b]} ∪ h_codeupd h) h).
Proof. intros Hn [H1 H2]. split; [exact H1|]. cbn. set_solver. Qed.
Lemma s_upgrade h i : settled h -> may_upgrade (h_world h) (ci_rcpt i) (vi_caller (ci_vm i)) ->
  forall c m d h1, settled h1 -> settled (set_h_codeupd ({[di_addr (mkDeploy c m (ci_rcpt i) d)]} ∪ h_codeupd h1) h1).
Proof.
  intros [H1 _] (u & U1 & U2 & _) c m d h1. cbn [di_addr]. apply s_note. intros Heq. rewrite Heq in U1.
  apply Forall_cons_1 in H1 as [(u' & V1 & V2) _]. rewrite U1 in V1. injection V1 as <-. exact (V2 U2).
Qed.
Lemma s_create h b : settled h -> w_accounts (h_world h) !! b = None ->
  forall h1, settled h1 -> settled (set_h_codeupd ({[b]} ∪ h_codeupd h1) h1).
Proof. intros [H1 _] Hn h1. apply s_note. intros Heq. rewrite Heq in Hn. apply Forall_cons_1 in H1 as [(u' & V1 & V2) _]. congruence. Qed.
Lemma s_delete h b : settled h -> settled (set_h_codeupd (h_codeupd h ∖ {[b]}) h).
Proof. intros [H1 H2]. split; [exact H1|]. cbn. set_solver. Qed.

Definition sl {A} := @h_keeps settled s_same A.
Lemma s_Run n p : holds settled (vmRun n p).
Proof. exact (h_vmRun settled s_same s_push s_pop s_drop s_builtin s_back s_upgrade s_create s_delete n p). Qed.
Lemma s_Dest n i : holds settled (vmDest n i).
Proof. exact (proj1 (h_vm settled s_same s_push s_pop s_drop s_builtin s_back s_upgrade s_create s_delete n) i). Qed.
Lemma s_callSC n : holds settled (callSCMethod (vmRun n) (vmDest n)).
Proof. exact (h_callSC settled s_same (vmRun n) (vmDest n) (s_Run n) (s_Dest n)). Qed.
Lemma s_deploy n d : di_addr d <> a -> holds settled (deployContract (vmRun n) (vmDest n) d).
Proof. intros Hn. apply (h_deploy settled s_same (vmRun n) (vmDest n) (s_Run n) (s_Dest n)). intros h1. apply s_note, Hn. Qed.

(** ** The output *)
Notation fd := (fun h : host => default ([], [], None) ((fun x => (oa_code x, oa_meta x, oa_deployer x)) <$> accounts h !! a)).
Lemma d_alter g b h : (forall x, oa_code (g x) = oa_code x /\ oa_meta (g x) = oa_meta x /\ oa_deployer (g x) = oa_deployer x) ->
  fd (set_accounts (alter g b (accounts h)) h) = fd h.
Proof.
  intros Hg. cbn. destruct (decide (b = a)) as [->|Hn].
  - rewrite lookup_alter. destruct (accounts h !! a) as [x|]; [|reflexivity]. cbn. destruct (Hg x) as (-> & -> & ->). reflexivity.
  - rewrite lookup_alter_ne by exact Hn. reflexivity.
Qed.
Lemma d_GetOutputAccount b : keeps fd (GetOutputAccount b).
Proof.
  intros h h' r H. unfold GetOutputAccount in H. destruct (accounts h !! b) eqn:Hx; injection H as <- <-; [reflexivity|].
  cbn. destruct (decide (b = a)) as [->|Hn]; [rewrite lookup_insert, Hx|rewrite lookup_insert_ne by exact Hn]; reflexivity.
Qed.
Hint Resolve d_GetOutputAccount : keeps.
Lemma d_success : keeps fd UpdateGasStateOnSuccess.
Proof. kp. cbn. rewrite map_lookup_imap. destruct (accounts h !! a); reflexivity. Qed.
Definition gives (m : M vm_output) : Prop := forall h h' o, settled h -> m h = (h', OOk o) -> keeps_code o a.
Lemma g_bind {A} (m : M A) k : holds settled m -> (forall x, gives (k x)) -> gives (bind m k).
Proof. intros H1 H2 h h' o Hs H. destruct (ok_bind _ _ _ _ _ H) as (h1 & x & H3 & H4). exact (H2 _ _ _ _ (H1 _ _ _ Hs H3) H4). Qed.
Lemma error_keeps o : error_output o -> keeps_code o a.
Proof. intros (e & msg & ->) x Hx. cbn in Hx. rewrite lookup_empty in Hx. discriminate Hx. Qed.
Lemma createErr_error e h h' o : CreateVMOutputInCaseOfError e h = (h', OOk o) -> error_output o.
Proof.
  intros H1. unfold CreateVMOutputInCaseOfError in H1. rewrite bind_gets in H1. cbv zeta in H1. unfold bind in H1.
  destruct (UpdateGasStateOnFailure h) as [h3 []]; try discriminate H1. injection H1 as <- Hq. rewrite <- Hq. eexists _, _. reflexivity.
Qed.
Lemma g_GetVMOutput : gives GetVMOutput.
Proof.
  intros h h' o [_ Hs] H. unfold GetVMOutput in H. apply ok_bind in H as (h1 & [] & H1 & H). injection H1 as <-.
  assert (Hd : fd (set_accounts (map_imap (fun b x => Some (if bool_decide (b ∈ h_codeupd h) then x
          else set_oa_deployer None (set_oa_meta [] (set_oa_code [] x)))) (accounts h)) h) = ([], [], None)).
  { cbn. rewrite map_lookup_imap. destruct (accounts h !! a) as [x|]; [|reflexivity]. cbn. rewrite bool_decide_false by exact Hs. reflexivity. }
  set (h1 := set_accounts _ h) in *. clearbody h1.
  apply ok_bind in H as (h2 & g & H2 & H). assert (K2 : keeps fd GasLeft) by kp. apply K2 in H2.
  apply ok_bind in H as (h3 & [] & H3 & H). assert (K3 : fd h3 = fd h2) by (injection H3 as <-; reflexivity).
  apply ok_bind in H as (h4 & r & H4 & H). pose proof (keeps_try _ _ d_success _ _ _ H4) as K4. cbn beta in *.
  destruct r as [u|e]; [|exact (error_keeps _ (createErr_error _ _ _ _ H))].
  injection H as <- <-. rewrite K3, H2, Hd in K4. intros x Hx. change (o_accounts (h_out h4)) with (accounts h4) in Hx. rewrite Hx in K4.
  injection K4 as -> -> ->. repeat split.
Qed.
Lemma g_end : gives (o <- GetVMOutput ;; CleanWasmerInstance ;;; ret o).
Proof.
  intros h h' o Hs H. destruct (ok_bind _ _ _ _ _ H) as (h1 & o1 & H1 & H2).
  rewrite (bind_ok _ _ _ _ _ (clean_ok h1)) in H2. injection H2 as <- <-. exact (g_GetVMOutput _ _ _ Hs H1).
Qed.
Lemma g_top m h h' o : gives m -> settled h -> cleaning (orErrorOutput m) h = (h', OOk o) -> keeps_code o a.
Proof.
  intros Hm Hf H. unfold cleaning, deferring in H. destruct (orErrorOutput m h) as [h1 r1] eqn:H1.
  destruct r1 as [o1|e| |]; rewrite ?(bind_ok _ _ _ _ _ (clean_ok h1)) in H; try discriminate H; [|rewrite clean_ok in H; discriminate H].
  injection H as <- <-. unfold orErrorOutput, bind, try in H1. destruct (m h) as [h2 [o2|e| |]] eqn:H2; try discriminate H1.
  - injection H1 as <- <-. exact (Hm _ _ _ Hf H2).
  - exact (error_keeps _ (createErr_error _ _ _ _ H1)).
Qed.
Lemma settled_init h : Forall (not_upgradeable a) (h_world h :: h_bcst h) -> settled (init0 h).
Proof. Transparent init0. intros H. split; [exact H|]. cbn. set_solver. Opaque init0. Qed.
Hint Resolve w_clean w_new w_big w_rtPop w_UseGas w_RestoreGas w_GetVMOutput w_CreateErr w_Start w_GetSCCode : keeps.
Ltac sk := apply sl; kp.
Lemma frozen_call n i h h' o : Forall (not_upgradeable a) (h_world h :: h_bcst h) -> (ci_fn i <> UpgradeFunctionName \/ ci_rcpt i <> a) ->
  RunSmartContractCall n i h = (h', OOk o) -> keeps_code o a.
Proof.
  intros Hs Hf H. apply settled_init in Hs. unfold RunSmartContractCall, RunSmartContractCallIn, beq in H. case_bool_decide as Hu.
  - destruct Hf as [Hf|Hf]; [contradiction|]. rewrite doUpgrade_eq in H. refine (g_top _ _ _ _ _ Hs H). unfold opening.
    do 4 (apply g_bind; [sk|intros ?]). apply g_bind; [sk|intros [code meta]]. unfold performCodeDeployment.
    apply g_bind; [apply s_deploy, Hf|intros _]. apply g_end.
  - rewrite doCall_eq in H. refine (g_top _ _ _ _ _ Hs H). unfold opening.
    do 5 (apply g_bind; [sk|intros ?]). do 4 (apply g_bind; [sk|intros ?]).
    apply g_bind; [apply s_callSC|intros ?]. apply g_end.
Qed.
Lemma frozen_create n i h h' o : Forall (not_upgradeable a) (h_world h :: h_bcst h) ->
  (forall nonce, e_newAddress E (vi_caller (cc_vm i)) nonce <> ROk a) ->
  RunSmartContractCreate n i h = (h', OOk o) -> keeps_code o a.
Proof.
  intros Hs Hf H. apply settled_init in Hs. rewrite create_unfold, doCreate_eq in H. refine (g_top _ _ _ _ _ Hs H).
  intros h1 h2 o2 Hs1 H1. apply ok_bind in H1 as (h3 & b & H3 & H1).
  assert (Hba : b <> a).
  { unfold NewAddress in H3. apply ok_bind in H3 as (h4 & nonce & _ & H3). unfold lift in H3.
    destruct (e_newAddress _ _ _) eqn:Hn; try discriminate H3. injection H3 as <- <-. intros ->. exact (Hf _ Hn). }
  assert (Hs3 : settled h3) by (refine ((_ : holds settled (NewAddress _)) _ _ _ Hs1 H3); sk).
  revert h3 h2 o2 Hs3 H1 H3. cut (gives (opening_create i b (performCodeDeployment (vmRun n) (vmDest n) (mkDeploy (cc_code i) (cc_meta i) b (vi_caller (cc_vm i)))))).
  { intros K h3 h2 o2 Hs3 H1 _. exact (K _ _ _ Hs3 H1). }
  unfold opening_create. do 4 (apply g_bind; [sk|intros ?]). unfold performCodeDeployment.
  apply g_bind; [apply s_deploy, Hba|intros _]. apply g_end.
Qed.
End settled.
