(** Outputs of transactions, and hypotheses on what contracts call. *)
From Verif Require Import VmModel StoSpec InvSpec WpProofs EffProofs EffFrameProofs EffWalkProofs EffTopProofs CallSpec KeepProofs CallProofs KindProofs.

(** the output for an error *)
Definition error_output (o : vm_output) : Prop :=
  exists e msg, o = mkOut [] (resolveReturnCodeFromError e) msg 0 (Some 0) ∅ [].

Section outs.
Context `{E : env}.
Definition outs (m : M vm_output) : Prop := forall h h' o, m h = (h', OOk o) -> o = h_out h' \/ error_output o.
Lemma outs_bind {A} (m : M A) k : (forall a, outs (k a)) -> outs (bind m k).
Proof. intros Hk h h' o H. unfold bind in H. destruct (m h) as [h1 []]; try discriminate. exact (Hk _ _ _ _ H). Qed.
Lemma outs_CreateErr e : outs (CreateVMOutputInCaseOfError e).
Proof.
  intros h h' o H. right. unfold CreateVMOutputInCaseOfError in H. rewrite bind_gets in H. cbv zeta in H.
  unfold bind in H. destruct (UpdateGasStateOnFailure h) as [h1 []]; try discriminate. injection H as <- <-. eexists _, _. reflexivity.
Qed.
Lemma outs_GetVMOutput : outs GetVMOutput.
Proof.
  unfold GetVMOutput. apply outs_bind; intros _. apply outs_bind; intros g. apply outs_bind; intros _. apply outs_bind; intros [u|e].
  - intros h h' o [= <- <-]. left. reflexivity.
  - apply outs_CreateErr.
Qed.
Lemma clean_out h : h_out (clean h) = h_out h.
Proof. unfold clean, CleanWasmerInstance. destruct (h_cur h); reflexivity. Qed.
Lemma outs_clean : outs (o <- GetVMOutput ;; CleanWasmerInstance ;;; ret o).
Proof.
  intros h h' o H. unfold bind at 1 in H. destruct (GetVMOutput h) as [h1 []] eqn:Hg; try discriminate.
  rewrite (bind_ok _ _ _ _ _ (clean_ok h1)) in H. injection H as <- <-. rewrite clean_out. exact (outs_GetVMOutput _ _ _ Hg).
Qed.
Lemma outs_orError m : outs m -> outs (orErrorOutput m).
Proof.
  intros Hm h h' o H. unfold orErrorOutput, bind, try in H. destruct (m h) as [h1 []] eqn:Hmh; try discriminate.
  - injection H as <- <-. exact (Hm _ _ _ Hmh).
  - exact (outs_CreateErr _ _ _ _ H).
Qed.
Lemma outs_cleaning m : outs m -> outs (cleaning m).
Proof.
  intros Hm h h' o H. unfold cleaning, deferring in H. destruct (m h) as [h1 []] eqn:Hmh; try discriminate.
  - rewrite (bind_ok _ _ _ _ _ (clean_ok h1)) in H. injection H as <- <-. rewrite clean_out. exact (Hm _ _ _ Hmh).
  - rewrite (bind_ok _ _ _ _ _ (clean_ok h1)) in H. discriminate.
  - rewrite clean_ok in H. discriminate.
Qed.
Lemma outs_deploy run rd d : outs (performCodeDeployment run rd d).
Proof. unfold performCodeDeployment. apply outs_bind; intros _. apply outs_clean. Qed.
Lemma call_out n i h h' o : RunSmartContractCall n i h = (h', OOk o) -> o = h_out h' \/ error_output o.
Proof.
  revert h h' o. change (outs (RunSmartContractCall n i)). unfold RunSmartContractCall, RunSmartContractCallIn.
  destruct (beq _ _).
  - unfold doRunSmartContractUpgrade. apply outs_bind; intros _. apply outs_cleaning, outs_orError.
    repeat (apply outs_bind; intros ?). destruct a3 as [code meta]. apply outs_deploy.
  - unfold doRunSmartContractCall. apply outs_bind; intros _. apply outs_cleaning, outs_orError.
    do 9 (apply outs_bind; intros ?). apply outs_bind; intros ?. apply outs_clean.
Qed.
Lemma create_out n i h h' o : RunSmartContractCreate n i h = (h', OOk o) -> o = h_out h' \/ error_output o.
Proof.
  revert h h' o. change (outs (RunSmartContractCreate n i)). rewrite create_unfold.
  unfold doRunSmartContractCreate. apply outs_bind; intros _. apply outs_cleaning, outs_orError. cbv zeta.
  do 5 (apply outs_bind; intros ?). apply outs_deploy.
Qed.

(** * Programs that do not make certain calls *)
Lemma kinds_cmd_ok (O : opts) P c : (P KByCaller = true -> op_byc O = true) ->
  (P KCreate = true -> op_create O = true) -> cmd_all P c -> cmd_ok O c.
Proof.
  intros H2 H3. induction c as [r| |B p k IH]; [intros; exact I|intros; exact I|]. intros [Hp Hk]. split; [|intros x; apply IH, Hk].
  destruct p; cbn in Hp |- *; auto. intros ->. auto.
Qed.
Lemma never_prog_ok (O : opts) (bad : api_call -> Prop) p :
  (forall c, ~ bad c -> cmd_ok O (api c)) -> never_calls bad p -> prog_ok O p.
Proof. intros Hc. induction p; cbn; auto. intros [H1 H2]. split; [apply Hc, H1|]. intros r. apply H, H2. Qed.
Lemma never_mod_ok (O : opts) bad m : (forall c, ~ bad c -> cmd_ok O (api c)) -> module_never bad m -> mod_ok O m.
Proof.
  intros Hc Hm name p Hp. apply (never_prog_ok O bad _ Hc). unfold export in Hp.
  destruct (find _ _) as [[name' p']|] eqn:Hf; [|discriminate]. injection Hp as <-. apply find_some in Hf as [Hin _].
  exact (Hm name' p' Hin).
Qed.
Lemma never_good (O : opts) bad h : (forall c, ~ bad c -> cmd_ok O (api c)) -> nobody_calls bad h -> h_stoprot h = true -> good O true h.
Proof. intros Hc [_ Hi] Hs. split; [auto|]. intros i x Hx. exact (never_mod_ok O bad _ Hc (Hi i x Hx)). Qed.
Lemma never_codes (O : opts) bad h : (forall c, ~ bad c -> cmd_ok O (api c)) -> nobody_calls bad h ->
  forall code m, e_compile E code = Some m -> mod_ok O m.
Proof. intros Hc [Hcode _] code m Hm. exact (never_mod_ok O bad _ Hc (Hcode code m Hm)). Qed.

End outs.
