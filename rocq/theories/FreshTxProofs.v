(** Transactions of hosts with different pasts. *)
From Verif Require Import VmModel CallSpec CallProofs FreshSpec FreshProofs.
From stdpp Require Import fin_maps.
Local Open Scope Z_scope.

(** ** The code size and the storage owner left by earlier transactions *)
Inductive slot := SCode (n : Z) | SOwner (a : bytes).
Definition is_code (x : slot) : bool := match x with SCode _ => true | _ => false end.
Definition put (x : slot) (h : host) : host := match x with SCode n => set_h_codesize n h | SOwner a => set_h_stoaddr a h end.

(** [m] does not look at it *)
Definition wk (b : bool) {A} (m : M A) : Prop := forall h x, is_code x = b ->
  exists x', is_code x' = b /\ m (put x h) = (put x' (fst (m h)), snd (m h)).

Section wk.
Context `{E : env} (b : bool).
Lemma wk_same {A} (r : outc A) : wk b (fun h => (h, r)).
Proof. intros h x Hx. exists x. auto. Qed.
Lemma wk_ret {A} (a : A) : wk b (ret a).
Proof. apply wk_same. Qed.
Lemma wk_fail {A} e : wk b (@fail A e).
Proof. apply wk_same. Qed.
Lemma wk_lift {A} (x : res A) : wk b (lift x).
Proof. unfold lift. destruct x; apply wk_same. Qed.
Lemma wk_fail_if c e : wk b (fail_if c e).
Proof. unfold fail_if. destruct c; apply wk_same. Qed.
Lemma wk_bind {A B} (m : M A) (k : A -> M B) : wk b m -> (forall a, wk b (k a)) -> wk b (bind m k).
Proof.
  intros Hm Hk h x Hx. destruct (Hm h x Hx) as (x1 & Hx1 & E1). unfold bind. rewrite E1. destruct (m h) as [h1 [a|e| |]]; cbn [fst snd].
  - exact (Hk a h1 x1 Hx1).
  - exists x1. auto.
  - exists x1. auto.
  - exists x1. auto.
Qed.
Lemma wk_try {A} (m : M A) : wk b m -> wk b (try m).
Proof.
  intros Hm h x Hx. destruct (Hm h x Hx) as (x1 & Hx1 & E1). unfold try. rewrite E1. destruct (m h) as [h1 [a|e| |]]; cbn [fst snd]; exists x1; auto.
Qed.
Lemma wk_defer {A B} (m : M A) (f : A + err -> M B) p : wk b m -> (forall a, wk b (f a)) -> wk b p -> wk b (deferring m f p).
Proof.
  intros Hm Hf Hp h x Hx. destruct (Hm h x Hx) as (x1 & Hx1 & E1). unfold deferring. rewrite E1. destruct (m h) as [h1 [a|e| |]]; cbn [fst snd].
  - exact (Hf (inl a) h1 x1 Hx1).
  - exact (Hf (inr e) h1 x1 Hx1).
  - destruct (Hp h1 x1 Hx1) as (x2 & Hx2 & E2). rewrite E2. destruct (p h1) as [h2 o2]. cbn [fst snd]. exists x2. destruct o2; auto.
  - exists x1. auto.
Qed.
Lemma wk_gets {A} (f : host -> A) : (forall h x, f (put x h) = f h) -> wk b (gets f).
Proof. intros Hf h x Hx. exists x. unfold gets. rewrite Hf. auto. Qed.
Lemma wk_modify f : (forall h x, f (put x h) = put x (f h)) -> wk b (modify f).
Proof. intros Hf h x Hx. exists x. unfold modify. rewrite Hf. auto. Qed.
Lemma wk_GetOutputAccount a : wk b (GetOutputAccount a).
Proof.
  intros h x Hx. exists x. split; [exact Hx|]. unfold GetOutputAccount.
  replace (accounts (put x h)) with (accounts h) by (destruct x; reflexivity). destruct (accounts h !! a); [reflexivity|]. destruct x; reflexivity.
Qed.
Lemma wk_clean : wk b CleanWasmerInstance.
Proof.
  intros h x Hx. exists x. split; [exact Hx|]. unfold CleanWasmerInstance.
  replace (h_cur (put x h)) with (h_cur h) by (destruct x; reflexivity). destruct (h_cur h); destruct x; reflexivity.
Qed.
Ltac wc := repeat first
  [ progress cbv zeta
  | match goal with
    | H : _ |- _ => exact H
    | |- wk _ (ret _) => apply wk_ret
    | |- wk _ (fail _) => apply wk_fail
    | |- wk _ (lift _) => apply wk_lift
    | |- wk _ (fail_if _ _) => apply wk_fail_if
    | |- wk _ (gets _) => apply wk_gets; intros ? []; reflexivity
    | |- wk _ (modify _) => apply wk_modify; intros ? []; reflexivity
    | |- wk _ (GetOutputAccount _) => apply wk_GetOutputAccount
    | |- wk _ CleanWasmerInstance => apply wk_clean
    | |- wk _ (try _) => apply wk_try
    | |- wk _ (deferring _ _ _) => apply wk_defer; [|intros ?|]
    | |- wk _ (bind _ _) => apply wk_bind; [|intros ?]
    | |- wk _ (match ?x with _ => _ end) => destruct x
    end ].
Lemma wk_GetNonce a : wk b (GetNonce a).
Proof. unfold GetNonce, upd_account. wc. Qed.
Lemma wk_NewAddress a : wk b (NewAddress a).
Proof. unfold NewAddress. wc. apply wk_GetNonce. Qed.
Lemma wk_AddTxValue a v : wk b (AddTxValueToAccount a v).
Proof. unfold AddTxValueToAccount, upd_account. wc. Qed.
Lemma wk_rt i : wk b (runtime_InitStateFromContractCallInput i).
Proof. unfold runtime_InitStateFromContractCallInput. wc. Qed.
Lemma wk_met i : wk b (metering_InitStateFromContractCallInput i).
Proof. unfold metering_InitStateFromContractCallInput. wc. Qed.
Lemma wk_check i : wk b (checkGasForGetCode i).
Proof. unfold checkGasForGetCode. wc. Qed.
Lemma wk_GetCode a : wk b (GetCode a).
Proof. unfold GetCode, upd_account. wc. Qed.
Lemma wk_error e : wk b (CreateVMOutputInCaseOfError e).
Proof. unfold CreateVMOutputInCaseOfError, UpdateGasStateOnFailure, setGasUsedToOutputAccounts, upd_account. wc. Qed.
Lemma wk_cleaning m : wk b m -> wk b (cleaning (orErrorOutput m)).
Proof. intros Hm. unfold cleaning, orErrorOutput. wc. apply wk_error. Qed.
Lemma wk_init : wk b initContexts.
Proof. unfold initContexts. wc. Qed.
End wk.

Section tx.
Context `{E : env}.
(** the storage owner is set before it is used *)
Lemma owner_set {B} a (k : M B) : wk false (storage_SetAddress a ;;; k).
Proof.
  intros h x Hx. destruct x as [n|a0]; [discriminate|]. unfold storage_SetAddress, bind, modify. cbn [put].
  exists (SOwner (h_stoaddr (fst (k (set_h_trace (EvOwner a :: h_trace h) (set_h_stoaddr a h)))))). split; [reflexivity|].
  change (h_trace (set_h_stoaddr a0 h)) with (h_trace h).
  replace (set_h_stoaddr a (set_h_stoaddr a0 h)) with (set_h_stoaddr a h) by reflexivity.
  destruct (k _) as [h1 o]. cbn. destruct h1; reflexivity.
Qed.
Lemma wk_SetAddress a : wk true (storage_SetAddress a).
Proof. intros h x Hx. exists x. destruct x; [|discriminate]. split; reflexivity. Qed.
(** the code size is set before it is used, when there is code to run *)
Lemma size_set {B} f (k : bytes -> M B) : wk true (contract <- map_err GetSCCode f ;; k contract).
Proof.
  intros h x Hx. unfold map_err, GetSCCode.
  set (a := r_addr (h_rt h)). assert (Ha : r_addr (h_rt (put x h)) = a) by (destruct x; reflexivity).
  unfold bind, try, gets, modify, ret. rewrite Ha. fold a.
  destruct (wk_GetCode true a h x Hx) as (x1 & Hx1 & E1). rewrite E1.
  destruct (GetCode a h) as [h1 [c|e| |]]; cbn [fst snd]; try (exists x1; split; [exact Hx1|reflexivity]).
  destruct x1 as [n1|]; [|discriminate]. cbn [put].
  replace (set_h_codesize (blen c) (set_h_codesize n1 h1)) with (set_h_codesize (blen c) h1) by reflexivity.
  destruct (k c (set_h_codesize (blen c) h1)) as [h2 o]. exists (SCode (h_codesize h2)). split; [reflexivity|]. destruct h2; reflexivity.
Qed.

Lemma call_owner run rd i : wk false (doRunSmartContractCall run rd i).
Proof.
  unfold doRunSmartContractCall. apply wk_bind; [apply wk_init|intros _]. apply wk_cleaning.
  apply wk_bind; [apply wk_rt|intros _]. apply wk_bind; [apply wk_met|intros v]. apply wk_bind; [apply wk_AddTxValue|intros _].
  apply owner_set.
Qed.
Lemma call_size run rd i : wk true (doRunSmartContractCall run rd i).
Proof.
  unfold doRunSmartContractCall. apply wk_bind; [apply wk_init|intros _]. apply wk_cleaning.
  apply wk_bind; [apply wk_rt|intros _]. apply wk_bind; [apply wk_met|intros v]. apply wk_bind; [apply wk_AddTxValue|intros _].
  apply wk_bind; [apply wk_SetAddress|intros _]. apply wk_bind; [apply wk_check|intros _]. apply size_set.
Qed.
Lemma upgrade_owner run rd i : wk false (doRunSmartContractUpgrade run rd i).
Proof.
  unfold doRunSmartContractUpgrade. apply wk_bind; [apply wk_init|intros _]. apply wk_cleaning.
  apply wk_bind; [apply wk_rt|intros _]. apply wk_bind; [apply wk_met|intros v]. apply wk_bind; [apply wk_AddTxValue|intros _].
  apply owner_set.
Qed.
Lemma create_owner run rd i : wk false (doRunSmartContractCreate run rd i).
Proof.
  unfold doRunSmartContractCreate. apply wk_bind; [apply wk_init|intros _]. apply wk_cleaning. cbv zeta.
  apply wk_bind; [apply wk_NewAddress|intros a]. apply wk_bind; [apply wk_modify; intros ? []; reflexivity|intros _].
  apply wk_bind; [apply wk_met|intros v]. apply wk_bind; [apply wk_AddTxValue|intros _].
  apply owner_set.
Qed.

(** ** Instances, snapshots and events left by earlier transactions *)
Definition canon (h : host) : host :=
  mkHost ∅ [] newVMOutput [] ∅ metering0 [] frame0 [] (h_codesize h) false ∅ 0 None []
         (h_stoaddr h) [] true (h_world h) [] (h_cache h) [].
Lemma canon_T h : no_stacks h -> h_stoprot h = true -> below h ->
  fst (initContexts h) = T (h_next h) (h_insts h) (h_bcst h) (h_trace h) (canon h).
Proof.
  intros [] Hs _. unfold T, canon. cbn. rewrite kmap_empty, (left_id_L ∅ (∪)), Nat.add_0_r. destruct h; cbn in *. subst. reflexivity.
Qed.
Lemma below_hold h : below h -> forall i, h_insts h !! (h_next h + i)%nat = None.
Proof. intros Hb i. apply Hb. lia. Qed.
Lemma below_canon h : below (canon h).
Proof. intros i _. apply lookup_empty. Qed.

(** a transaction is [initContexts] and then a body *)
Definition body {A} (m : M A) (k : M A) : Prop := forall h, m h = k (fst (initContexts h)).
Definition all_cm {A} (k : M A) : Prop := forall d old left past, (forall i : nat, old !! (d + i)%nat = None) -> cm d old left past 0 0 k.
Lemma body_T {A} (m k : M A) : body m k -> all_cm k -> forall h, no_stacks h -> h_stoprot h = true -> below h ->
  m h = (T (h_next h) (h_insts h) (h_bcst h) (h_trace h) (fst (k (canon h))), snd (k (canon h))).
Proof.
  intros Hm Hk h Hn Hs Hb. rewrite Hm, (canon_T h Hn Hs Hb). destruct (k (canon h)) as [h1 r] eqn:E1.
  destruct (Hk _ _ (h_bcst h) (h_trace h) (below_hold h Hb) (canon h) (below_canon h) ltac:(cbn; lia) h1 r E1) as (_ & Q & _). exact Q.
Qed.
Lemma T_id h : T 0 ∅ [] [] h = h.
Proof.
  unfold T. rewrite (right_id_L ∅ (∪)), !app_nil_r. replace (kmap (Nat.add 0) (h_insts h)) with (h_insts h).
  2: { apply map_eq. intros i. change i with (0 + i)%nat at 2. rewrite (lookup_kmap (Nat.add 0)). reflexivity. }
  replace (map (fmap (Nat.add 0)) (h_ist h)) with (h_ist h).
  2: { induction (h_ist h) as [|x s IH]; [reflexivity|]. cbn [map]. rewrite <- IH. f_equal. destruct x; reflexivity. }
  replace (Nat.add 0 <$> h_cur h) with (h_cur h) by (destruct (h_cur h); reflexivity). destruct h; reflexivity.
Qed.
Lemma body_below {A} (m k : M A) : body m k -> all_cm k -> forall h h' r, below h -> m h = (h', r) -> below h'.
Proof.
  intros Hm Hk h h' r Hb H. rewrite Hm in H.
  assert (Hb0 : below (fst (initContexts h))) by exact Hb.
  exact (proj1 (Hk 0%nat ∅ [] [] (fun i => lookup_empty _) _ Hb0 ltac:(lia) h' r H)).
Qed.


Lemma bind_init {A} (k : M A) h : (initContexts ;;; k) h = k (fst (initContexts h)).
Proof. reflexivity. Qed.
Lemma body_call n i : beq (ci_fn i) UpgradeFunctionName = false -> body (RunSmartContractCall n i) (call_body n i).
Proof.
  intros Hf h. unfold RunSmartContractCall, RunSmartContractCallIn. rewrite Hf. unfold doRunSmartContractCall. rewrite bind_init. unfold call_body. exact eq_refl.
Qed.
Lemma body_upgrade n i : beq (ci_fn i) UpgradeFunctionName = true -> body (RunSmartContractCall n i) (upgrade_body n i).
Proof.
  intros Hf h. unfold RunSmartContractCall, RunSmartContractCallIn. rewrite Hf. unfold doRunSmartContractUpgrade. rewrite bind_init. unfold upgrade_body. exact eq_refl.
Qed.
Lemma body_create n i : body (RunSmartContractCreate n i) (create_body n i).
Proof. intros h. unfold RunSmartContractCreate, doRunSmartContractCreate. rewrite bind_init. unfold create_body. exact eq_refl. Qed.
Lemma all_call n i : all_cm (call_body n i).
Proof. intros d old left past Ho. apply cm_call_body, Ho. Qed.
Lemma all_upgrade n i : all_cm (upgrade_body n i).
Proof. intros d old left past Ho. apply cm_upgrade_body, Ho. Qed.
Lemma all_create n i : all_cm (create_body n i).
Proof. intros d old left past Ho. apply cm_create_body, Ho. Qed.

Lemma history_facts h : history h -> no_stacks h /\ h_stoprot h = true /\ below h.
Proof.
  induction 1 as [h (N & S & I)|n i h h' r _ (N & S & B) H Hr|n i h h' r _ (N & S & B) H Hr|w h _ ([] & S & B)].
  - split; [exact N|]. split; [exact S|]. intros j _. rewrite I. apply lookup_empty.
  - destruct (call_end n i h h' r S N H Hr) as ((S' & _) & N'). split; [exact N'|]. split; [exact S'|].
    destruct (beq (ci_fn i) UpgradeFunctionName) eqn:Hf.
    + exact (body_below _ _ (body_upgrade n i Hf) (all_upgrade n i) h h' r B H).
    + exact (body_below _ _ (body_call n i Hf) (all_call n i) h h' r B H).
  - destruct (create_end n i h h' r S N H Hr) as ((S' & _) & N'). split; [exact N'|]. split; [exact S'|].
    exact (body_below _ _ (body_create n i) (all_create n i) h h' r B H).
  - split; [constructor; assumption|]. split; [exact S|exact B].
Qed.

(** a host of the same node with an empty past *)
Lemma run_canon {A} (m k : M A) : body m k -> all_cm k -> forall h, history h -> 
  exists h', m h = (T (h_next h) (h_insts h) (h_bcst h) (h_trace h) h', snd (m (canon h))) /\ m (canon h) = (h', snd (m (canon h))).
Proof.
  intros Hm Hk h Hh. destruct (history_facts h Hh) as (N & S & B). exists (fst (m (canon h))).
  rewrite (body_T m k Hm Hk h N S B), (Hm (canon h)). change (fst (initContexts (canon h))) with (canon h).
  split; [reflexivity|]. apply surjective_pairing.
Qed.
Lemma canon_eq h1 h2 : same_node h1 h2 -> canon h2 = put (SCode (h_codesize h2)) (put (SOwner (h_stoaddr h2)) (canon h1)).
Proof. intros (Hw & Hc). unfold canon. cbn. rewrite Hw, Hc. reflexivity. Qed.
Lemma run_same {A} (m k : M A) h1 h2 x1 x2 h r : body m k -> all_cm k -> history h1 -> history h2 ->
  m (canon h1) = (put x1 h, r) -> m (canon h2) = (put x2 h, r) -> same_run m h1 h2.
Proof.
  intros Hm Hk H1 H2 E1 E2. destruct (run_canon m k Hm Hk h1 H1) as (a1 & A1 & B1). destruct (run_canon m k Hm Hk h2 H2) as (a2 & A2 & B2).
  rewrite E1 in A1, B1. rewrite E2 in A2, B2. cbn [snd] in *. injection B1 as <-. injection B2 as <-.
  unfold same_run. rewrite A1, A2. cbn [fst snd]. split; [reflexivity|]. split; [destruct x1, x2; split; reflexivity|].
  exists (h_trace h). destruct x1, x2; split; reflexivity.
Qed.
Lemma put_id h : put (SOwner (h_stoaddr h)) h = h.
Proof. destruct h; reflexivity. Qed.
Lemma fresh_any {A} (m k : M A) h1 h2 : body m k -> all_cm k -> wk false m -> wk true m -> history h1 -> history h2 -> same_node h1 h2 ->
  same_run m h1 h2.
Proof.
  intros Hm Hk Wo Ws H1 H2 Hn. destruct (Wo (canon h1) (SOwner (h_stoaddr h2)) eq_refl) as (x & Hx & Ex).
  destruct (Ws (put (SOwner (h_stoaddr h2)) (canon h1)) (SCode (h_codesize h2)) eq_refl) as (y & Hy & Ey).
  rewrite <- (canon_eq h1 h2 Hn), Ex in Ey. cbn [fst snd] in Ey.
  destruct x as [|a]; [discriminate|]. destruct y as [c|]; [|discriminate].
  set (h := fst (m (canon h1))) in *.
  apply (run_same m k h1 h2 (SOwner (h_stoaddr h)) (SCode c) (put (SOwner a) h) (snd (m (canon h1))) Hm Hk H1 H2).
  - rewrite (surjective_pairing (m (canon h1))) at 1. f_equal. fold h. destruct h; reflexivity.
  - exact Ey.
Qed.
Lemma fresh_sized {A} (m k : M A) h1 h2 : body m k -> all_cm k -> wk false m -> history h1 -> history h2 -> same_node h1 h2 ->
  h_codesize h1 = h_codesize h2 -> same_run m h1 h2.
Proof.
  intros Hm Hk Wo H1 H2 Hn Hs. destruct (Wo (canon h1) (SOwner (h_stoaddr h2)) eq_refl) as (x & Hx & Ex).
  set (h := fst (m (canon h1))) in *.
  apply (run_same m k h1 h2 (SOwner (h_stoaddr h)) x h (snd (m (canon h1))) Hm Hk H1 H2).
  - rewrite (surjective_pairing (m (canon h1))) at 1. f_equal. fold h. rewrite put_id. reflexivity.
  - rewrite (canon_eq h1 h2 Hn). rewrite <- Hs. rewrite <- Ex. f_equal.
Qed.

Lemma fresh_call n i h1 h2 : history h1 -> history h2 -> same_node h1 h2 -> ci_fn i <> UpgradeFunctionName ->
  same_run (RunSmartContractCall n i) h1 h2.
Proof.
  intros H1 H2 Hn Hf. assert (Hb : beq (ci_fn i) UpgradeFunctionName = false) by (apply bool_decide_eq_false; exact Hf).
  apply (fresh_any _ _ h1 h2 (body_call n i Hb) (all_call n i)); auto;
    unfold RunSmartContractCall, RunSmartContractCallIn; rewrite Hb; [apply call_owner|apply call_size].
Qed.
Lemma fresh_upgrade n i h1 h2 : history h1 -> history h2 -> same_node h1 h2 -> ci_fn i = UpgradeFunctionName ->
  h_codesize h1 = h_codesize h2 -> same_run (RunSmartContractCall n i) h1 h2.
Proof.
  intros H1 H2 Hn Hf Hs. assert (Hb : beq (ci_fn i) UpgradeFunctionName = true) by (apply bool_decide_eq_true; exact Hf).
  apply (fresh_sized _ _ h1 h2 (body_upgrade n i Hb) (all_upgrade n i)); auto;
    unfold RunSmartContractCall, RunSmartContractCallIn; rewrite Hb; apply upgrade_owner.
Qed.
Lemma fresh_create n i h1 h2 : history h1 -> history h2 -> same_node h1 h2 ->
  h_codesize h1 = h_codesize h2 -> same_run (RunSmartContractCreate n i) h1 h2.
Proof.
  intros H1 H2 Hn Hs. apply (fresh_sized _ _ h1 h2 (body_create n i) (all_create n i)); auto. apply create_owner.
Qed.
End tx.
