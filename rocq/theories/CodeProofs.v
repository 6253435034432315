(** The return code through executions: it stays RcOk until an error is
    certain. *)
From Verif Require Import VmModel WpProofs EffProofs EffFrameProofs EffWalkProofs EffTopProofs CallSpec KeepProofs CallProofs
  InvSpec KindProofs TxProofs OutSpec OutProofs GasProofs GasApiProofs GasAsyncProofs CodeSpec.
From Coq Require Import ZifyBool ZifyNat ZifyN.

(** ** API functions fail the execution only right before they return *)
Definition may_fault {B} (p : prim B) : bool :=
  match p with QFault _ | QSignal _ | QESDTExecute _ _ _ _ _ _ _ => true | _ => false end.
Definition over (c : cmd) : Prop := match c with CDo _ _ => False | _ => True end.
Fixpoint settles (c : cmd) : Prop :=
  match c with
  | CDo p k => (may_fault p = true -> forall x, over (k x)) /\ forall x, settles (k x)
  | _ => True
  end.
Section settles.
Context `{E : env}.
Lemma st_do {B} (p : prim B) k : may_fault p = false -> (forall x, settles (k x)) -> settles (CDo p k).
Proof. intros H1 H2. split; [rewrite H1; discriminate|exact H2]. Qed.
Lemma st_act {B} (p : prim B) k : may_fault p = false -> (forall b, settles (k b)) -> settles (act p k).
Proof. intros H1 H2. apply st_do; [exact H1|]. intros [b|]; [apply H2|exact I]. Qed.
Lemma st_last {B} (p : prim B) k : (forall b, over (k b)) -> settles (act p k).
Proof. intros H. split; intros; (destruct x as [b|]; [|exact I]); [apply H|]. specialize (H b). destruct (k b); [exact I|exact I|destruct H]. Qed.
Lemma st_get {B} (f : host -> B) k : (forall b, settles (k b)) -> settles (get f k).
Proof. apply st_act. reflexivity. Qed.
Lemma st_fault e r : settles (fault e r).
Proof. apply st_last. intros; exact I. Qed.
Lemma st_or_fault {B} (p : prim B) r k : may_fault p = false -> (forall b, settles (k b)) -> settles (or_fault p r k).
Proof. intros H1 H2. apply st_do; [exact H1|]. intros [b|]; [apply H2|apply st_fault]. Qed.
Lemma st_res {B} (x : res B) r k : (forall b, settles (k b)) -> settles (res_or_fault x r k).
Proof. intros H. destruct x; [apply H|apply st_fault|exact I]. Qed.
Lemma st_load o l r k : (forall b, settles (k b)) -> settles (load o l r k).
Proof. intros H. apply st_get. intros b. apply st_res, H. Qed.
Lemma st_store o d r k : settles k -> settles (store o d r k).
Proof. intros H. apply st_or_fault; [reflexivity|]. intros _. exact H. Qed.
Lemma st_use g k : settles k -> settles (use g k).
Proof. intros H. apply st_act; [reflexivity|]. intros _. exact H. Qed.
Lemma st_args a b c k : (forall x, settles (k x)) -> settles (get_args a b c k).
Proof. apply st_get. Qed.
Lemma st_extract v a b c d e f i r k : (forall x, settles (k x)) -> settles (extract v a b c d e f i r k).
Proof. intros H. apply st_get. intros x. apply st_res. intros y. apply st_use, H. Qed.
Lemma st_topics ptr n : forall i acc k, (forall l, settles (k l)) -> settles (load_topics ptr n i acc k).
Proof. induction n as [|n IH]; intros i acc k Hk; [apply Hk|]. apply st_load. intros t. apply IH, Hk. Qed.
Lemma st_extra vs k : settles k -> settles (extra_gas vs k).
Proof. intros Hk. induction vs as [|v vs IH]; cbn [extra_gas]; [exact Hk|]. destruct (_ <? _); [apply st_use|]; exact IH. Qed.
End settles.
Ltac sk := repeat (intros;
  lazymatch goal with
  | |- settles (CRet _) => exact I
  | |- settles CPanic => exact I
  | |- settles (act (QSignal _) _) => apply st_last; intros; exact I
  | |- settles (act (QESDTExecute _ _ _ _ _ _ _) _) => apply st_last; intros; exact I
  | |- settles (act (QFault _) _) => apply st_last; intros; exact I
  | |- settles (CDo _ _) => apply st_do; [reflexivity|]
  | |- settles (act _ _) => apply st_act; [reflexivity|]
  | |- settles (get _ _) => apply st_get
  | |- settles (fault _ _) => apply st_fault
  | |- settles (or_fault _ _ _) => apply st_or_fault; [reflexivity|]
  | |- settles (res_or_fault _ _ _) => apply st_res
  | |- settles (load _ _ _ _) => apply st_load
  | |- settles (store _ _ _ _) => apply st_store
  | |- settles (use _ _) => apply st_use
  | |- settles (get_args _ _ _ _) => apply st_args
  | |- settles (extract _ _ _ _ _ _ _ _ _ _) => apply st_extract
  | |- settles (load_topics _ _ _ _ _) => apply st_topics
  | |- settles (extra_gas _ _) => apply st_extra
  | |- settles (if ?b then _ else _) => destruct b
  | |- settles (match ?b with _ => _ end) => destruct b
  | |- settles (let _ := _ in _) => cbv zeta
  | |- settles ?c => let g := head_of c in unfold g
  end).
Lemma api_settles `{E : env} c : settles (api c).
Proof. destruct c; unfold api; try (sk; fail). Qed.

(** ** The code *)
Definition okk (h : host) : Prop := o_code (h_out h) = RcOk.
Definition fine (h : host) : Prop := host_ok h /\ okk h.
(** the running instance was told to stop because of a failure *)
Definition stopped (h : host) : Prop :=
  exists i x, running_as h i x /\ (in_bp x = BreakpointExecutionFailed \/ in_bp x = BreakpointSignalError).
Definition fine1 {A} (m : M A) : Prop := forall h h' a, fine h -> m h = (h', OOk a) -> fine h'.
Definition done {A} (r : outc A) : Prop := match r with OOk _ | OErr _ => True | _ => False end.
Definition fine2 {A} (m : M A) : Prop := forall h h' r, fine h -> m h = (h', r) -> done r -> fine h'.
Notation fcode := (fun h => (o_code (h_out h), h_stoprot h, h_cur h, h_next h)).

Section fine.
Context `{E : env}.
Lemma fine_same h h' : fcode h' = fcode h -> fine h -> fine h'.
Proof. intros [= H1 H2 H3 H4] [[A1 A2] A3]. repeat split; unfold okk in *; try congruence. intros i Hi. rewrite H4. apply A2. congruence. Qed.
Lemma f2_keeps {A} (m : M A) : keeps fcode m -> fine2 m.
Proof. intros H h h' r Hf Hm _. apply H in Hm. exact (fine_same _ _ Hm Hf). Qed.
Lemma f2_1 {A} (m : M A) : fine2 m -> fine1 m.
Proof. intros H h h' a Hf Hm. exact (H _ _ _ Hf Hm I). Qed.
Lemma f1_try {A} (m : M A) : fine2 m -> fine1 (try m).
Proof.
  intros H h h' a Hf Hm. unfold try in Hm. destruct (m h) as [h1 [x|e| |]] eqn:Hx; try discriminate Hm; injection Hm as <- <-; exact (H _ _ _ Hf Hx I).
Qed.
Lemma f2_try {A} (m : M A) : fine2 m -> fine2 (try m).
Proof.
  intros H h h' a Hf Hm Hd. unfold try in Hm. destruct (m h) as [h1 [x|e| |]] eqn:Hx; injection Hm as <- <-; try destruct Hd; exact (H _ _ _ Hf Hx I).
Qed.
Lemma f1_bind {A B} (m : M A) (k : A -> M B) : fine1 m -> (forall a, fine1 (k a)) -> fine1 (bind m k).
Proof. intros H1 H2 h h' b Hf H. unfold bind in H. destruct (m h) as [h1 [x|e| |]] eqn:Hx; try discriminate H. exact (H2 _ _ _ _ (H1 _ _ _ Hf Hx) H). Qed.
Lemma f2_bind {A B} (m : M A) (k : A -> M B) : fine2 m -> (forall a, fine2 (k a)) -> fine2 (bind m k).
Proof.
  intros H1 H2 h h' b Hf H Hd. unfold bind in H. destruct (m h) as [h1 [x|e| |]] eqn:Hx; [|injection H as <- <-; exact (H1 _ _ _ Hf Hx I)|injection H as <- <-; destruct Hd..].
  exact (H2 _ _ _ _ (H1 _ _ _ Hf Hx I) H Hd).
Qed.
Lemma f1_fail {A} e : fine1 (fail e : M A).
Proof. intros h h' a _ H. discriminate H. Qed.
Lemma f1_panic {A} : fine1 (panic : M A).
Proof. intros h h' a _ H. discriminate H. Qed.
(** host_ok from the effects, the code from the fields *)
Lemma f2_walk {A} (m : M A) : keeps (fun h => o_code (h_out h)) m -> walk any_opts (true, true) m -> fine2 m.
Proof.
  intros Hk Hw h h' r [Hf1 Hf2] Hm Hd. split; [|unfold okk; rewrite (Hk _ _ _ Hm); exact Hf2].
  apply (any_walk m h h' r Hw Hf1 Hm). intros ->. destruct Hd.
Qed.

(** * The operations *)
Lemma kc_new w g : keeps (fun h => o_code (h_out h)) (new_instance w g).
Proof. intros h h' r [= <- <-]. reflexivity. Qed.
Lemma kc_clean : keeps (fun h => o_code (h_out h)) CleanWasmerInstance.
Proof. intros h h' r H. unfold CleanWasmerInstance in H. destruct (h_cur h); injection H as <- <-; reflexivity. Qed.
Hint Resolve kc_new kc_clean : keeps.
Lemma kc_Start c g n : keeps (fun h => o_code (h_out h)) (StartWasmerInstance c g n).
Proof. kp. Qed.
Lemma f2_Start c g n : fine2 (StartWasmerInstance c g n).
Proof. apply f2_walk; [apply kc_Start|]. exact (walk_Start any_opts any_codes true c g n). Qed.
Lemma kc_SetProtected k v : keeps (fun h => o_code (h_out h)) (SetProtectedStorage k v).
Proof. kp. Qed.
Lemma f2_SetTimeLock k v : fine2 (SetProtectedStorage (CustomStorageKey TimeLockKeyPrefix k) v).
Proof. apply f2_walk; [apply kc_SetProtected|]. apply walk_SetProtectedStorage. apply custom_timelock. Qed.
Lemma f2_SetAsync k v : fine2 (SetProtectedStorage (CustomStorageKey AsyncDataPrefix k) v).
Proof. apply f2_walk; [apply kc_SetProtected|]. apply walk_SetProtectedStorage. apply custom_async. Qed.
Lemma kc_GetVMOutput : keeps fcode GetVMOutput.
Proof. kp. Qed.
Lemma kc_RestoreGas g : keeps fcode (RestoreGas g).
Proof. kp. Qed.

(** ** Calls: the code is RcOk again whatever happens below *)
Lemma nb_okk n i h h' r : host_ok h -> okk h ->
  executeOnDestContextNoBuiltinFunction (vmRun n) (vmDest n) i h = (h', r) -> done r -> okk h'.
Proof.
  intros [Hs Hw] Hk H Hd. assert (Hr : r <> OFuel) by (intros ->; exact Hd).
  destruct (nb_shape n i h h' r Hs H Hr) as (hb & bo & h1 & o & _ & _ & Hc & _ & He & ro & Hro & _).
  pose proof (kc_RestoreGas _ _ _ _ Hro) as Hg. cbn beta in Hg. injection Hg as Hg _ _ _. unfold okk. rewrite Hg.
  destruct (destPop_kept (bool_decide (o_code o = RcOk)) i h h1 _ Hw He) as (_ & _ & _ & _ & -> & _).
  destruct (bool_decide (o_code o = RcOk)) eqn:Hb; [|exact Hk]. apply bool_decide_eq_true in Hb.
  destruct (body_err bo) as [e|]; cbn [compute_output] in Hc.
  - destruct (CreateErr_code _ _ _ _ Hc Hb).
  - rewrite <- (GetVMOutput_out _ _ _ Hc Hb). exact Hb.
Qed.
Lemma bcPop_okk b h : okk h -> okk (bcPop b h).
Proof. unfold okk. destruct (bcPop_outmet b h) as [-> _]. auto. Qed.

(** a built-in function that gives no error leaves the code RcOk *)
Lemma addESDT_code i o : o_code (addESDTTransferToVMOutputSCIntraShardCall i o) = o_code o.
Proof.
  unfold addESDTTransferToVMOutputSCIntraShardCall, addOutputTransferToVMOutput.
  repeat match goal with |- context [if ?b then _ else _] => destruct b; [|] end; try reflexivity;
  repeat match goal with |- context [match ?b with _ => _ end] => destruct b end; reflexivity.
Qed.
Lemma f2_handleBuiltin i : honest_builtins -> fine2 (handleBuiltinFunctionCall i).
Proof.
  intros Hh h h' r [Hok Hk] H Hd. assert (Hr : r <> OFuel) by (intros ->; exact Hd). split.
  - destruct (handleBuiltin_eff any_opts (true, true) i h h' r (any_good h (proj1 Hok)) H Hr) as [He _].
    exact (eff_host_ok _ _ _ _ Hok He).
  - unfold okk in *. unfold handleBuiltinFunctionCall in H. unfold bind at 1 in H.
    destruct (callBuiltinFunction i h) as [h1 r1] eqn:Hc.
    unfold callBuiltinFunction in Hc. unfold bind at 1, try at 1 in Hc.
    destruct (ProcessBuiltInFunction i h) as [h2 r2] eqn:Hp.
    assert (K2 : o_code (h_out h2) = RcOk).
    { assert (Hkp : keeps fcode (ProcessBuiltInFunction i)) by kp. pose proof (Hkp _ _ _ Hp) as Q. cbn beta in Q. injection Q as Q _ _ _. congruence. }
    assert (Hrest : forall m : M (option call_input * vm_output), keeps fcode m -> m h2 = (h1, r1) -> o_code (h_out h1) = RcOk).
    { intros m Hm Hx. pose proof (Hm _ _ _ Hx) as Q. cbn beta in Q. injection Q as Q _ _ _. congruence. }
    assert (Hkeep : o_code (h_out h1) = RcOk).
    { destruct r2 as [o|e| |].
      - eapply Hrest; [|exact Hc]. kp.
      - eapply Hrest; [|exact Hc]. kp.
      - injection Hc as <- <-. exact K2.
      - injection Hc as <- <-. exact K2. }
    destruct r1 as [[post o]|e| |]; [|injection H as <- <-; exact Hkeep..].
    injection H as <- <-. cbn [mergeVMOutputs o_code h_out set_h_out set_o_refund set_o_accounts].
    change (o_code o = RcOk).
    destruct r2 as [o2|e| |]; [|rewrite ?bind_gets in Hc|discriminate Hc|discriminate Hc].
    + assert (Ho2 : o_code o2 = RcOk).
      { unfold ProcessBuiltInFunction in Hp. destruct (e_builtin _ _ _) as [w' [x|?|]] eqn:Hb; try discriminate Hp.
        injection Hp as <- <-. exact (Hh _ _ _ _ Hb). }
      destruct (ok_bind _ _ _ _ _ Hc) as (h3 & p & H3 & H4). destruct p as [post2|e]; cbn beta iota in H4.
      * destruct (ok_bind _ _ _ _ _ H4) as (h4 & u & H5 & H6). injection H6 as _ _ <-. rewrite addESDT_code. destruct post2; exact Ho2.
      * destruct (ok_bind _ _ _ _ _ H4) as (h4 & u & H5 & H6). discriminate H6.
    + destruct (ok_bind _ _ _ _ _ Hc) as (h4 & u & H5 & H6). discriminate H6.
Qed.
Lemma f2_dest n i : honest_builtins -> fine2 (vmDest n i).
Proof.
  intros Hh h h' r [Hok Hk] H Hd. assert (Hr : r <> OFuel) by (intros ->; exact Hd).
  split; [apply (dest_all n i h h' r Hok H Hr)|].
  destruct n as [|n]; [injection H as <- <-; destruct Hd|].
  change (ExecuteOnDestContext (vmRun n) (vmDest n) i h = (h', r)) in H. unfold ExecuteOnDestContext in H.
  rewrite (bind_ok _ _ h (bcPush h) tt) in H by reflexivity.
  assert (Hf : fine (bcPush h)) by (split; [exact Hok|exact Hk]).
  assert (Hrest : forall post o h2, fine h2 ->
    ('(o, info, e) <- match post with
                       | Some i => executeOnDestContextNoBuiltinFunction (vmRun n) (vmDest n) i
                       | None => ret (o, None, None)
                       end ;;
      match e with
      | Some _ => blockchain_PopSetActiveState
      | None => blockchain_PopDiscard
      end ;;; ret (o, info, e)) h2 = (h', r) -> okk h').
  { intros post o h2 [F1 F2] Hx. unfold bind at 1 in Hx.
    lazymatch type of Hx with (let (_, _) := ?t in _) = _ => destruct t as [h3 r3] eqn:H3 end.
    assert (Hd3 : done r3) by (destruct r3; [exact I|exact I|injection Hx as <- <-; exact Hd..]).
    assert (K3 : okk h3).
    { destruct post as [j|]; [exact (nb_okk _ _ _ _ _ F1 F2 H3 Hd3)|injection H3 as <- <-; exact F2]. }
    destruct r3 as [[[o3 info3] [e3|]]|e3| |].
    - rewrite (bind_ok _ _ _ _ _ (bcPopSet_ok h3)) in Hx. injection Hx as <- <-. exact (bcPop_okk true h3 K3).
    - rewrite (bind_ok _ _ _ _ _ (bcPopDiscard_ok h3)) in Hx. injection Hx as <- <-. exact (bcPop_okk false h3 K3).
    - injection Hx as <- <-. exact K3.
    - destruct Hd3.
    - destruct Hd3. }
  destruct (e_isBuiltin E (ci_fn i)).
  - rewrite bind_assoc in H. unfold bind at 1, try in H.
    destruct (handleBuiltinFunctionCall i (bcPush h)) as [h2 r2] eqn:H2.
    destruct r2 as [[post o]|e| |].
    + pose proof (f2_handleBuiltin i Hh _ _ _ Hf H2 I) as F2. exact (Hrest post (Some o) h2 F2 H).
    + pose proof (f2_handleBuiltin i Hh _ _ _ Hf H2 I) as F2. rewrite bind_ret in H.
      rewrite (bind_ok _ _ _ _ _ (bcPopSet_ok h2)) in H.
      pose proof (bcPop_okk true h2 (proj2 F2)) as K.
      assert (Hkp : keeps fcode (o <- CreateVMOutputInCaseOfError e ;; ret (Some o, None : option async_info, Some e))) by kp.
      pose proof (Hkp _ _ _ H) as Q. cbn beta in Q. injection Q as Q _ _ _. unfold okk in *. congruence.
    + injection H as <- <-. destruct Hd.
    + injection H as <- <-. destruct Hd.
  - rewrite bind_ret in H. exact (Hrest (Some i) None _ Hf H).
Qed.

Lemma finishSame_code e h :
  (finishExecuteOnSameContext e h = (samePop false h, OOk tt)) \/
  (exists h1 o, GetVMOutput h = (h1, OOk o) /\ o_code (h_out h) = RcOk /\
     finishExecuteOnSameContext e h = RestoreGas (o_gasrem o) (samePop true h1)).
Proof.
  destruct (finishSame_run any_opts e h) as [(h' & H & ->)|(h1 & o & H1 & H2)]; [left; exact H|].
  destruct (decide (o_code (h_out h) = RcOk)) as [Hc|Hc]; [right; exists h1, o; auto|left].
  unfold finishExecuteOnSameContext. rewrite bind_gets. rewrite bool_decide_false by exact Hc. cbn [negb orb].
  exact (samePop_ok any_opts false h) || exact (samePop_ok false h).
Qed.

Lemma outPop_okk i h h2 b : wf h -> okk h -> eff any_opts true (samePush i h) h2 b -> okk (samePop false h2).
Proof.
  intros Hw Hk He. pose proof (k_outst _ _ _ _ _ (eff_kept any_opts _ _ _ _ He Hw)) as Hst. rewrite samePop_unfold.
  apply bcPop_okk. unfold okk. autorewrite with pops.
  destruct (outPop_set (metPop false (bigPop h2)) false (mergeVMOutputs newVMOutput (h_out h)) (h_outst h)) as [-> _]; [|exact Hk].
  autorewrite with pops. exact Hst.
Qed.
Lemma f2_same n i : fine2 (vmSame n i).
Proof.
  intros h h' r [Hok Hk] H Hd. assert (Hr : r <> OFuel) by (intros ->; exact Hd).
  split; [apply (same_all n i h h' r Hok H Hr)|].
  destruct n as [|n]; [injection H as <- <-; destruct Hd|].
  change (ExecuteOnSameContext (vmRun n) (vmDest n) i h = (h', r)) in H.
  destruct (e_isBuiltin E (ci_fn i)) eqn:Hbi.
  { unfold ExecuteOnSameContext in H. rewrite Hbi in H. cbn [fail_if] in H. injection H as <- <-. exact Hk. }
  rewrite (execSame_unfold _ _ i h Hbi) in H. cbv zeta in H. destruct Hok as [Hs Hw].
  set (j := unlocked (dest_input i h)) in *.
  unfold deferring in H. destruct (bind _ _ (samePush i h)) as [h2 o] eqn:Hb.
  assert (Ho : o <> OFuel) by (intros ->; injection H as <- <-; exact (Hr eq_refl)).
  assert (He : eff any_opts true (samePush i h) h2 (pan o)).
  { unfold bind at 1 in Hb. destruct (TransferValueOnly _ _ _ _ (samePush i h)) as [h4 o4] eqn:Ht.
    assert (Ho4 : o4 <> OFuel) by (intros ->; injection Hb as <- <-; exact (Ho eq_refl)).
    assert (He4 : eff any_opts true (samePush i h) h4 (pan o4)).
    { eapply TransferValueOnly_eff; [apply any_codes|exact Ht|exact Ho4|]. right; left; reflexivity. }
    destruct o4; try (injection Hb as <- <-; exact He4).
    eapply eff_seq; [exact He4|].
    refine (walk_execute any_opts any_codes _ _ (fun l p Hp => walk_vmRun any_opts any_codes n l p Hp) (proj1 (walk_vm any_opts any_codes n)) j h4 h2 o _ Hb Ho).
    exact (eff_good any_opts true _ _ _ _ He4 (any_good (samePush i h) Hs)). }
  assert (Hfin : forall e h3 o3, finishExecuteOnSameContext e h2 = (h3, o3) -> okk h3).
  { intros e h3 o3 Hf. destruct (finishSame_code e h2) as [Hf'|(h4 & x & Hm & Hc & Hf')]; rewrite Hf' in Hf.
    - injection Hf as <- <-. exact (outPop_okk i h h2 _ Hw Hk He).
    - pose proof (kc_RestoreGas _ _ _ _ Hf) as Q. cbn beta in Q. injection Q as Q _ _ _. unfold okk. rewrite Q.
      rewrite samePop_unfold. autorewrite with pops.
      pose proof (kc_GetVMOutput _ _ _ Hm) as Q2. cbn beta in Q2. injection Q2 as Q2 _ _ _. rewrite Q2. exact Hc. }
  destruct o as [[]|er| |].
  - exact (Hfin _ _ _ H).
  - unfold bind in H. destruct (finishExecuteOnSameContext (Some er) h2) as [h3 o3] eqn:Hf.
    assert (h3 = h') as -> by (destruct o3; injection H as <- <-; reflexivity). exact (Hfin _ _ _ Hf).
  - destruct (finishExecuteOnSameContext None h2) as [h3 o3] eqn:Hf.
    assert (h3 = h') as -> by (destruct o3; injection H as <- <-; reflexivity). exact (Hfin _ _ _ Hf).
  - destruct (Ho eq_refl).
Qed.

Ltac f2 := repeat (intros;
  lazymatch goal with
  | |- fine2 (bind _ _) => apply f2_bind
  | |- fine2 (try _) => apply f2_try
  | |- fine2 (if ?b then _ else _) => destruct b
  | |- fine2 (match ?b with _ => _ end) => destruct b
  | |- fine2 (vmDest _ _) => apply f2_dest; assumption
  | |- fine2 (vmSame _ _) => apply f2_same
  | |- fine2 (let _ := _ in _) => cbv zeta
  | |- fine2 (SetProtectedStorage (CustomStorageKey TimeLockKeyPrefix _) _) => apply f2_SetTimeLock
  | |- fine2 (SetProtectedStorage (CustomStorageKey AsyncDataPrefix _) _) => apply f2_SetAsync
  | |- fine2 (exec_dest _ _) => unfold exec_dest
  | |- fine2 _ => apply f2_keeps; solve [kp]
  end).
Lemma f2_big f : fine2 (big_op f).
Proof. apply f2_keeps. intros h h' r H. unfold big_op in H. destruct (f (h_big h)). injection H as <- <-. reflexivity. Qed.
Lemma f2_Create n i : honest_builtins -> fine2 (CreateNewContract (vmDest n) i).
Proof. intros Hh. unfold CreateNewContract. f2. Qed.
Lemma f2_interp {B} n (p : prim B) : honest_builtins -> may_fault p = false -> fine2 (interp (vmDest n) (vmSame n) p).
Proof.
  intros Hh. destruct p; intros Hp; try discriminate Hp; cbn [interp].
  all: try (f2; fail).
  - apply f2_big.
  - apply f2_big.
  - apply f2_bind; [f2|intros; apply f2_Create, Hh].
Qed.

(** ** Failing *)
Definition halted (h : host) : Prop := host_ok h /\ (okk h \/ stopped h).
Lemma upd_noerr f h h' e : upd_inst f h = (h', OErr e) -> False.
Proof.
  unfold upd_inst, cur_inst, bind. destruct (h_cur h) as [c|]; [|discriminate]. destruct (h_insts h !! c); discriminate.
Qed.
Lemma upd_halt v h h' (r : outc unit) : (v = BreakpointExecutionFailed \/ v = BreakpointSignalError) ->
  SetRuntimeBreakpointValue v h = (h', r) -> done r -> stopped h'.
Proof.
  intros Hv H Hd. unfold SetRuntimeBreakpointValue, upd_inst, cur_inst, bind in H.
  destruct (h_cur h) as [c|] eqn:Hc; [|injection H as <- <-; destruct Hd].
  destruct (h_insts h !! c) as [x|] eqn:Hx; [|injection H as <- <-; destruct Hd].
  injection H as <- <-. exists c, (set_in_bp v x). split; [|exact Hv]. split; [exact Hc|]. cbn. apply lookup_insert.
Qed.
Lemma halt_Fail e h h' r : FailExecution e h = (h', r) -> done r -> stopped h'.
Proof. intros H Hd. unfold FailExecution, SetReturnCode, SetReturnMessage in H. rewrite !bind_modify in H. exact (upd_halt _ _ _ _ (or_introl eq_refl) H Hd). Qed.
Lemma halt_Signal m h h' r : SignalUserError m h = (h', r) -> done r -> stopped h'.
Proof. intros H Hd. unfold SignalUserError, SetReturnCode, SetReturnMessage in H. rewrite !bind_modify in H. exact (upd_halt _ _ _ _ (or_intror eq_refl) H Hd). Qed.
Lemma halt_Fault e h h' r : WithFault e h = (h', r) -> done r -> stopped h'.
Proof.
  intros H Hd. unfold WithFault, GasLeft in H. rewrite bind_gets in H. unfold bind at 1 in H.
  destruct (UseGas _ h) as [h1 [u|er| |]] eqn:Hu; [exact (halt_Fail _ _ _ _ H Hd)|..]; [|injection H as <- <-; destruct Hd..].
  unfold UseGas, GetPointsUsed, SetPointsUsed in Hu. rewrite bind_gets in Hu. destruct (upd_noerr _ _ _ _ Hu).
Qed.
Lemma halt_interp {B} n (p : prim B) h h' r : honest_builtins -> fine h -> interp (vmDest n) (vmSame n) p h = (h', r) -> done r -> halted h'.
Proof.
  intros Hh Hf H Hd. destruct (may_fault p) eqn:Hp.
  - assert (Hr : r <> OFuel) by (intros ->; exact Hd). split.
    + destruct (walk_vm any_opts any_codes n) as [Wd Ws].
      assert (Hpo : prim_ok any_opts p) by (destruct p; cbn; auto).
      exact (eff_host_ok _ _ _ _ (proj1 Hf) (walk_interp any_opts any_codes _ _ Wd Ws true p Hpo h h' r (any_good h (proj1 (proj1 Hf))) H Hr)).
    + destruct p; try discriminate Hp; cbn [interp] in H.
      * right. exact (halt_Fault _ _ _ _ H Hd).
      * right. exact (halt_Signal _ _ _ _ H Hd).
      * unfold esdt_execute in H. rewrite bind_gets in H. cbv zeta in H. unfold bind at 1 in H.
        lazymatch type of H with (let (_, _) := try ?m h in _) = _ => set (mm := m) in H; assert (F2 : fine2 (try mm)) by (unfold mm; apply f2_try; f2) end.
        destruct (try mm h) as [h1 r1] eqn:H1.
        destruct r1 as [[g|e]|e| |]; [| |injection H as <- <-; left; exact (proj2 (F2 _ _ _ Hf H1 I))|injection H as <- <-; destruct Hd..].
        -- left. pose proof (F2 _ _ _ Hf H1 I) as Hf1.
           lazymatch type of H with ?m h1 = _ => assert (F3 : fine2 m) by f2 end.
           exact (proj2 (F3 _ _ _ Hf1 H Hd)).
        -- right. unfold bind in H. destruct (WithFault e h1) as [h2 [u|e2| |]] eqn:Hw; injection H as <- <-;
             first [exact (halt_Fault _ _ _ _ Hw I)|destruct Hd].
  - destruct (f2_interp n p Hh Hp _ _ _ Hf H Hd). split; auto.
Qed.
Lemma run_over n c h h' r : over c -> run_cmd (vmDest n) (vmSame n) c h = (h', r) -> h' = h.
Proof. destruct c; intros Ho H; try destruct Ho; injection H as <- <-; reflexivity. Qed.
Lemma halt_cmd n c : honest_builtins -> settles c -> forall h h' r, fine h ->
  run_cmd (vmDest n) (vmSame n) c h = (h', r) -> done r -> halted h'.
Proof.
  intros Hh. induction c as [z| |B p k IH]; intros Hc h h' r Hf H Hd.
  - injection H as <- <-. destruct Hf; split; auto.
  - injection H as <- <-. destruct Hd.
  - destruct Hc as [Hc1 Hc2]. cbn [run_cmd] in H. unfold bind at 1, try in H.
    destruct (interp (vmDest n) (vmSame n) p h) as [h1 r1] eqn:H1.
    destruct (may_fault p) eqn:Hp.
    + specialize (Hc1 eq_refl).
      destruct r1 as [b|e| |]; [| |injection H as <- <-; destruct Hd..];
        rewrite (run_over _ _ _ _ _ (Hc1 _) H); exact (halt_interp n p h h1 _ Hh Hf H1 I).
    + destruct r1 as [b|e| |]; [| |injection H as <- <-; destruct Hd..];
        exact (IH _ (Hc2 _) _ _ _ (f2_interp n p Hh Hp _ _ _ Hf H1 I) H Hd).
Qed.
Lemma cur_inst_ok h h' i x : cur_inst h = (h', OOk (i, x)) -> h' = h /\ running_as h i x.
Proof.
  unfold cur_inst. destruct (h_cur h) as [c|] eqn:Hc; [|discriminate]. destruct (h_insts h !! c) as [y|] eqn:Hy; [|discriminate].
  intros [= <- <- <-]. repeat split; auto.
Qed.
Lemma halt_run n p : honest_builtins -> forall h h' b, fine h -> vmRun n p h = (h', OOk b) ->
  if b : bool then fine h' else halted h'.
Proof.
  intros Hh. unfold vmRun, runner.
  assert (Hi : forall h c x f h', fine h -> running_as h c x -> upd_inst f h = (h', OOk tt) -> fine h').
  { intros h c x f h' Hf Hx H. rewrite (upd_inst_run _ _ _ _ Hx) in H. injection H as <-. exact Hf. }
  assert (Hfh : forall h, fine h -> halted h) by (intros h [? ?]; split; auto).
  induction p as [| |points k IH|offset len k IH|offset data k IH|k IH|c k IH]; intros h h' b Hf H; cbn [run_prog] in H.
  - injection H as <- <-. exact Hf.
  - injection H as <- <-. exact (Hfh _ Hf).
  - destruct (ok_bind _ _ _ _ _ H) as (h1 & [i x] & H1 & H2). destruct (cur_inst_ok _ _ _ _ H1) as [-> Hx]. cbv zeta in H2.
    destruct (ok_bind _ _ _ _ _ H2) as (h2 & u & H3 & H4). destruct u.
    pose proof (Hi _ _ _ _ _ Hf Hx H3) as Hf2. destruct (in_limit x <? _); [|exact (IH _ _ _ Hf2 H4)].
    destruct (ok_bind _ _ _ _ _ H4) as (h3 & u & H5 & H6). injection H6 as <- <-. destruct u.
    assert (Hx2 : exists y, running_as h2 i y) by (rewrite (upd_inst_run _ _ _ _ Hx) in H3; injection H3 as <-; eexists; eapply running_with_inst; exact Hx).
    destruct Hx2 as [y Hy]. exact (Hfh _ (Hi _ _ _ _ _ Hf2 Hy H5)).
  - destruct (ok_bind _ _ _ _ _ H) as (h1 & [i x] & H1 & H2). destruct (cur_inst_ok _ _ _ _ H1) as [-> Hx].
    destruct (_ && _ && _); [exact (IH _ _ _ _ Hf H2)|]. injection H2 as <- <-. exact (Hfh _ Hf).
  - destruct (ok_bind _ _ _ _ _ H) as (h1 & [i x] & H1 & H2). destruct (cur_inst_ok _ _ _ _ H1) as [-> Hx]. cbv zeta in H2.
    destruct (_ && _); [|injection H2 as <- <-; exact (Hfh _ Hf)].
    destruct (ok_bind _ _ _ _ _ H2) as (h2 & u & H3 & H4). destruct u. exact (IH _ _ _ (Hi _ _ _ _ _ Hf Hx H3) H4).
  - destruct (ok_bind _ _ _ _ _ H) as (h1 & [i x] & H1 & H2). destruct (cur_inst_ok _ _ _ _ H1) as [-> Hx].
    destruct (m_grow _) as [m|]; [|exact (IH _ _ _ _ Hf H2)].
    destruct (ok_bind _ _ _ _ _ H2) as (h2 & u & H3 & H4). destruct u. exact (IH _ _ _ _ (Hi _ _ _ _ _ Hf Hx H3) H4).
  - destruct (ok_bind _ _ _ _ _ H) as (h1 & z & H1 & H2).
    destruct (halt_cmd n (api c) Hh (api_settles c) _ _ _ Hf H1 I) as [Ho Hk].
    destruct (ok_bind _ _ _ _ _ H2) as (h2 & bp & H3 & H4). unfold GetRuntimeBreakpointValue in H3.
    destruct (ok_bind _ _ _ _ _ H3) as (h3 & [i x] & H5 & H6). destruct (cur_inst_ok _ _ _ _ H5) as [-> Hx]. injection H6 as <- <-.
    destruct (in_bp x =? BreakpointNone) eqn:Hbp; [|injection H4 as <- <-; split; [exact Ho|exact Hk]].
    destruct Hk as [Hk|(i2 & x2 & Hx2 & Hbad)]; [exact (IH _ _ _ _ (conj Ho Hk) H4)|].
    exfalso. destruct Hx as [Q1 Q2], Hx2 as [Q3 Q4]. replace i2 with i in Q4 by congruence. rewrite Q4 in Q2. injection Q2 as ->.
    destruct Hbad as [Hb|Hb]; rewrite Hb in Hbp; discriminate Hbp.
Qed.

(** ** Executions that succeed leave the code RcOk *)
Lemma f1_then_fail {A B} (m : M A) e : fine1 (m ;;; fail e : M B).
Proof. intros h h' b _ H. destruct (ok_bind _ _ _ _ _ H) as (h1 & x & _ & H2). discriminate H2. Qed.
Lemma f1_nil : fine1 (GetVMOutput ;;; panic : M unit).
Proof. intros h h' b _ H. destruct (ok_bind _ _ _ _ _ H) as (h1 & x & _ & H2). discriminate H2. Qed.
Ltac f1 := repeat (intros;
  lazymatch goal with
  | |- fine1 (fail _) => apply f1_fail
  | |- fine1 panic => apply f1_panic
  | |- fine1 (bind (FailExecution _) _) => apply f1_then_fail
  | |- fine1 (bind GetVMOutput (fun _ => panic)) => apply f1_nil
  | |- fine1 (bind (SetReturnCode RcOutOfGas) _) => apply f1_then_fail
  | |- fine1 (bind _ _) => apply f1_bind
  | |- fine1 (if ?b then _ else _) => destruct b
  | |- fine1 (match ?b with _ => _ end) => destruct b
  | |- fine1 (let _ := _ in _) => cbv zeta
  | |- fine1 _ => apply f2_1; solve [f2]
  end).
Lemma f1_send c : fine1 (sendAsyncCallToDestination c).
Proof. unfold sendAsyncCallToDestination. f1. Qed.
Lemma f1_sendCb : fine1 sendCallbackToCurrentCaller.
Proof. unfold sendCallbackToCurrentCaller. f1. Qed.
Lemma f1_sendStorageCb a d : fine1 (sendStorageCallbackToDestination a d).
Proof.
  unfold sendStorageCallbackToDestination. apply f1_bind; [f1|intros ?]. apply f1_bind; [f1|intros ?]. apply f1_bind; [f1|intros [?|?]]; [f1|].
  apply f1_bind; [f1|intros ?]. apply f1_bind; [f1|intros ?]. apply f1_then_fail.
Qed.
Lemma f2_cbOutput o e : fine2 (processCallbackVMOutput o e).
Proof. unfold processCallbackVMOutput. f2. Qed.
Lemma f2_syncDest n c : honest_builtins -> fine2 (executeSyncDestinationCall (vmDest n) c).
Proof. intros Hh. unfold executeSyncDestinationCall. f2. Qed.
Lemma f1_syncCb n c o e : honest_builtins -> fine1 (executeSyncCallbackCall (vmDest n) c o e).
Proof. intros Hh. unfold executeSyncCallbackCall. f1. Qed.
Lemma f1_async n : honest_builtins -> fine1 (handleAsyncCallBreakpoint (vmDest n)).
Proof.
  intros Hh. unfold handleAsyncCallBreakpoint. apply f1_bind; [f1|intros _]. apply f1_bind; [f1|intros [c|]]; [|f1].
  apply f1_bind; [f1|intros []].
  - apply f1_bind; [apply f2_1, f2_syncDest, Hh|intros [o e]]. apply f1_bind; [apply f1_syncCb, Hh|intros [o2 e2]]. apply f2_1, f2_cbOutput.
  - apply f1_bind; [apply f2_1, f2_syncDest, Hh|intros [o e]]. apply f1_bind; [apply f1_syncCb, Hh|intros [o2 e2]]. apply f2_1, f2_cbOutput.
  - apply f1_bind; [apply f2_1, f2_syncDest, Hh|intros [o e]]. f1.
  - f1.
  - apply f1_send.
Qed.
Lemma f1_callFunction n p : honest_builtins -> fine1 (callFunction (vmRun n) (vmDest n) p).
Proof.
  intros Hh h h' u Hf H. unfold callFunction in H. destruct (ok_bind _ _ _ _ _ H) as (h1 & b & H1 & H2).
  pose proof (halt_run n p Hh _ _ _ Hf H1) as Hr. destruct b; [injection H2 as <- <-; exact Hr|].
  unfold handleBreakpoint in H2. destruct (ok_bind _ _ _ _ _ H2) as (h2 & bp & H3 & H4).
  unfold GetRuntimeBreakpointValue in H3.
  destruct (ok_bind _ _ _ _ _ H3) as (h3 & [i x] & H5 & H6). destruct (cur_inst_ok _ _ _ _ H5) as [-> Hx]. injection H6 as <- <-.
  destruct (in_bp x =? BreakpointNone); [discriminate H4|].
  destruct (in_bp x =? BreakpointAsyncCall) eqn:Hbp.
  - destruct Hr as [Ho Hk]. refine (f1_async n Hh _ _ _ (conj Ho _) H4).
    destruct Hk as [Hk|(i2 & x2 & Hx2 & Hbad)]; [exact Hk|].
    exfalso. destruct Hx as [Q1 Q2], Hx2 as [Q3 Q4]. replace i2 with i in Q4 by congruence. rewrite Q4 in Q2. injection Q2 as ->.
    destruct Hbad as [Hb|Hb]; rewrite Hb in Hbp; discriminate Hbp.
  - destruct (in_bp x =? BreakpointExecutionFailed); [discriminate H4|]. destruct (in_bp x =? BreakpointSignalError); [discriminate H4|].
    destruct (in_bp x =? BreakpointOutOfGas); discriminate H4.
Qed.
Lemma f1_processCalls n cs : honest_builtins -> fine1 (processAsyncCalls (vmDest n) cs).
Proof.
  intros Hh. induction cs as [|[[id i] c] cs IH]; cbn [processAsyncCalls]; [f1|].
  apply f1_bind; [f1|intros b]. apply f1_bind; [|intros _; exact IH]. destruct b; [|f1].
  unfold processAsyncCall, callbackAsync. f1.
Qed.
Lemma f1_sendCalls cs : fine1 (sendAsyncCalls cs).
Proof.
  induction cs as [|c cs IH]; cbn [sendAsyncCalls]; [f1|].
  apply f1_bind; [f1|intros b]. apply f1_bind; [|intros _; exact IH]. destruct b; [f1|apply f1_send].
Qed.
Lemma f1_processInfo n : honest_builtins -> fine1 (processAsyncInfo (vmDest n)).
Proof.
  intros Hh. unfold processAsyncInfo. apply f1_bind; [f1|intros info]. destruct (bool_decide _); [f1|].
  apply f1_bind; [f1|intros g]. apply f1_bind; [f1|intros m]. apply f1_bind; [f1|intros _]. apply f1_bind; [apply f1_processCalls, Hh|intros _].
  apply f1_bind; [f1|intros pending]. destruct (bool_decide _); [f1|].
  apply f1_bind; [unfold savePendingAsyncCalls; f1|intros _]. apply f1_bind; [f1|intros ?]. apply f1_bind; [f1|intros ?].
  apply f1_bind; [apply f1_sendCalls|intros _]. f1.
Qed.
Lemma f1_callbackStack : fine1 processCallbackStack.
Proof.
  unfold processCallbackStack, readAsyncCell. intros h h' u Hf H.
  rewrite bind_assoc, bind_gets in H. cbv zeta in H. rewrite bind_assoc in H.
  destruct (ok_bind _ _ _ _ _ H) as (h1 & buff & H1 & H2).
  assert (Hf1 : fine h1) by (refine ((_ : fine1 (GetStorageUnmetered _)) _ _ _ Hf H1); f1).
  rewrite bind_ret in H2. set (hash := vi_origtx (r_input (h_rt h))) in *. clearbody hash. clear H H1 Hf h.
  revert h1 h' u Hf1 H2. match goal with |- forall h1 h' u, fine h1 -> ?m h1 = (h', OOk u) -> fine h' => change (fine1 m) end.
  destruct (blen buff =? 0); [f1|]. apply f1_bind; [f1|intros info]. apply f1_bind; [f1|intros caller]. cbv zeta.
  destruct (find_context _ _ _); [|f1]. destruct (negb _); [f1|]. apply f1_bind; [f1|intros _]. apply f1_bind; [f1|intros can].
  destruct (negb can); [apply f1_sendStorageCb|apply f1_nil].
Qed.
Lemma f1_init n : honest_builtins -> fine1 (callInitFunction (vmRun n) (vmDest n)).
Proof.
  intros Hh. unfold callInitFunction. apply f1_bind; [f1|intros [p|]]; [|f1].
  apply f1_bind; [apply f1_callFunction, Hh|intros _]. f1.
Qed.
Lemma f1_map_err {A} (m : M A) f : fine2 m -> fine1 (map_err m f).
Proof. intros H. unfold map_err. apply f1_bind; [apply f1_try, H|intros [a|e]]; f1. Qed.
Lemma f1_deploy n d : honest_builtins -> fine1 (deployContract (vmRun n) (vmDest n) d).
Proof.
  intros Hh. unfold deployContract. apply f1_bind; [unfold orOutOfGas; f1|intros _]. apply f1_bind; [f1|intros _]. apply f1_bind; [f1|intros g].
  apply f1_bind; [apply f1_map_err, f2_Start|intros _]. apply f1_bind; [apply f1_init, Hh|intros _]. f1.
Qed.

Lemma f1_SCMethod n : honest_builtins -> fine1 (callSCMethod (vmRun n) (vmDest n)).
Proof.
  intros Hh. unfold callSCMethod. apply f1_bind; [f1|intros _]. apply f1_bind; [f1|intros ctype].
  apply f1_bind; [f1|intros [[p|]|e]]; [|f1|].
  - apply f1_bind; [apply f1_callFunction, Hh|intros _]. apply f1_bind; [f1|intros _].
    destruct ctype; [apply f1_bind; [apply f1_processInfo, Hh|intros ?]; f1| |apply f1_callbackStack|apply f1_bind; [apply f1_processInfo, Hh|intros ?]; f1].
    apply f1_bind; [apply f1_processInfo, Hh|intros pending]. destruct (bool_decide _); [apply f1_sendCb|f1].
  - destruct (_ && _); [apply f1_callbackStack|f1].
Qed.

(** ** Transactions *)
Definition good_out (o : vm_output) : Prop := o_code o = RcOk \/ error_output o.
Definition fouts (m : M vm_output) : Prop := forall h h' o, fine h -> m h = (h', OOk o) -> good_out o.
Lemma fo_bind {A} (m : M A) k : fine1 m -> (forall a, fouts (k a)) -> fouts (bind m k).
Proof. intros H1 H2 h h' o Hf H. destruct (ok_bind _ _ _ _ _ H) as (h1 & a & H3 & H4). exact (H2 _ _ _ _ (H1 _ _ _ Hf H3) H4). Qed.
Lemma fo_end : fouts (o <- GetVMOutput ;; CleanWasmerInstance ;;; ret o).
Proof.
  intros h h' o Hf H. destruct (ok_bind _ _ _ _ _ H) as (h1 & o1 & H1 & H2).
  rewrite (bind_ok _ _ _ _ _ (clean_ok h1)) in H2. injection H2 as <- <-.
  destruct (outs_GetVMOutput _ _ _ H1) as [->|Hx]; [left|right; exact Hx].
  pose proof (kc_GetVMOutput _ _ _ H1) as Q. cbn beta in Q. injection Q as -> _ _ _. apply Hf.
Qed.
Lemma fo_top m h h' o : fouts m -> fine h -> cleaning (orErrorOutput m) h = (h', OOk o) -> good_out o.
Proof.
  intros Hm Hf H. unfold cleaning, deferring in H. destruct (orErrorOutput m h) as [h1 r1] eqn:H1.
  destruct r1 as [o1|e| |]; rewrite ?(bind_ok _ _ _ _ _ (clean_ok h1)) in H; try discriminate H; [|rewrite clean_ok in H; discriminate H].
  injection H as <- <-. unfold orErrorOutput, bind, try in H1. destruct (m h) as [h2 [o2|e| |]] eqn:H2; try discriminate H1.
  - injection H1 as <- <-. exact (Hm _ _ _ Hf H2).
  - right. destruct (outs_CreateErr _ _ _ _ H1) as [->|Hx]; [|exact Hx].
    unfold CreateVMOutputInCaseOfError in H1. rewrite bind_gets in H1. cbv zeta in H1. unfold bind in H1.
    destruct (UpdateGasStateOnFailure h2) as [h3 []]; try discriminate H1. injection H1 as <- Hq. rewrite <- Hq. eexists _, _. reflexivity.
Qed.
Lemma fine_init h : host_ok h -> fine (init0 h).
Proof. intros Ho. split; [|reflexivity]. exact Ho. Qed.
Lemma fo_deploy n d : honest_builtins -> fouts (performCodeDeployment (vmRun n) (vmDest n) d).
Proof. intros Hh. unfold performCodeDeployment. apply fo_bind; [apply f1_deploy, Hh|intros _]. apply fo_end. Qed.
Lemma call_good n i h h' o : honest_builtins -> host_ok h -> RunSmartContractCall n i h = (h', OOk o) -> good_out o.
Proof.
  intros Hh Hok H. unfold RunSmartContractCall, RunSmartContractCallIn in H. destruct (beq _ _).
  - rewrite doUpgrade_eq in H. refine (fo_top _ _ _ _ _ (fine_init _ Hok) H). unfold opening.
    do 4 (apply fo_bind; [f1|intros ?]). apply fo_bind; [f1|intros [code meta]]. apply fo_deploy, Hh.
  - rewrite doCall_eq in H. refine (fo_top _ _ _ _ _ (fine_init _ Hok) H). unfold opening.
    do 4 (apply fo_bind; [f1|intros ?]). apply fo_bind; [f1|intros _].
    apply fo_bind; [apply f1_map_err; f2|intros ?]. apply fo_bind; [apply f1_map_err; f2|intros ?].
    apply fo_bind; [f1|intros ?]. apply fo_bind; [apply f1_map_err, f2_Start|intros ?].
    apply fo_bind; [apply f1_SCMethod, Hh|intros ?]. apply fo_end.
Qed.
Lemma create_good n i h h' o : honest_builtins -> host_ok h -> RunSmartContractCreate n i h = (h', OOk o) -> good_out o.
Proof.
  intros Hh Hok H. rewrite create_unfold, doCreate_eq in H. refine (fo_top _ _ _ _ _ (fine_init _ Hok) H). unfold opening_create.
  do 5 (apply fo_bind; [f1|intros ?]). apply fo_deploy, Hh.
Qed.
End fine.
