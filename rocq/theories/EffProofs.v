(** What the host can do to its state, as a relation.

    [eff l h h' b]: from [h] the host can reach [h'] by steps of contract API
    calls ([l = false]), or also of the host's own work inside a nested frame
    ([l = true]: starting an instance, ...); [b] says that a panic is under
    way.  The nested frames are part of the relation, so that an induction over
    [eff] is an induction over call trees of any depth and breadth.
    EffWalkProofs shows that everything the model does is an [eff]; here are
    the relation and what is common to all its users. *)
From Verif Require Import VmModel WpProofs.

(** restrictions on what contracts do; [any_opts] is none *)
Record opts := mkOpts {
  op_byc : bool;     (* contracts may call executeOnDestContextByCaller *)
  op_create : bool;  (* contracts may deploy contracts *)
  op_any : bool;     (* calls may be made in the name of any account *)
  op_once : bool     (* no frame may start a second instance *)
}.
Definition any_opts : opts := mkOpts true true true false.
Definition once_opts : opts := mkOpts true true true true.
Class lax (O : opts) : Prop := is_lax : op_once O = false.
Global Instance any_lax : lax any_opts := eq_refl.

(** the pushes of ExecuteOnSameContext *)
Definition samePushM `{E : env} (i : call_input) : M call_input :=
  bigint_PushState ;;;
  output_PushState ;;;
  current <- gets (fun h => r_input (h_rt h)) ;;
  let i := copyTxHashesFromContext current i in
  runtime_PushState ;;;
  runtime_InitStateFromContractCallInput i ;;;
  metering_PushState ;;;
  v <- metering_InitStateFromContractCallInput (ci_vm i) ;;
  let i := set_ci_vm v i in
  blockchain_PushState ;;;
  ret i.
(** the frames pushed *)
Definition dest_input `{E : env} (i : call_input) (h : host) : call_input :=
  copyTxHashesFromContext (r_input (h_rt h)) i.
Definition unlocked (i : call_input) : call_input := set_ci_vm (unlockGasIfAsyncCallback (ci_vm i)) i.

Definition dest_frame `{E : env} (i : call_input) (h : host) : frame :=
  let i := dest_input i h in
  mkFrame (ci_vm i) (ci_rcpt i) (ci_fn i) (r_ro (h_rt h)) (r_async (h_rt h)) (mkAinfo (vi_caller (ci_vm i)) [] ∅).
Definition met0 (v : vm_input) : metering :=
  let v := unlockGasIfAsyncCallback v in mkMet (vi_gas v) 0 (vi_gas v) ∅.

Definition bigPush (h : host) : host := set_h_bigst (h_big h :: h_bigst h) h.
Definition outPush (h : host) : host := set_h_outst (mergeVMOutputs newVMOutput (h_out h) :: h_outst h) h.
Definition censor (h : host) : host := set_h_out (mkOut [] RcOk [] 0 (Some 0) (o_accounts (h_out h)) []) h.
Definition rtPush (h : host) : host := set_h_ist (h_cur h :: h_ist h) (set_h_rtst (h_rt h :: h_rtst h) h).
Definition metPush (h : host) : host := set_h_metst (h_met h :: h_metst h) h.
Definition stoPush (h : host) : host := set_h_stost (h_stoaddr h :: h_stost h) h.
Definition stoSet (a : bytes) (h : host) : host := set_h_trace (EvOwner a :: h_trace h) (set_h_stoaddr a h).
Definition bcPush (h : host) : host := set_h_bcst (h_world h :: h_bcst h) h.

Definition destPush `{E : env} (i : call_input) (h : host) : host :=
  stoSet (ci_rcpt i) (stoPush (set_h_met (met0 (ci_vm (dest_input i h))) (metPush
    (set_h_rt (dest_frame i h) (rtPush (censor (outPush (set_h_big ∅ (bigPush h))))))))).

Lemma copyTx_same `{E : env} cur i :
  ci_rcpt (copyTxHashesFromContext cur i) = ci_rcpt i /\ ci_fn (copyTxHashesFromContext cur i) = ci_fn i /\
  ci_init (copyTxHashesFromContext cur i) = ci_init i /\
  let v := ci_vm (copyTxHashesFromContext cur i) in
  vi_caller v = vi_caller (ci_vm i) /\ vi_args v = vi_args (ci_vm i) /\ vi_value v = vi_value (ci_vm i) /\
  vi_ctype v = vi_ctype (ci_vm i) /\ vi_gas v = vi_gas (ci_vm i) /\ vi_locked v = vi_locked (ci_vm i) /\
  vi_esdt v = vi_esdt (ci_vm i).
Proof.
  unfold copyTxHashesFromContext. destruct (negb _); [repeat split|].
  destruct (0 <? _), (0 <? _); repeat split.
Qed.

Lemma pushDest_eq `{E : env} i h :
  pushDest i h = (destPush i h, OOk (unlocked (dest_input i h))).
Proof.
  unfold pushDest.
  rewrite (bind_ok _ _ h (bigPush h) tt) by reflexivity.
  rewrite (bind_ok _ _ _ (set_h_big ∅ (bigPush h)) tt) by reflexivity.
  rewrite (bind_ok _ _ _ (outPush (set_h_big ∅ (bigPush h))) tt) by reflexivity.
  rewrite (bind_ok _ _ _ (censor (outPush (set_h_big ∅ (bigPush h)))) tt) by reflexivity.
  rewrite bind_gets.
  change (r_input (h_rt (censor (outPush (set_h_big ∅ (bigPush h)))))) with (r_input (h_rt h)).
  cbv zeta. fold (dest_input i h).
  set (h4 := censor _).
  rewrite (bind_ok _ _ _ (rtPush h4) tt) by reflexivity.
  rewrite (bind_ok _ _ _ (set_h_rt (dest_frame i h) (rtPush h4)) tt) by reflexivity.
  set (h5 := set_h_rt _ _).
  rewrite (bind_ok _ _ _ (metPush h5) tt) by reflexivity.
  rewrite (bind_ok _ _ _ (set_h_met (met0 (ci_vm (dest_input i h))) (metPush h5))
             (unlockGasIfAsyncCallback (ci_vm (dest_input i h)))) by reflexivity.
  set (h6 := set_h_met _ _).
  rewrite (bind_ok _ _ _ (stoPush h6) tt) by reflexivity.
  rewrite bind_gets.
  replace (r_addr (h_rt (stoPush h6))) with (ci_rcpt i)
    by (symmetry; apply (proj1 (copyTx_same (r_input (h_rt h)) i))).
  rewrite (bind_ok _ _ _ (stoSet (ci_rcpt i) (stoPush h6)) tt) by reflexivity.
  reflexivity.
Qed.

Definition samePush `{E : env} (i : call_input) (h : host) : host :=
  bcPush (set_h_met (met0 (ci_vm (dest_input i h))) (metPush
    (set_h_rt (dest_frame i h) (rtPush (outPush (bigPush h)))))).
Lemma samePush_eq `{E : env} i h :
  samePushM i h = (samePush i h, OOk (unlocked (dest_input i h))).
Proof.
  unfold samePushM.
  rewrite (bind_ok _ _ h (bigPush h) tt) by reflexivity.
  rewrite (bind_ok _ _ _ (outPush (bigPush h)) tt) by reflexivity.
  rewrite bind_gets.
  change (r_input (h_rt (outPush (bigPush h)))) with (r_input (h_rt h)).
  cbv zeta. fold (dest_input i h).
  set (h4 := outPush _).
  rewrite (bind_ok _ _ _ (rtPush h4) tt) by reflexivity.
  rewrite (bind_ok _ _ _ (set_h_rt (dest_frame i h) (rtPush h4)) tt) by reflexivity.
  set (h5 := set_h_rt _ _).
  rewrite (bind_ok _ _ _ (metPush h5) tt) by reflexivity.
  rewrite (bind_ok _ _ _ (set_h_met (met0 (ci_vm (dest_input i h))) (metPush h5))
             (unlockGasIfAsyncCallback (ci_vm (dest_input i h)))) by reflexivity.
  set (h6 := set_h_met _ _).
  rewrite (bind_ok _ _ _ (bcPush h6) tt) by reflexivity.
  reflexivity.
Qed.

(** popping a frame of ExecuteOnDestContext: finishExecuteOnDestContext
    between the computation of the output and RestoreGas *)
Definition destPopM (ok : bool) : M unit :=
  bigint_PopSetActiveState ;;;
  storage_PopSetActiveState ;;;
  (if ok then metering_PopMergeActiveState ;;; output_PopMergeActiveState
   else metering_PopSetActiveState ;;; output_PopSetActiveState) ;;;
  runtime_PopSetActiveState.
Definition destPop (ok : bool) (h : host) : host := fst (destPopM ok h).

(** the pops of finishExecuteOnSameContext *)
Definition samePopM (ok : bool) : M unit :=
  if ok then
    metering_PopMergeActiveState ;;;
    output_PopDiscard ;;;
    bigint_PopDiscard ;;;
    blockchain_PopDiscard ;;;
    runtime_PopSetActiveState
  else
    bigint_PopSetActiveState ;;;
    metering_PopSetActiveState ;;;
    output_PopSetActiveState ;;;
    runtime_PopSetActiveState ;;;
    blockchain_PopSetActiveState.
Definition samePop (ok : bool) (h : host) : host := fst (samePopM ok h).

Definition bcPop (revert : bool) (h : host) : host :=
  fst ((if revert then blockchain_PopSetActiveState else blockchain_PopDiscard) h).

(** accounts that agree on balance, balance change and storage, the second
    having possibly more transfers *)
Definition acc_le (x y : out_account) : Prop :=
  oa_balance y = oa_balance x /\ oa_delta y = oa_delta x /\ oa_storage y = oa_storage x /\
  exists t, oa_transfers y = oa_transfers x ++ t.

(** outputs that agree but for the transfers *)
Definition retransfer (o o' : vm_output) : Prop :=
  forall a, set_oa_transfers [] (default NewVMOutputAccount (o_accounts o' !! a)) =
            set_oa_transfers [] (default NewVMOutputAccount (o_accounts o !! a)).

Definition pan {A} (r : outc A) : bool := match r with OPanic => true | _ => false end.

Section eff.
Context `{E : env} (O : opts).

Definition prim_ok {B} (p : prim B) : Prop :=
  match p with
  | QExecDest byC _ _ _ _ _ => byC = true -> op_byc O = true
  | QCreate _ _ _ _ _ => op_create O = true
  | _ => True
  end.
Fixpoint cmd_ok (c : cmd) : Prop :=
  match c with
  | CRet _ | CPanic => True
  | CDo p k => prim_ok p /\ forall x, cmd_ok (k x)
  end.
Fixpoint prog_ok (p : prog) : Prop :=
  match p with
  | PRet | PTrap => True
  | PWork _ k => prog_ok k
  | PRead _ _ k => forall d, prog_ok (k d)
  | PWrite _ _ k => prog_ok k
  | PGrow k => forall b, prog_ok (k b)
  | PApi c k => cmd_ok (api c) /\ forall r, prog_ok (k r)
  end.
Definition mod_ok (m : wmodule) : Prop := forall name p, export m name = Some p -> prog_ok p.

(** who may pay [v]: the running contract, or, when a call is being entered,
    the contract that makes the call *)
Definition paid (h : host) (sender dest : bytes) (v : Z) : Prop :=
  v = 0 \/ op_any O = true \/ sender = r_addr (h_rt h) \/
  (dest = r_addr (h_rt h) /\ r_addr <$> head (h_rtst h) = Some sender) \/
  (dest = r_addr (h_rt h) /\ op_byc O = true /\ (vi_caller ∘ r_input) <$> head (h_rtst h) = Some sender).
Definition funded (h : host) (sender : bytes) (v : Z) : Prop :=
  v = 0 \/ exists x b, accounts h !! sender = Some x /\ oa_balance x = Some b /\ v <= b + oa_delta x.

Definition writable_key (k : bytes) : Prop :=
  isElrondReservedKey k = false /\
  (isArwenProtectedKey k = false \/
   exists k', k = CustomStorageKey TimeLockKeyPrefix k' \/ k = CustomStorageKey AsyncDataPrefix k').

(** the frame without the parts that the host may change while it runs *)
Definition frame_le (l : bool) (f g : frame) : Prop :=
  r_addr g = r_addr f /\ r_ro g = r_ro f /\ vi_caller (r_input g) = vi_caller (r_input f) /\
  vi_value (r_input g) = vi_value (r_input f) /\ vi_ctype (r_input g) = vi_ctype (r_input f) /\
  vi_esdt (r_input g) = vi_esdt (r_input f) /\
  (vi_gas (r_input g) = vi_gas (r_input f) \/ vi_gas (r_input g) = 0) /\
  (l = false -> r_input g = r_input f /\ r_fn g = r_fn f).
(** the metering of a frame: the gas provided stays, the gas for execution is set
    at most to the gas of the call, and this by the start of a frame or a deployment *)
Definition met_le (l : bool) (h : host) (m : metering) : Prop :=
  mt_provided m = mt_provided (h_met h) /\
  (mt_forexec m = mt_forexec (h_met h) \/
   (l = true \/ op_create O = true) /\ mt_forexec m <= vi_gas (r_input (h_rt h))).

(** the frame has not started an instance of its own: the running one, if any,
    is the caller's, which is on the stack *)
Definition unstarted (h : host) : Prop := op_once O = true -> h_cur h = default None (head (h_ist h)).

Inductive eff : bool -> host -> host -> bool -> Prop :=
| E_refl l h b : eff l h h b
| E_trans l h1 h2 h3 b1 b2 : eff l h1 h2 b1 -> eff l h2 h3 b2 -> eff l h1 h3 (b1 || b2)
| E_inst l h i x y : running_as h i x -> in_mod y = in_mod x -> in_limit y = in_limit x ->
    (0 <= in_points x -> 0 <= in_points y) ->
    eff l h (with_inst i y h) false
| E_big l h m : eff l h (set_h_big m h) false
| E_met l h m : met_le l h m -> eff l h (set_h_met m h) false
| E_out l h o : o_accounts o = accounts h ->
    (exists t, o_logs o = o_logs (h_out h) ++ t) ->
    (exists t t', o_retdata o = t ++ o_retdata (h_out h) ++ t') ->
    eff l h (set_h_out o h) false
| E_new l h a : accounts h !! a = None ->
    eff l h (set_accounts (<[a := NewVMOutputAccount]> (accounts h)) h) false
| E_accs l h m :
    (forall a, match accounts h !! a, m !! a with
               | Some x, Some y => acc_le x y
               | None, None => True
               | _, _ => False end) ->
    eff l h (set_accounts m h) false
| E_balance l h a x u : accounts h !! a = Some x -> oa_balance x = None ->
    w_accounts (h_world h) !! a = Some u ->
    eff l h (set_accounts (<[a := set_oa_balance (Some (ua_balance u)) x]> (accounts h)) h) false
| E_cell l h a x k : accounts h !! a = Some x -> oa_storage x !! k = None ->
    eff l h (set_accounts (<[a := set_oa_storage (<[k := GetStorageData (h_world h) a k]> (oa_storage x)) x]>
                             (accounts h)) h) false
| E_store l h x k v : accounts h !! h_stoaddr h = Some x -> r_ro (h_rt h) = false -> writable_key k ->
    eff l h (set_accounts (<[h_stoaddr h := set_oa_storage (<[k := v]> (oa_storage x)) x]> (accounts h)) h) false
| E_prot l h h2 b : eff l (set_h_stoprot false h) h2 b -> eff l h (set_h_stoprot true h2) b
| E_move l h sender dest v : 0 <= v -> funded h sender v -> paid h sender dest v ->
    is_Some (accounts h !! sender) -> is_Some (accounts h !! dest) ->
    eff l h (set_h_trace (EvMove (r_addr (h_rt h)) (r_addr <$> head (h_rtst h)) sender dest v :: h_trace h)
              (set_accounts (alter (fun x => set_oa_delta (oa_delta x + v) x) dest
                 (alter (fun x => set_oa_delta (oa_delta x - v) x) sender (accounts h))) h)) false
| E_rt l h f : frame_le l (h_rt h) f -> eff l h (set_h_rt f h) false
| E_ro l h b : eff l h (set_h_trace (EvReadOnly b :: h_trace h) (set_h_rt (set_r_ro b (h_rt h)) h)) false
| E_newinst h m g : mod_ok m -> unstarted h -> eff true h (fst (new_instance m g h)) false
| E_curnone h : unstarted h -> eff true h (set_h_cur None h) false
| E_newclean h m g : unstarted h -> eff true h (fst (CleanWasmerInstance (fst (new_instance m g h)))) false
| E_verify l h v : eff l h (set_h_verify v h) false
| E_codesize l h v : eff l h (set_h_codesize v h) false
| E_cache l h v : eff l h (set_h_cache v h) false
| E_codeupd l h v : eff l h (set_h_codeupd v h) false
| E_delete l h h2 a : op_create O = true -> (exists c n, e_newAddress E c n = ROk a) ->
    r_ro (h_rt h) = false -> eff l h h2 false ->
    eff l h (set_h_trace (EvDelete a (changes_of a h2) :: h_trace h2)
               (set_accounts (delete a (accounts h2)) h2)) false
| E_world l h i : eff l h (set_h_world (fst (e_builtin E (h_world h) i)) h) false
| E_addout l h w i w' o o' : e_builtin E w i = (w', ROk o) -> retransfer o o' ->
    eff l h (fst (AddToActiveState o' h)) false
| E_snap l h h2 b : eff l h h2 b -> eff l h (set_h_world (h_world h) h2) b
| E_bc l h h2 revert : eff l (bcPush h) h2 false -> eff l h (bcPop revert h2) false
| E_bcleak l h h2 : eff l (bcPush h) h2 true -> eff l h h2 true
| E_dest l h i h2 b ok : eff true (destPush i h) h2 b -> eff l h (destPop ok h2) b
| E_same l h i h2 b ok : eff true (samePush i h) h2 b -> eff l h (samePop ok h2) b.

End eff.

(** * The frames in explicit form *)
Lemma destPop_ok ok h : destPopM ok h = (destPop ok h, OOk tt).
Proof.
  unfold destPop, destPopM. destruct ok; unfold runtime_PopSetActiveState, popInstance, CleanWasmerInstance;
    cbv [bind modify]; repeat (case_match; simplify_eq; try reflexivity).
Qed.
Lemma samePop_ok ok h : samePopM ok h = (samePop ok h, OOk tt).
Proof.
  unfold samePop, samePopM. destruct ok; unfold runtime_PopSetActiveState, popInstance, CleanWasmerInstance;
    cbv [bind modify]; repeat (case_match; simplify_eq; try reflexivity).
Qed.

Definition bigPop (h : host) : host := fst (bigint_PopSetActiveState h).
Definition bigDrop (h : host) : host := fst (bigint_PopDiscard h).
Definition stoPop (h : host) : host := fst (storage_PopSetActiveState h).
Definition metPop (ok : bool) (h : host) : host :=
  fst ((if ok then metering_PopMergeActiveState else metering_PopSetActiveState) h).
Definition outPop (ok : bool) (h : host) : host :=
  fst ((if ok then output_PopMergeActiveState else output_PopSetActiveState) h).
Definition outDrop (h : host) : host := fst (output_PopDiscard h).
Definition rtPop (h : host) : host := fst (runtime_PopSetActiveState h).

Lemma runtime_Pop_ok h : runtime_PopSetActiveState h = (rtPop h, OOk tt).
Proof.
  unfold rtPop, runtime_PopSetActiveState, popInstance, CleanWasmerInstance.
  cbv [bind modify]; repeat (case_match; simplify_eq; try reflexivity).
Qed.

Lemma destPop_unfold ok h : destPop ok h = rtPop (outPop ok (metPop ok (stoPop (bigPop h)))).
Proof. destruct ok; reflexivity. Qed.
Lemma samePop_unfold (ok : bool) h :
  samePop ok h = if ok then rtPop (bcPop false (bigDrop (outDrop (metPop true h))))
                 else bcPop true (rtPop (outPop false (metPop false (bigPop h)))).
Proof.
  destruct ok; [reflexivity|].
  unfold samePop, samePopM, bigint_PopSetActiveState, metering_PopSetActiveState, output_PopSetActiveState.
  rewrite !bind_modify. unfold bind at 1.
  rewrite runtime_Pop_ok. reflexivity.
Qed.

(** * What the pops do, field by field *)
Ltac pop_field :=
  intros; unfold bigPop, bigDrop, stoPop, metPop, outPop, outDrop, bcPop, rtPop,
    bigint_PopSetActiveState, bigint_PopDiscard, storage_PopSetActiveState, metering_PopMergeActiveState,
    metering_PopSetActiveState, output_PopMergeActiveState, output_PopSetActiveState, output_PopDiscard,
    blockchain_PopSetActiveState, blockchain_PopDiscard, runtime_PopSetActiveState, popInstance,
    CleanWasmerInstance, bind, modify;
  repeat (case_match; simplify_eq; try reflexivity).
Lemma bigPop_h_out h : h_out (bigPop h) = h_out h.
Proof. pop_field. Qed.
Lemma bigPop_h_outst h : h_outst (bigPop h) = h_outst h.
Proof. pop_field. Qed.
Lemma bigPop_h_codeupd h : h_codeupd (bigPop h) = h_codeupd h.
Proof. pop_field. Qed.
Lemma bigPop_h_met h : h_met (bigPop h) = h_met h.
Proof. pop_field. Qed.
Lemma bigPop_h_metst h : h_metst (bigPop h) = h_metst h.
Proof. pop_field. Qed.
Lemma bigPop_h_rt h : h_rt (bigPop h) = h_rt h.
Proof. pop_field. Qed.
Lemma bigPop_h_rtst h : h_rtst (bigPop h) = h_rtst h.
Proof. pop_field. Qed.
Lemma bigPop_h_codesize h : h_codesize (bigPop h) = h_codesize h.
Proof. pop_field. Qed.
Lemma bigPop_h_verify h : h_verify (bigPop h) = h_verify h.
Proof. pop_field. Qed.
Lemma bigPop_h_insts h : h_insts (bigPop h) = h_insts h.
Proof. pop_field. Qed.
Lemma bigPop_h_next h : h_next (bigPop h) = h_next h.
Proof. pop_field. Qed.
Lemma bigPop_h_cur h : h_cur (bigPop h) = h_cur h.
Proof. pop_field. Qed.
Lemma bigPop_h_ist h : h_ist (bigPop h) = h_ist h.
Proof. pop_field. Qed.
Lemma bigPop_h_stoaddr h : h_stoaddr (bigPop h) = h_stoaddr h.
Proof. pop_field. Qed.
Lemma bigPop_h_stost h : h_stost (bigPop h) = h_stost h.
Proof. pop_field. Qed.
Lemma bigPop_h_stoprot h : h_stoprot (bigPop h) = h_stoprot h.
Proof. pop_field. Qed.
Lemma bigPop_h_world h : h_world (bigPop h) = h_world h.
Proof. pop_field. Qed.
Lemma bigPop_h_bcst h : h_bcst (bigPop h) = h_bcst h.
Proof. pop_field. Qed.
Lemma bigPop_h_cache h : h_cache (bigPop h) = h_cache h.
Proof. pop_field. Qed.
Lemma bigPop_h_trace h : h_trace (bigPop h) = h_trace h.
Proof. pop_field. Qed.
Lemma bigDrop_h_big h : h_big (bigDrop h) = h_big h.
Proof. pop_field. Qed.
Lemma bigDrop_h_out h : h_out (bigDrop h) = h_out h.
Proof. pop_field. Qed.
Lemma bigDrop_h_outst h : h_outst (bigDrop h) = h_outst h.
Proof. pop_field. Qed.
Lemma bigDrop_h_codeupd h : h_codeupd (bigDrop h) = h_codeupd h.
Proof. pop_field. Qed.
Lemma bigDrop_h_met h : h_met (bigDrop h) = h_met h.
Proof. pop_field. Qed.
Lemma bigDrop_h_metst h : h_metst (bigDrop h) = h_metst h.
Proof. pop_field. Qed.
Lemma bigDrop_h_rt h : h_rt (bigDrop h) = h_rt h.
Proof. pop_field. Qed.
Lemma bigDrop_h_rtst h : h_rtst (bigDrop h) = h_rtst h.
Proof. pop_field. Qed.
Lemma bigDrop_h_codesize h : h_codesize (bigDrop h) = h_codesize h.
Proof. pop_field. Qed.
Lemma bigDrop_h_verify h : h_verify (bigDrop h) = h_verify h.
Proof. pop_field. Qed.
Lemma bigDrop_h_insts h : h_insts (bigDrop h) = h_insts h.
Proof. pop_field. Qed.
Lemma bigDrop_h_next h : h_next (bigDrop h) = h_next h.
Proof. pop_field. Qed.
Lemma bigDrop_h_cur h : h_cur (bigDrop h) = h_cur h.
Proof. pop_field. Qed.
Lemma bigDrop_h_ist h : h_ist (bigDrop h) = h_ist h.
Proof. pop_field. Qed.
Lemma bigDrop_h_stoaddr h : h_stoaddr (bigDrop h) = h_stoaddr h.
Proof. pop_field. Qed.
Lemma bigDrop_h_stost h : h_stost (bigDrop h) = h_stost h.
Proof. pop_field. Qed.
Lemma bigDrop_h_stoprot h : h_stoprot (bigDrop h) = h_stoprot h.
Proof. pop_field. Qed.
Lemma bigDrop_h_world h : h_world (bigDrop h) = h_world h.
Proof. pop_field. Qed.
Lemma bigDrop_h_bcst h : h_bcst (bigDrop h) = h_bcst h.
Proof. pop_field. Qed.
Lemma bigDrop_h_cache h : h_cache (bigDrop h) = h_cache h.
Proof. pop_field. Qed.
Lemma bigDrop_h_trace h : h_trace (bigDrop h) = h_trace h.
Proof. pop_field. Qed.
Lemma stoPop_h_big h : h_big (stoPop h) = h_big h.
Proof. pop_field. Qed.
Lemma stoPop_h_bigst h : h_bigst (stoPop h) = h_bigst h.
Proof. pop_field. Qed.
Lemma stoPop_h_out h : h_out (stoPop h) = h_out h.
Proof. pop_field. Qed.
Lemma stoPop_h_outst h : h_outst (stoPop h) = h_outst h.
Proof. pop_field. Qed.
Lemma stoPop_h_codeupd h : h_codeupd (stoPop h) = h_codeupd h.
Proof. pop_field. Qed.
Lemma stoPop_h_met h : h_met (stoPop h) = h_met h.
Proof. pop_field. Qed.
Lemma stoPop_h_metst h : h_metst (stoPop h) = h_metst h.
Proof. pop_field. Qed.
Lemma stoPop_h_rt h : h_rt (stoPop h) = h_rt h.
Proof. pop_field. Qed.
Lemma stoPop_h_rtst h : h_rtst (stoPop h) = h_rtst h.
Proof. pop_field. Qed.
Lemma stoPop_h_codesize h : h_codesize (stoPop h) = h_codesize h.
Proof. pop_field. Qed.
Lemma stoPop_h_verify h : h_verify (stoPop h) = h_verify h.
Proof. pop_field. Qed.
Lemma stoPop_h_insts h : h_insts (stoPop h) = h_insts h.
Proof. pop_field. Qed.
Lemma stoPop_h_next h : h_next (stoPop h) = h_next h.
Proof. pop_field. Qed.
Lemma stoPop_h_cur h : h_cur (stoPop h) = h_cur h.
Proof. pop_field. Qed.
Lemma stoPop_h_ist h : h_ist (stoPop h) = h_ist h.
Proof. pop_field. Qed.
Lemma stoPop_h_stoprot h : h_stoprot (stoPop h) = h_stoprot h.
Proof. pop_field. Qed.
Lemma stoPop_h_world h : h_world (stoPop h) = h_world h.
Proof. pop_field. Qed.
Lemma stoPop_h_bcst h : h_bcst (stoPop h) = h_bcst h.
Proof. pop_field. Qed.
Lemma stoPop_h_cache h : h_cache (stoPop h) = h_cache h.
Proof. pop_field. Qed.
Lemma stoPop_h_trace h : h_trace (stoPop h) = h_trace h.
Proof. pop_field. Qed.
Lemma metPop_h_big ok h : h_big (metPop ok h) = h_big h.
Proof. pop_field. Qed.
Lemma metPop_h_bigst ok h : h_bigst (metPop ok h) = h_bigst h.
Proof. pop_field. Qed.
Lemma metPop_h_out ok h : h_out (metPop ok h) = h_out h.
Proof. pop_field. Qed.
Lemma metPop_h_outst ok h : h_outst (metPop ok h) = h_outst h.
Proof. pop_field. Qed.
Lemma metPop_h_codeupd ok h : h_codeupd (metPop ok h) = h_codeupd h.
Proof. pop_field. Qed.
Lemma metPop_h_rt ok h : h_rt (metPop ok h) = h_rt h.
Proof. pop_field. Qed.
Lemma metPop_h_rtst ok h : h_rtst (metPop ok h) = h_rtst h.
Proof. pop_field. Qed.
Lemma metPop_h_codesize ok h : h_codesize (metPop ok h) = h_codesize h.
Proof. pop_field. Qed.
Lemma metPop_h_verify ok h : h_verify (metPop ok h) = h_verify h.
Proof. pop_field. Qed.
Lemma metPop_h_insts ok h : h_insts (metPop ok h) = h_insts h.
Proof. pop_field. Qed.
Lemma metPop_h_next ok h : h_next (metPop ok h) = h_next h.
Proof. pop_field. Qed.
Lemma metPop_h_cur ok h : h_cur (metPop ok h) = h_cur h.
Proof. pop_field. Qed.
Lemma metPop_h_ist ok h : h_ist (metPop ok h) = h_ist h.
Proof. pop_field. Qed.
Lemma metPop_h_stoaddr ok h : h_stoaddr (metPop ok h) = h_stoaddr h.
Proof. pop_field. Qed.
Lemma metPop_h_stost ok h : h_stost (metPop ok h) = h_stost h.
Proof. pop_field. Qed.
Lemma metPop_h_stoprot ok h : h_stoprot (metPop ok h) = h_stoprot h.
Proof. pop_field. Qed.
Lemma metPop_h_world ok h : h_world (metPop ok h) = h_world h.
Proof. pop_field. Qed.
Lemma metPop_h_bcst ok h : h_bcst (metPop ok h) = h_bcst h.
Proof. pop_field. Qed.
Lemma metPop_h_cache ok h : h_cache (metPop ok h) = h_cache h.
Proof. pop_field. Qed.
Lemma metPop_h_trace ok h : h_trace (metPop ok h) = h_trace h.
Proof. pop_field. Qed.
Lemma outPop_h_big ok h : h_big (outPop ok h) = h_big h.
Proof. pop_field. Qed.
Lemma outPop_h_bigst ok h : h_bigst (outPop ok h) = h_bigst h.
Proof. pop_field. Qed.
Lemma outPop_h_codeupd ok h : h_codeupd (outPop ok h) = h_codeupd h.
Proof. pop_field. Qed.
Lemma outPop_h_met ok h : h_met (outPop ok h) = h_met h.
Proof. pop_field. Qed.
Lemma outPop_h_metst ok h : h_metst (outPop ok h) = h_metst h.
Proof. pop_field. Qed.
Lemma outPop_h_rt ok h : h_rt (outPop ok h) = h_rt h.
Proof. pop_field. Qed.
Lemma outPop_h_rtst ok h : h_rtst (outPop ok h) = h_rtst h.
Proof. pop_field. Qed.
Lemma outPop_h_codesize ok h : h_codesize (outPop ok h) = h_codesize h.
Proof. pop_field. Qed.
Lemma outPop_h_verify ok h : h_verify (outPop ok h) = h_verify h.
Proof. pop_field. Qed.
Lemma outPop_h_insts ok h : h_insts (outPop ok h) = h_insts h.
Proof. pop_field. Qed.
Lemma outPop_h_next ok h : h_next (outPop ok h) = h_next h.
Proof. pop_field. Qed.
Lemma outPop_h_cur ok h : h_cur (outPop ok h) = h_cur h.
Proof. pop_field. Qed.
Lemma outPop_h_ist ok h : h_ist (outPop ok h) = h_ist h.
Proof. pop_field. Qed.
Lemma outPop_h_stoaddr ok h : h_stoaddr (outPop ok h) = h_stoaddr h.
Proof. pop_field. Qed.
Lemma outPop_h_stost ok h : h_stost (outPop ok h) = h_stost h.
Proof. pop_field. Qed.
Lemma outPop_h_stoprot ok h : h_stoprot (outPop ok h) = h_stoprot h.
Proof. pop_field. Qed.
Lemma outPop_h_world ok h : h_world (outPop ok h) = h_world h.
Proof. pop_field. Qed.
Lemma outPop_h_bcst ok h : h_bcst (outPop ok h) = h_bcst h.
Proof. pop_field. Qed.
Lemma outPop_h_cache ok h : h_cache (outPop ok h) = h_cache h.
Proof. pop_field. Qed.
Lemma outPop_h_trace ok h : h_trace (outPop ok h) = h_trace h.
Proof. pop_field. Qed.
Lemma outDrop_h_big h : h_big (outDrop h) = h_big h.
Proof. pop_field. Qed.
Lemma outDrop_h_bigst h : h_bigst (outDrop h) = h_bigst h.
Proof. pop_field. Qed.
Lemma outDrop_h_out h : h_out (outDrop h) = h_out h.
Proof. pop_field. Qed.
Lemma outDrop_h_codeupd h : h_codeupd (outDrop h) = h_codeupd h.
Proof. pop_field. Qed.
Lemma outDrop_h_met h : h_met (outDrop h) = h_met h.
Proof. pop_field. Qed.
Lemma outDrop_h_metst h : h_metst (outDrop h) = h_metst h.
Proof. pop_field. Qed.
Lemma outDrop_h_rt h : h_rt (outDrop h) = h_rt h.
Proof. pop_field. Qed.
Lemma outDrop_h_rtst h : h_rtst (outDrop h) = h_rtst h.
Proof. pop_field. Qed.
Lemma outDrop_h_codesize h : h_codesize (outDrop h) = h_codesize h.
Proof. pop_field. Qed.
Lemma outDrop_h_verify h : h_verify (outDrop h) = h_verify h.
Proof. pop_field. Qed.
Lemma outDrop_h_insts h : h_insts (outDrop h) = h_insts h.
Proof. pop_field. Qed.
Lemma outDrop_h_next h : h_next (outDrop h) = h_next h.
Proof. pop_field. Qed.
Lemma outDrop_h_cur h : h_cur (outDrop h) = h_cur h.
Proof. pop_field. Qed.
Lemma outDrop_h_ist h : h_ist (outDrop h) = h_ist h.
Proof. pop_field. Qed.
Lemma outDrop_h_stoaddr h : h_stoaddr (outDrop h) = h_stoaddr h.
Proof. pop_field. Qed.
Lemma outDrop_h_stost h : h_stost (outDrop h) = h_stost h.
Proof. pop_field. Qed.
Lemma outDrop_h_stoprot h : h_stoprot (outDrop h) = h_stoprot h.
Proof. pop_field. Qed.
Lemma outDrop_h_world h : h_world (outDrop h) = h_world h.
Proof. pop_field. Qed.
Lemma outDrop_h_bcst h : h_bcst (outDrop h) = h_bcst h.
Proof. pop_field. Qed.
Lemma outDrop_h_cache h : h_cache (outDrop h) = h_cache h.
Proof. pop_field. Qed.
Lemma outDrop_h_trace h : h_trace (outDrop h) = h_trace h.
Proof. pop_field. Qed.
Lemma bcPop_h_big ok h : h_big (bcPop ok h) = h_big h.
Proof. pop_field. Qed.
Lemma bcPop_h_bigst ok h : h_bigst (bcPop ok h) = h_bigst h.
Proof. pop_field. Qed.
Lemma bcPop_h_out ok h : h_out (bcPop ok h) = h_out h.
Proof. pop_field. Qed.
Lemma bcPop_h_outst ok h : h_outst (bcPop ok h) = h_outst h.
Proof. pop_field. Qed.
Lemma bcPop_h_codeupd ok h : h_codeupd (bcPop ok h) = h_codeupd h.
Proof. pop_field. Qed.
Lemma bcPop_h_met ok h : h_met (bcPop ok h) = h_met h.
Proof. pop_field. Qed.
Lemma bcPop_h_metst ok h : h_metst (bcPop ok h) = h_metst h.
Proof. pop_field. Qed.
Lemma bcPop_h_rt ok h : h_rt (bcPop ok h) = h_rt h.
Proof. pop_field. Qed.
Lemma bcPop_h_rtst ok h : h_rtst (bcPop ok h) = h_rtst h.
Proof. pop_field. Qed.
Lemma bcPop_h_codesize ok h : h_codesize (bcPop ok h) = h_codesize h.
Proof. pop_field. Qed.
Lemma bcPop_h_verify ok h : h_verify (bcPop ok h) = h_verify h.
Proof. pop_field. Qed.
Lemma bcPop_h_insts ok h : h_insts (bcPop ok h) = h_insts h.
Proof. pop_field. Qed.
Lemma bcPop_h_next ok h : h_next (bcPop ok h) = h_next h.
Proof. pop_field. Qed.
Lemma bcPop_h_cur ok h : h_cur (bcPop ok h) = h_cur h.
Proof. pop_field. Qed.
Lemma bcPop_h_ist ok h : h_ist (bcPop ok h) = h_ist h.
Proof. pop_field. Qed.
Lemma bcPop_h_stoaddr ok h : h_stoaddr (bcPop ok h) = h_stoaddr h.
Proof. pop_field. Qed.
Lemma bcPop_h_stost ok h : h_stost (bcPop ok h) = h_stost h.
Proof. pop_field. Qed.
Lemma bcPop_h_stoprot ok h : h_stoprot (bcPop ok h) = h_stoprot h.
Proof. pop_field. Qed.
Lemma bcPop_h_cache ok h : h_cache (bcPop ok h) = h_cache h.
Proof. pop_field. Qed.
Lemma bcPop_h_trace ok h : h_trace (bcPop ok h) = h_trace h.
Proof. pop_field. Qed.
Lemma rtPop_h_big h : h_big (rtPop h) = h_big h.
Proof. pop_field. Qed.
Lemma rtPop_h_bigst h : h_bigst (rtPop h) = h_bigst h.
Proof. pop_field. Qed.
Lemma rtPop_h_out h : h_out (rtPop h) = h_out h.
Proof. pop_field. Qed.
Lemma rtPop_h_outst h : h_outst (rtPop h) = h_outst h.
Proof. pop_field. Qed.
Lemma rtPop_h_codeupd h : h_codeupd (rtPop h) = h_codeupd h.
Proof. pop_field. Qed.
Lemma rtPop_h_met h : h_met (rtPop h) = h_met h.
Proof. pop_field. Qed.
Lemma rtPop_h_metst h : h_metst (rtPop h) = h_metst h.
Proof. pop_field. Qed.
Lemma rtPop_h_codesize h : h_codesize (rtPop h) = h_codesize h.
Proof. pop_field. Qed.
Lemma rtPop_h_verify h : h_verify (rtPop h) = h_verify h.
Proof. pop_field. Qed.
Lemma rtPop_h_next h : h_next (rtPop h) = h_next h.
Proof. pop_field. Qed.
Lemma rtPop_h_stoaddr h : h_stoaddr (rtPop h) = h_stoaddr h.
Proof. pop_field. Qed.
Lemma rtPop_h_stost h : h_stost (rtPop h) = h_stost h.
Proof. pop_field. Qed.
Lemma rtPop_h_stoprot h : h_stoprot (rtPop h) = h_stoprot h.
Proof. pop_field. Qed.
Lemma rtPop_h_world h : h_world (rtPop h) = h_world h.
Proof. pop_field. Qed.
Lemma rtPop_h_bcst h : h_bcst (rtPop h) = h_bcst h.
Proof. pop_field. Qed.
Lemma rtPop_h_cache h : h_cache (rtPop h) = h_cache h.
Proof. pop_field. Qed.
Lemma rtPop_h_trace h : h_trace (rtPop h) = h_trace h.
Proof. pop_field. Qed.
Global Hint Rewrite 
  bigPop_h_out bigPop_h_outst bigPop_h_codeupd bigPop_h_met
  bigPop_h_metst bigPop_h_rt bigPop_h_rtst bigPop_h_codesize
  bigPop_h_verify bigPop_h_insts bigPop_h_next bigPop_h_cur
  bigPop_h_ist bigPop_h_stoaddr bigPop_h_stost bigPop_h_stoprot
  bigPop_h_world bigPop_h_bcst bigPop_h_cache bigPop_h_trace
  bigDrop_h_big bigDrop_h_out bigDrop_h_outst bigDrop_h_codeupd
  bigDrop_h_met bigDrop_h_metst bigDrop_h_rt bigDrop_h_rtst
  bigDrop_h_codesize bigDrop_h_verify bigDrop_h_insts bigDrop_h_next
  bigDrop_h_cur bigDrop_h_ist bigDrop_h_stoaddr bigDrop_h_stost
  bigDrop_h_stoprot bigDrop_h_world bigDrop_h_bcst bigDrop_h_cache
  bigDrop_h_trace stoPop_h_big stoPop_h_bigst stoPop_h_out
  stoPop_h_outst stoPop_h_codeupd stoPop_h_met stoPop_h_metst
  stoPop_h_rt stoPop_h_rtst stoPop_h_codesize stoPop_h_verify
  stoPop_h_insts stoPop_h_next stoPop_h_cur stoPop_h_ist
  stoPop_h_stoprot stoPop_h_world stoPop_h_bcst stoPop_h_cache
  stoPop_h_trace metPop_h_big metPop_h_bigst metPop_h_out
  metPop_h_outst metPop_h_codeupd metPop_h_rt metPop_h_rtst
  metPop_h_codesize metPop_h_verify metPop_h_insts metPop_h_next
  metPop_h_cur metPop_h_ist metPop_h_stoaddr metPop_h_stost
  metPop_h_stoprot metPop_h_world metPop_h_bcst metPop_h_cache
  metPop_h_trace outPop_h_big outPop_h_bigst outPop_h_codeupd
  outPop_h_met outPop_h_metst outPop_h_rt outPop_h_rtst
  outPop_h_codesize outPop_h_verify outPop_h_insts outPop_h_next
  outPop_h_cur outPop_h_ist outPop_h_stoaddr outPop_h_stost
  outPop_h_stoprot outPop_h_world outPop_h_bcst outPop_h_cache
  outPop_h_trace outDrop_h_big outDrop_h_bigst outDrop_h_out
  outDrop_h_codeupd outDrop_h_met outDrop_h_metst outDrop_h_rt
  outDrop_h_rtst outDrop_h_codesize outDrop_h_verify outDrop_h_insts
  outDrop_h_next outDrop_h_cur outDrop_h_ist outDrop_h_stoaddr
  outDrop_h_stost outDrop_h_stoprot outDrop_h_world outDrop_h_bcst
  outDrop_h_cache outDrop_h_trace bcPop_h_big bcPop_h_bigst
  bcPop_h_out bcPop_h_outst bcPop_h_codeupd bcPop_h_met
  bcPop_h_metst bcPop_h_rt bcPop_h_rtst bcPop_h_codesize
  bcPop_h_verify bcPop_h_insts bcPop_h_next bcPop_h_cur
  bcPop_h_ist bcPop_h_stoaddr bcPop_h_stost bcPop_h_stoprot
  bcPop_h_cache bcPop_h_trace rtPop_h_big rtPop_h_bigst
  rtPop_h_out rtPop_h_outst rtPop_h_codeupd rtPop_h_met
  rtPop_h_metst rtPop_h_codesize rtPop_h_verify rtPop_h_next
  rtPop_h_stoaddr rtPop_h_stost rtPop_h_stoprot rtPop_h_world
  rtPop_h_bcst rtPop_h_cache rtPop_h_trace : pops.

(** ... and the fields they set, when the stack is not empty *)
Lemma bigPop_set h b s : h_bigst h = b :: s -> h_big (bigPop h) = b /\ h_bigst (bigPop h) = s.
Proof. intros H. unfold bigPop, bigint_PopSetActiveState, modify. rewrite H. split; reflexivity. Qed.
Lemma bigDrop_set h b s : h_bigst h = b :: s -> h_bigst (bigDrop h) = s.
Proof. intros H. unfold bigDrop, bigint_PopDiscard, modify. rewrite H. reflexivity. Qed.
Lemma stoPop_set h a s : h_stost h = a :: s -> h_stoaddr (stoPop h) = a /\ h_stost (stoPop h) = s.
Proof. intros H. unfold stoPop, storage_PopSetActiveState, modify. rewrite H. split; reflexivity. Qed.
Lemma metPop_set h (ok : bool) m s : h_metst h = m :: s ->
  h_met (metPop ok h) = (if ok then mkMet (mt_provided m) (mt_initcost m) (mt_forexec m)
                                      (merge addGasUsed (mt_used (h_met h)) (mt_used m)) else m) /\
  h_metst (metPop ok h) = s.
Proof.
  intros H. unfold metPop, metering_PopMergeActiveState, metering_PopSetActiveState, modify.
  destruct ok; rewrite H; split; reflexivity.
Qed.
Lemma outPop_set h (ok : bool) o s : h_outst h = o :: s ->
  h_out (outPop ok h) = (if ok then mergeVMOutputs newVMOutput (mergeVMOutputs o (h_out h)) else o) /\
  h_outst (outPop ok h) = s.
Proof.
  intros H. unfold outPop, output_PopMergeActiveState, output_PopSetActiveState, modify.
  destruct ok; rewrite H; split; reflexivity.
Qed.
Lemma outDrop_set h o s : h_outst h = o :: s -> h_out (outDrop h) = h_out h /\ h_outst (outDrop h) = s.
Proof. intros H. unfold outDrop, output_PopDiscard, modify. rewrite H. split; reflexivity. Qed.
Lemma bcPop_set h (revert : bool) w s : h_bcst h = w :: s ->
  h_world (bcPop revert h) = (if revert then w else h_world h) /\ h_bcst (bcPop revert h) = s.
Proof.
  intros H. unfold bcPop, blockchain_PopSetActiveState, blockchain_PopDiscard, modify.
  destruct revert; rewrite H; split; reflexivity.
Qed.
Lemma rtPop_set h f s c t : h_rtst h = f :: s -> h_ist h = c :: t ->
  h_rt (rtPop h) = f /\ h_rtst (rtPop h) = s /\ h_ist (rtPop h) = t /\ h_cur (rtPop h) = c /\
  h_insts (rtPop h) = (if bool_decide (c = h_cur h) then h_insts h
                       else match h_cur h with Some j => delete j (h_insts h) | None => h_insts h end).
Proof.
  intros H H'. unfold rtPop, runtime_PopSetActiveState. rewrite H. unfold popInstance.
  cbn [h_ist set_h_rtst set_h_rt]. rewrite H'.
  cbn [h_cur set_h_rtst set_h_rt].
  case_bool_decide as Hc.
  - cbn. auto.
  - unfold CleanWasmerInstance, bind, modify. cbn [h_cur set_h_ist set_h_rtst set_h_rt].
    destruct (h_cur h); cbn; auto.
Qed.

(** the pops without knowledge of the stacks *)
Lemma rtPop_insts h : h_insts (rtPop h) ⊆ h_insts h.
Proof.
  unfold rtPop, runtime_PopSetActiveState. case_match; [reflexivity|].
  unfold popInstance. case_match; [reflexivity|]. case_bool_decide; [reflexivity|].
  unfold CleanWasmerInstance, bind, modify. cbn. destruct (h_cur h); cbn; [apply delete_subseteq|reflexivity].
Qed.

Lemma destPop_insts ok h : h_insts (destPop ok h) ⊆ h_insts h.
Proof. rewrite destPop_unfold. etrans; [apply rtPop_insts|]. autorewrite with pops. reflexivity. Qed.
Lemma samePop_insts ok h : h_insts (samePop ok h) ⊆ h_insts h.
Proof.
  rewrite samePop_unfold. destruct ok.
  - etrans; [apply rtPop_insts|]. autorewrite with pops. reflexivity.
  - rewrite bcPop_h_insts. etrans; [apply rtPop_insts|]. autorewrite with pops. reflexivity.
Qed.
Lemma destPop_stoprot ok h : h_stoprot (destPop ok h) = h_stoprot h.
Proof. rewrite destPop_unfold. autorewrite with pops. reflexivity. Qed.
Lemma samePop_stoprot ok h : h_stoprot (samePop ok h) = h_stoprot h.
Proof. rewrite samePop_unfold. destruct ok; autorewrite with pops; reflexivity. Qed.

(** * Invariants that the walk itself needs *)
Section good.
Context `{E : env} (O : opts).

Definition mods_ok (h : host) : Prop := forall i x, h_insts h !! i = Some x -> mod_ok O (in_mod x).
(** [p]: the protection of the VM's own keys is on *)
Definition good (p : bool) (h : host) : Prop := (p = true -> h_stoprot h = true) /\ mods_ok h.

Lemma mods_sub h h' : h_insts h' ⊆ h_insts h -> mods_ok h -> mods_ok h'.
Proof. intros Hs H i x Hx. apply (H i). eapply lookup_weaken; eauto. Qed.

Lemma eff_stoprot l h h' b : eff O l h h' b -> h_stoprot h = true -> h_stoprot h' = true.
Proof.
  induction 1; intros Hs; try exact Hs; auto.
  - rewrite bcPop_h_stoprot. auto.
  - rewrite destPop_stoprot. auto.
  - rewrite samePop_stoprot. auto.
Qed.

Lemma eff_mods l h h' b : eff O l h h' b -> mods_ok h -> mods_ok h'.
Proof.
  induction 1; intros Hs; try exact Hs; auto.
  - intros j z. unfold with_inst. cbn. intros [[<- <-]|[_ Hz]]%lookup_insert_Some.
    + rewrite H0. apply (Hs i), H.
    + apply (Hs j), Hz.
  - intros j z. cbn. intros [[<- <-]|[_ Hz]]%lookup_insert_Some; [exact H|apply (Hs j), Hz].
  - intros j z. unfold CleanWasmerInstance. cbn. intros [Hj Hz]%lookup_delete_Some.
    rewrite lookup_insert_ne in Hz by exact Hj. apply (Hs j), Hz.
  - intros j z. rewrite bcPop_h_insts. apply IHeff. exact Hs.
  - eapply mods_sub; [apply destPop_insts|]. apply IHeff. exact Hs.
  - eapply mods_sub; [apply samePop_insts|]. apply IHeff. exact Hs.
Qed.

Lemma eff_good p l h h' b : eff O l h h' b -> good p h -> good p h'.
Proof. intros H [H1 H2]. split; [intros Hp; eapply eff_stoprot|eapply eff_mods]; eauto. Qed.

Lemma frame_le_lift l f g : frame_le false f g -> frame_le l f g.
Proof. unfold frame_le. intros (? & ? & ? & ? & ? & ? & ? & H). repeat split; try assumption; apply H; reflexivity. Qed.
Lemma met_le_lift l h m : met_le O false h m -> met_le O l h m.
Proof. intros [H1 [H2|[[H2|H2] H3]]]; [split; auto|discriminate|split; auto]. Qed.
Lemma eff_lift l h h' b : eff O false h h' b -> eff O l h h' b.
Proof.
  remember false as l0 eqn:Hl0. intros H. revert l Hl0.
  induction H; intros l' Hl0; try discriminate;
    first [solve [eapply E_refl; eauto]
      | solve [eapply E_inst; eauto]
      | solve [eapply E_big; eauto]
      | solve [subst; eapply E_met, met_le_lift; eauto]
      | solve [eapply E_out; eauto]
      | solve [eapply E_new; eauto]
      | solve [eapply E_accs; eauto]
      | solve [eapply E_balance; eauto]
      | solve [eapply E_cell; eauto]
      | solve [eapply E_store; eauto]
      | solve [eapply E_prot; eauto]
      | solve [eapply E_move; eauto]
      | solve [subst; eapply E_rt, frame_le_lift; eauto]
      | solve [eapply E_ro; eauto]
      | solve [eapply E_verify; eauto]
      | solve [eapply E_codesize; eauto]
      | solve [eapply E_cache; eauto]
      | solve [eapply E_codeupd; eauto]
      | solve [eapply E_delete; eauto]
      | solve [eapply E_world; eauto]
      | solve [eapply E_addout; eauto]
      | solve [eapply E_snap; eauto]
      | solve [eapply E_bc; eauto]
      | solve [eapply E_bcleak; eauto]
      | solve [eapply E_dest; eauto]
      | solve [eapply E_same; eauto]
      | solve [eapply E_trans; eauto]].
Qed.
Lemma eff_pan l h h' : eff O l h h' false -> eff O l h h' true.
Proof. intros H. exact (E_trans O l h h' h' false true H (E_refl O l h' true)). Qed.
Lemma eff_pan' l h h' b : eff O l h h' false -> eff O l h h' b.
Proof. destruct b; [apply eff_pan|auto]. Qed.
Lemma eff_seq l h1 h2 h3 b : eff O l h1 h2 false -> eff O l h2 h3 b -> eff O l h1 h3 b.
Proof. intros H1 H2. exact (E_trans O l h1 h2 h3 false b H1 H2). Qed.
End good.
