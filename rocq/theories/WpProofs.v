(** Reasoning about host functions: equations for the monad, and what the
    operations on the running instance do. *)
From Verif Require Import VmModel.

(** * Equations *)
Lemma bind_ok {A B} (m : M A) (k : A -> M B) h h1 a : m h = (h1, OOk a) -> bind m k h = k a h1.
Proof. intros H. unfold bind. rewrite H. reflexivity. Qed.
Lemma bind_err {A B} (m : M A) (k : A -> M B) h h1 e : m h = (h1, OErr e) -> bind m k h = (h1, OErr e).
Proof. intros H. unfold bind. rewrite H. reflexivity. Qed.
Lemma bind_assoc {A B C} (m : M A) (k : A -> M B) (l : B -> M C) h :
  bind (bind m k) l h = bind m (fun a => bind (k a) l) h.
Proof. unfold bind. destruct (m h) as [h1 [a|e| |]]; reflexivity. Qed.
Lemma bind_modify {B} f (k : unit -> M B) h : bind (modify f) k h = k tt (f h).
Proof. reflexivity. Qed.
Lemma bind_gets {A B} (f : host -> A) (k : A -> M B) h : bind (gets f) k h = k (f h) h.
Proof. reflexivity. Qed.
Lemma bind_ret {A B} (a : A) (k : A -> M B) h : bind (ret a) k h = k a h.
Proof. reflexivity. Qed.
Lemma bind_fail {A B} e (k : A -> M B) h : bind (fail e) k h = (h, OErr e).
Proof. reflexivity. Qed.
Lemma try_ok {A} (m : M A) h h1 a : m h = (h1, OOk a) -> try m h = (h1, OOk (inl a)).
Proof. intros H. unfold try. rewrite H. reflexivity. Qed.
Lemma try_err {A} (m : M A) h h1 e : m h = (h1, OErr e) -> try m h = (h1, OOk (inr e)).
Proof. intros H. unfold try. rewrite H. reflexivity. Qed.

Lemma run_do `{E : env} {B} ed es (p : prim B) k h :
  run_cmd ed es (CDo p k) h =
  match interp ed es p h with
  | (h1, OOk a) => run_cmd ed es (k (inl a)) h1
  | (h1, OErr e) => run_cmd ed es (k (inr e)) h1
  | (h1, OPanic) => (h1, OPanic)
  | (h1, OFuel) => (h1, OFuel)
  end.
Proof. cbn [run_cmd]. unfold bind, try. destruct (interp ed es p h) as [h1 [a|e| |]]; reflexivity. Qed.

Lemma run_do_ok `{E : env} {B} ed es (p : prim B) k h h1 a :
  interp ed es p h = (h1, OOk a) -> run_cmd ed es (CDo p k) h = run_cmd ed es (k (inl a)) h1.
Proof. intros H. rewrite run_do, H. reflexivity. Qed.
Lemma run_do_err `{E : env} {B} ed es (p : prim B) k h h1 e :
  interp ed es p h = (h1, OErr e) -> run_cmd ed es (CDo p k) h = run_cmd ed es (k (inr e)) h1.
Proof. intros H. rewrite run_do, H. reflexivity. Qed.

Lemma run_get `{E : env} {B} ed es (f : host -> B) k h :
  run_cmd ed es (get f k) h = run_cmd ed es (k (f h)) h.
Proof. unfold get, act. rewrite run_do. reflexivity. Qed.

(** * The running instance *)

(** a contract is running: there is a current instance *)
Definition running_as (h : host) (i : nat) (x : inst) : Prop :=
  h_cur h = Some i /\ h_insts h !! i = Some x.
Definition running (h : host) : Prop := exists i x, running_as h i x.

(** the same host but for the current instance *)
Definition with_inst (i : nat) (x : inst) (h : host) : host := set_h_insts (<[i := x]> (h_insts h)) h.

Lemma running_with_inst h i x x' : running_as h i x -> running_as (with_inst i x' h) i x'.
Proof. intros [H1 H2]. split; [exact H1|]. unfold with_inst. cbn. apply lookup_insert. Qed.

Lemma with_inst_with_inst i x x' h : with_inst i x' (with_inst i x h) = with_inst i x' h.
Proof.
  unfold with_inst. change (set_h_insts (<[i:=x']> (<[i:=x]> (h_insts h))) h = set_h_insts (<[i:=x']> (h_insts h)) h).
  rewrite insert_insert. reflexivity.
Qed.

Lemma with_inst_same h i x : running_as h i x -> with_inst i x h = h.
Proof.
  intros [_ H]. unfold with_inst. rewrite insert_id by exact H. destruct h. reflexivity.
Qed.

Lemma cur_inst_run h i x : running_as h i x -> cur_inst h = (h, OOk (i, x)).
Proof. intros [H1 H2]. unfold cur_inst. rewrite H1, H2. reflexivity. Qed.

Lemma upd_inst_run f h i x : running_as h i x -> upd_inst f h = (with_inst i (f x) h, OOk tt).
Proof. intros H. unfold upd_inst. rewrite (bind_ok _ _ _ _ _ (cur_inst_run _ _ _ H)). reflexivity. Qed.

Lemma points_run h i x : running_as h i x -> points_of h = in_points x.
Proof. intros [H1 H2]. unfold points_of. rewrite H1, H2. reflexivity. Qed.

Lemma SetPointsUsed_run p h i x : running_as h i x ->
  SetPointsUsed p h = (with_inst i (set_in_points (if max_i64 <? p then max_i64 else p) x) h, OOk tt).
Proof. intros H. unfold SetPointsUsed. apply upd_inst_run. exact H. Qed.

(** the points after UseGas *)
Definition more_points (p g : Z) : Z :=
  let q := AddUint64 p g in if max_i64 <? q then max_i64 else q.

Lemma UseGas_run g h i x : running_as h i x ->
  UseGas g h = (with_inst i (set_in_points (more_points (in_points x) g) x) h, OOk tt).
Proof.
  intros H. unfold UseGas, GetPointsUsed. rewrite bind_gets, (points_run _ _ _ H).
  apply SetPointsUsed_run. exact H.
Qed.

Lemma SetBreak_run v h i x : running_as h i x ->
  SetRuntimeBreakpointValue v h = (with_inst i (set_in_bp v x) h, OOk tt).
Proof. apply upd_inst_run. Qed.

Lemma GetBreak_run h i x : running_as h i x -> GetRuntimeBreakpointValue h = (h, OOk (in_bp x)).
Proof.
  intros H. unfold GetRuntimeBreakpointValue. rewrite (bind_ok _ _ _ _ _ (cur_inst_run _ _ _ H)). reflexivity.
Qed.

(** the host after a fault: gas used up, return code and message set, breakpoint set *)
Definition faulted `{E : env} (e : err) (h : host) (i : nat) (x : inst) : host :=
  with_inst i (set_in_bp BreakpointExecutionFailed (set_in_points (more_points (in_points x) (gas_left h)) x))
    (set_h_out (set_o_msg (e_errmsg E e) (set_o_code RcExecutionFailed (h_out h))) h).

Lemma WithFault_run `{E : env} e h i x : running_as h i x ->
  WithFault e h = (faulted e h i x, OOk tt).
Proof.
  intros H. unfold WithFault, GasLeft. rewrite bind_gets.
  rewrite (bind_ok _ _ _ _ _ (UseGas_run _ _ _ _ H)).
  unfold FailExecution, SetReturnCode, SetReturnMessage. rewrite !bind_modify.
  set (x1 := set_in_points _ _).
  erewrite SetBreak_run with (i := i) (x := x1).
  - unfold faulted, with_inst.
    match goal with |- (set_h_insts ?m _, _) = (set_h_insts ?m' ?h', _) => change (set_h_insts m h', OOk tt) with (set_h_insts m h', @OOk unit tt); replace m with m' end.
    + reflexivity.
    + cbn [h_insts set_h_out set_h_insts]. rewrite insert_insert. reflexivity.
  - apply running_with_inst with (x' := x1) in H. exact H.
Qed.

(** * Equations for API commands *)
Lemma run_use `{E : env} ed es g k h i x : running_as h i x ->
  run_cmd ed es (use g k) h = run_cmd ed es k (with_inst i (set_in_points (more_points (in_points x) g) x) h).
Proof. intros H. unfold use, act. erewrite run_do_ok; [|cbn [interp]; apply UseGas_run, H]. reflexivity. Qed.

Lemma run_fault `{E : env} ed es e r h i x : running_as h i x ->
  run_cmd ed es (fault e r) h = (faulted e h i x, OOk r).
Proof. intros H. unfold fault, act. erewrite run_do_ok; [|cbn [interp]; apply WithFault_run, H]. reflexivity. Qed.

Lemma run_act `{E : env} {B} ed es (p : prim B) k h h1 a :
  interp ed es p h = (h1, OOk a) -> run_cmd ed es (act p k) h = run_cmd ed es (k a) h1.
Proof. intros H. unfold act. erewrite run_do_ok by exact H. reflexivity. Qed.

(** the memory of the running contract *)
Definition mem_of (h : host) : res memory := cur_mem h.
Lemma mem_load_run h i x o n : running_as h i x -> mem_load h o n = MemLoad (in_mem x) o n.
Proof. intros [H1 H2]. unfold mem_load. rewrite H1, H2. reflexivity. Qed.
Lemma cur_mem_run h i x : running_as h i x -> cur_mem h = ROk (in_mem x).
Proof. intros [H1 H2]. unfold cur_mem. rewrite H1, H2. reflexivity. Qed.
