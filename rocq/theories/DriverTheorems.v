(** C82, C82: what the driver of a machine in another process answers, whatever
    happens to the process. *)
From Verif Require Import Base IpcModel IpcSpec IpcProofs ExIpc DriverModel
  DriverSpec DriverProofs DriverRunProofs ExDriver.

(** C81: after any history of requests, changes of the
    gas schedule, closings and exits of the process, in which processes may
    exit at any moment, with their messages cut anywhere, deadlines may pass
    and starts may fail at any stage, a response returned to the caller is the
    one that a machine with the gas schedule set last gives to this very
    request when it is called in the node's own process; and the state behind
    the hook is the one which that call leaves.  (When the process has to be
    started, the compiled code kept by the hook is cleared first.) *)
Theorem C81_right_answer :
  forall (W S : Type) (fits : content -> Prop) (c : setup W S) f args w d0 h d req r d',
  sound_setup fits c ->
  NewArwenDriver c f args w = Some d0 ->
  asking fits h -> runs false c d0 h d ->
  asks fits req -> act false c d (OAsk req) (Answer r) d' ->
  exists w1, (w1 = d_world d \/ w1 = c_clear c (d_world d))
    /\ (d_world d', r)
       = in_process (c_hook c) w1 (c_machine c (last_schedule args h) req).
Proof. intros W S fits c f args w d0 h d req r d' Hc. by apply right_answer. Qed.
Print Assumptions C81_right_answer.

Example C81_right_answer_ex :
  sound_setup small demo /\ asks small call /\ asking small troubles
  /\ NewArwenDriver demo FNone false 0%nat = Some cheap_driver
  /\ exists d d', runs false demo cheap_driver troubles d
     /\ act false demo d (OAsk call) (Answer (some KContractResponse "dearaa")) d'.
Proof.
  split_and!; [apply demo_sound|apply call_asks|repeat constructor; apply call_asks|done
              |apply troubles_over].
Qed.

(** C82, undisturbed: as long as no process exits, no deadline passes and no
    start fails, every request is answered, also after changes of the gas
    schedule and after the driver was closed. *)
Theorem C82_undisturbed :
  forall (W S : Type) (fits : content -> Prop) (c : setup W S) f args w d0 h d req,
  sound_setup fits c ->
  NewArwenDriver c f args w = Some d0 ->
  serving fits c h -> runs true c d0 h d ->
  asks fits req -> serves fits c req ->
  exists w1, (w1 = d_world d \/ w1 = c_clear c (d_world d)) /\
  let '(w', r) :=
    in_process (c_hook c) w1 (c_machine c (last_schedule args h) req) in
  (exists d', act true c d (OAsk req) (Answer r) d')
  /\ forall x d', act true c d (OAsk req) x d' -> x = Answer r /\ d_world d' = w'.
Proof. intros W S fits c f args w d0 h d req Hc. by apply undisturbed. Qed.
Print Assumptions C82_undisturbed.

Example C82_undisturbed_ex :
  serves small demo call /\ serving small demo [(OClose, Nothing)]
  /\ exists d, runs true demo cheap_driver [(OClose, Nothing)] d
               /\ d_proc d = PReaped.
Proof.
  split_and!; [apply demo_serves, call_asks|repeat constructor|].
  exists (closed cheap_driver). split; [|done].
  change [(OClose, Nothing)] with ([] ++ [(OClose, Nothing)] : list (op bool * outcome)).
  eapply runs_more; [apply runs_none|]. by apply (act_close true demo cheap_driver _ true).
Qed.

(** C82, at most one request is lost: when, after any history whatever, a
    request that nothing disturbs fails, then the next one, if nothing disturbs
    it either, is answered. *)
Theorem C82_next_partial :
  forall (W S : Type) (fits : content -> Prop) (c : setup W S) f args w d0 h d req1 d1 req,
  sound_setup fits c ->
  NewArwenDriver c f args w = Some d0 ->
  asking fits h -> runs false c d0 h d ->
  asks fits req1 -> act true c d (OAsk req1) Critical d1 ->
  asks fits req -> serves fits c req ->
  let '(w', r) :=
    in_process (c_hook c) (c_clear c (d_world d1))
      (c_machine c (last_schedule args h) req) in
  (exists d', act true c d1 (OAsk req) (Answer r) d')
  /\ forall x d', act true c d1 (OAsk req) x d' -> x = Answer r /\ d_world d' = w'.
Proof. intros W S fits c f args w d0 h d req1 d1 req Hc. by apply second_answered. Qed.
Print Assumptions C82_next_partial.

Example C82_next_ex :
  exists d d1, runs false demo cheap_driver [(OExit, Nothing)] d
  /\ asking small ([(OExit, Nothing)] : list (op bool * outcome))
  /\ act true demo d (OAsk call) Critical d1.
Proof.
  set (d1 := mkDriver false 0%nat (PStarted false (dead 0)) (Some new_pipes)).
  assert (act false demo cheap_driver OExit Nothing d1) as A
    by (apply (act_exit false demo cheap_driver false (mkArwen 0 AIdle) 0); done).
  destruct (exited_lost demo small demo_sound FNone false 0%nat cheap_driver Nothing d1 call
    eq_refl A call_asks) as [[d2 B] _].
  exists d1, d2. split_and!; [|repeat constructor|exact B].
  change [(OExit, Nothing)] with ([] ++ [(OExit, Nothing)] : list (op bool * outcome)).
  eapply runs_more; [apply runs_none|exact A].
Qed.

(** C82, refuted for a process that exits between two requests: nobody waits for
    it, so that to the driver it still seems to run, and the next request,
    although nothing disturbs it and a process could be started, is lost. *)
Theorem C82_exit_refuted :
  forall (W S : Type) (fits : content -> Prop) (c : setup W S) f args w d0 x d1 req,
  sound_setup fits c ->
  NewArwenDriver c f args w = Some d0 -> act false c d0 OExit x d1 ->
  asks fits req ->
  (exists d2, act true c d1 (OAsk req) Critical d2)
  /\ forall y d2, act true c d1 (OAsk req) y d2 -> y = Critical.
Proof. intros W S fits c f args w d0 x d1 req Hc. by apply exited_lost. Qed.
Print Assumptions C82_exit_refuted.

(** C82, refuted for a start that fails: when, once, the program cannot be
    started, the driver is left with a command that has no process, and every
    operation from then on panics. *)
Theorem C82_start_refuted :
  forall (W S : Type) (c : setup W S) f args w d0 req,
  NewArwenDriver c f args w = Some d0 ->
  exists d, runs false c d0 [(OClose, Nothing); (OAsk req, Critical)] d
  /\ (forall req, exists d', act true c d (OAsk req) Panicked d')
  /\ forall calm h d', runs calm c d h d' -> Forall (fun e => snd e = Panicked) h.
Proof. exact @unstarted_panics. Qed.
Print Assumptions C82_start_refuted.

Example C82_refuted_ex :
  sound_setup small demo
  /\ NewArwenDriver demo FNone false 0%nat = Some cheap_driver
  /\ exists d1, act false demo cheap_driver OExit Nothing d1.
Proof.
  split_and!; [apply demo_sound|done|].
  eexists. apply (act_exit false demo cheap_driver false (mkArwen 0 AIdle) 0); done.
Qed.
