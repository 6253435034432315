(** A driver with a small machine, for the examples. *)
From Verif Require Import Base IpcModel IpcSpec IpcProofs ExIpc DriverModel
  DriverSpec DriverProofs DriverRunProofs.
From Coq Require Import ZifyBool ZifyNat ZifyN.

(** The kind of response a request gets. *)
Definition reply_kind (req : content) : Z :=
  if g_kind req =? KVersionRequest then KVersionResponse
  else if g_kind req =? KDiagnoseWaitRequest then KDiagnoseWaitResponse
  else KContractResponse.

(** A machine that reads one cell and says what it found and whether gas is
    dear. *)
Definition pricing_vm (dear : bool) (req : content) : talk :=
  Ask (some KBlockchainGetStorageDataRequest "a") (fun x =>
  match x with
  | IOk x =>
      Say (mkContent (TOf (reply_kind req)) (reply_kind req) []
             (str (if dear then "dear" else "cheap") ++ firstn 100 (g_body x)))
  | _ => Say (some KContractResponse "failed")
  end).

Definition change_to (dear : bool) : content :=
  some KGasScheduleChangeRequest (if dear then "dear" else "cheap").

Definition demo : setup nat bool :=
  mkSetup tiny echo pricing_vm (fun w => w) change_to.

Lemma reply_known req : knownb (reply_kind req) = true.
Proof. unfold reply_kind. repeat destruct (_ =? _); done. Qed.

Lemma pricing_proper s w req : proper small echo w (pricing_vm s req).
Proof.
  unfold pricing_vm. cbn [proper].
  do 3 (split; [first [apply echo_passes|apply some_passes; vm_compute; done|right; left; done]|]).
  split.
  - apply known_passes; [apply reply_known|].
    rewrite blen_app. change (blen []) with 0.
    assert (blen (firstn 100 (g_body (snd (echo w (some KBlockchainGetStorageDataRequest "a"))))) <= 100)
      by (unfold blen; rewrite firstn_length; lia).
    destruct s; [change (blen (str "dear")) with 4|change (blen (str "cheap")) with 5]; lia.
  - unfold response, reply_kind. cbn [g_kind]. repeat destruct (_ =? _); auto.
Qed.

Lemma proper_decent {W} fits (hook : W -> content -> W * content) t : forall w,
  proper fits hook w t -> decent fits hook w t.
Proof.
  induction t as [r|q k IH]; intros w H; [exact H|].
  destruct H as (H1 & H2 & H3 & H4). split; [done|]. right. auto.
Qed.

Lemma demo_sound : sound_setup small demo.
Proof.
  split_and!.
  - apply tiny_carries.
  - intros s w req _. apply proper_decent, pricing_proper.
  - intros n m Hn [s ->]. apply tiny_strips; [done|].
    unfold change_to, small. split; [by eexists|].
    destruct s; vm_compute; intuition congruence.
  - intros s. destruct s; done.
Qed.

Lemma demo_serves req : request req -> serves small demo req.
Proof.
  intros Hr s w. split; [apply pricing_proper|].
  unfold belongs. cbn. unfold reply_kind.
  destruct Hr as [E|[E|[E|E]]]; rewrite E; cbn; auto.
Qed.

Definition call : content := some KContractCallRequest "go".
Lemma call_asks : asks small call.
Proof. split; [apply some_passes; vm_compute; done|right; left; done]. Qed.

Definition cheap_driver : driver nat bool :=
  mkDriver false 0%nat (new_process false) (Some new_pipes).

(** The process exits; a request is lost; the gas schedule changes while there
    is no process. *)
Definition troubles : list (op bool * outcome) :=
  [(OExit, Nothing); (OAsk call, Critical); (OSchedule true, Nothing)].

Lemma troubles_run : exists d,
  runs false demo cheap_driver troubles d /\ asking small troubles
  /\ d_proc d = PReaped /\ d_world d = 0%nat.
Proof.
  set (d1 := mkDriver false 0%nat (PStarted false (dead 0)) (Some new_pipes)).
  destruct (send_ok tiny small tiny_carries 0 call (proj1 call_asks)) as (b1 & E1 & E2).
  set (d2 := closed (mkDriver false 0%nat (PStarted false (dead 0))
                       (Some (mkPipes 0 ([] ++ [b1] ++ []) [])))).
  assert (act false demo d1 (OAsk call) Critical d2) as A2.
  { apply (act_ask_failed false demo d1 call FNone d1 EEof); [done|done|].
    apply (cv_done false demo d1 call false (dead 0) new_pipes
      (mkNode (next 0) 0%nat NLoop) b1 [b1]
      (mkSystem (node_end 0%nat (IErr EEof)) (dead 0) ([] ++ [b1] ++ []) [])); try done.
    - unfold StartLoop. cbn [c_codec demo p_nonce new_pipes]. rewrite E1. done.
    - apply app_nil_r.
    - eapply rtc_once, mv_step.
      apply (step_node _ _ _ (mkSystem (mkNode (next 0) 0%nat NLoop) (dead 0) ([] ++ [b1]) [])
        (next 0) (IErr EEof) [] (node_end 0%nat (IErr EEof)) [] []); try done. by right. }
  set (d3 := mkDriver true 0%nat PReaped None : driver nat bool).
  assert (act false demo d2 (OSchedule true) Nothing d3) as A3.
  { apply (act_schedule_unstarted false demo d2 true FPath d3); [discriminate|done]. }
  exists d3. split_and!; [|repeat constructor; apply call_asks|done|done].
  change troubles with ((([] ++ [(OExit, Nothing)]) ++ [(OAsk call, Critical)])
                        ++ [(OSchedule true, Nothing)] : list (op bool * outcome)).
  eapply runs_more; [|exact A3]. eapply runs_more; [|exact A2].
  eapply runs_more; [apply runs_none|].
  apply (act_exit false demo cheap_driver false (mkArwen 0 AIdle) 0); done.
Qed.

(** After that a request is answered by a machine with the new prices. *)
Lemma troubles_over : exists d d',
  runs false demo cheap_driver troubles d
  /\ act false demo d (OAsk call) (Answer (some KContractResponse "dearaa")) d'.
Proof.
  destruct troubles_run as (d & Hr & Hh & Hp & Hw). exists d.
  destruct (runs_inv demo small demo_sound FNone false 0%nat cheap_driver troubles d eq_refl Hh Hr) as [_ Ha].
  destruct (calm_ask demo small demo_sound d call call_asks (demo_serves call (proj2 call_asks)) (or_intror Hp))
    as (w & [[_ Hb]|[Hb _]] & K); [|done].
  rewrite Ha in K. cbn [c_clear demo] in Hb. rewrite Hw in Hb. subst w.
  change (last_schedule false troubles) with true in K.
  change (in_process (c_hook demo) 0%nat (c_machine demo true call))
    with (1%nat, some KContractResponse "dearaa") in K.
  destruct K as [[d' K] _]. exists d'. split; [done|].
  inversion K as [|? f d1 Hf E|? f d1 e d2 Hf E Hv|? f d1 r d2 Hf E Hv|? f d1 d2 Hf E Hv
        | | | | | | | |]; subst.
  assert (converses false demo d1 call (Some (IOk r)) d') as Hv'.
  { inversion Hv as [|costs a p nd b ps s r' B1 B2 B3 B4 B5 B6|]; subst.
    eapply cv_done; eauto. clear -B5. induction B5 as [|s s1 s2 M1 M2 IH]; [apply rtc_refl|].
    eapply rtc_l; [|exact IH]. inversion M1; subst; try discriminate. by apply mv_step. }
  match goal with H : _ = Answer _ |- _ => rename H into HA end.
  assert (calm_start false f) as Hf' by discriminate.
  pose proof (act_ask_ok false demo d call f d1 r d' Hf' E Hv') as Z.
  destruct (asserted call r); [|discriminate]. exact Z.
Qed.
