(** Proofs about scenario files that refer to others, and about directories. *)
From Verif Require Import Base JsonModel JsonSpec FileSpec FileStepProofs ScenParseModel WorldModel RunnerModel RunnerSpec.
From stdpp Require Import gmap list.
From Coq Require Import ZifyBool ZifyNat ZifyN.

(** * Steps one after another *)
Section Steps.
Context {W : wenv}.
Lemma steps_app c l1 l2 w : ExecuteSteps c (l1 ++ l2) w =
  match ExecuteSteps c l1 w with (w', SOk _) => ExecuteSteps c l2 w' | other => other end.
Proof.
  revert w. induction l1 as [|s r IH]; intros w; [reflexivity|]. cbn [app ExecuteSteps].
  destruct (ExecuteStep c s w) as [w' [[]| |]]; [apply IH|reflexivity..].
Qed.
End Steps.

Section Runner.
Context {R : renv}.

Lemma seen_resolve rep q : seen_from rep q = ResolveFileValue (mkResolver q rep).
Proof. reflexivity. Qed.
Lemma target_resolve rep q v : target rep q v = ResolveAbsolutePath (mkResolver q rep) v.
Proof. reflexivity. Qed.

Lemma says_iff rep path q s : file_says rep path q s <->
  re_abs R path = Some q /\ exists text, re_read R q = Some text /\
    ParseScenarioFile (ResolveFileValue (mkResolver q rep)) (re_keccak R) text = SOk s.
Proof.
  unfold file_says. split; intros [H1 H2]; (split; [exact H1|]).
  - destruct H2 as (text & v & H2 & H3 & H4). exists text. split; [exact H2|]. apply file_iff. exists v. auto.
  - destruct H2 as (text & H2 & H3). apply file_iff in H3 as (v & H3 & H4). exists text, v. auto.
Qed.

(** The run of a file that says [s]. *)
Definition ready (c : bool) (g : gas_schedule) (q : bytes) (rep : gmap bytes bytes) (x : executor) : executor :=
  SetMandosGasSchedule g (mkExecutor (x_world x) (x_schedule x) c (x_loaded x) (Some (mkResolver q rep))).
Lemma run_said n fr path q s x : file_says (fr_replace fr) path q s ->
  RunSingleJSONScenario (S n) fr path x =
  run_steps (RunSingleJSONScenario n) (s_steps s) (ready (s_check_gas s) (s_gas s) q (fr_replace fr) x).
Proof.
  intros H. apply says_iff in H as (H1 & text & H2 & H3). cbn [RunSingleJSONScenario]. rewrite H1, H2.
  unfold SetContext. rewrite H3. reflexivity.
Qed.
Lemma ready_loaded c g q rep x : x_loaded x = true ->
  ready c g q rep x = mkExecutor (x_world x) (x_schedule x) c true (Some (mkResolver q rep)).
Proof. intros H. unfold ready, SetMandosGasSchedule. cbn [x_loaded]. rewrite H. reflexivity. Qed.

Lemma steps_spelled rep c q l l' : spelled_out rep c q l l' -> forall x, x_resolver x = Some (mkResolver q rep) ->
  x_check_gas x = c -> x_loaded x = true ->
  exists n, forall m, (n <= m)%nat -> exists x',
    let e := ExecuteSteps (W := re_vm R (x_schedule x)) c l' (x_world x) in
    run_steps (RunSingleJSONScenario m) l x = (x', Some (snd e)) /\ x_world x' = fst e /\ x_schedule x' = x_schedule x /\
    x_loaded x' = true /\ (snd e = SOk tt -> x' = set_x_world (fst e) x).
Proof.
  induction 1 as [q|q st r r' Hst Hr IH|q comment path q' s l r r' Hs Hc Hl IHl Hr IHr]; intros x Hx Hk Hd.
  - exists 0%nat. intros m _. exists x. cbn. split; [reflexivity|]. split; [reflexivity|]. split; [reflexivity|]. split; [exact Hd|].
    intros _. destruct x; reflexivity.
  - assert (Hp : forall m, run_steps (RunSingleJSONScenario m) (st :: r) x =
      match ExecuteStep (W := re_vm R (x_schedule x)) c st (x_world x) with
      | (w, SOk _) => run_steps (RunSingleJSONScenario m) r (set_x_world w x)
      | (w, o) => (set_x_world w x, Some o)
      end).
    { intros m. destruct st; try (destruct (Hst _ _ eq_refl)); cbn [run_steps]; unfold plain_step; rewrite Hk;
      destruct (ExecuteStep _ _ _) as [w [[]| |]]; reflexivity. }
    destruct (ExecuteStep (W := re_vm R (x_schedule x)) c st (x_world x)) as [w [[]| |]] eqn:Hw.
    + destruct (IH (set_x_world w x) Hx Hk Hd) as (n & Hn). exists n. intros m Hm. destruct (Hn m Hm) as (x' & Hx').
      exists x'. cbn [ExecuteSteps]. rewrite Hw. rewrite Hp. cbv zeta in *. cbn [x_schedule x_world set_x_world] in Hx'. exact Hx'.
    + exists 0%nat. intros m _. exists (set_x_world w x). cbn [ExecuteSteps]. rewrite Hw, Hp. cbn. split_and!; [reflexivity|reflexivity|reflexivity|exact Hd|discriminate].
    + exists 0%nat. intros m _. exists (set_x_world w x). cbn [ExecuteSteps]. rewrite Hw, Hp. cbn. split_and!; [reflexivity|reflexivity|reflexivity|exact Hd|discriminate].
  - set (x1 := mkExecutor (x_world x) (x_schedule x) c true (Some (mkResolver q' rep))).
    destruct (IHl x1 eq_refl eq_refl eq_refl) as (n1 & H1). cbn [x1 x_schedule x_world] in H1.
    set (e1 := ExecuteSteps (W := re_vm R (x_schedule x)) c l (x_world x)) in *.
    assert (Hf : forall m, RunSingleJSONScenario (S m) (mkResolver q rep) (ResolveAbsolutePath (mkResolver q rep) path) x =
      run_steps (RunSingleJSONScenario m) (s_steps s) x1).
    { intros m. rewrite <- target_resolve. rewrite (run_said m (mkResolver q rep) _ q' s x Hs). cbn [fr_replace]. rewrite ready_loaded by exact Hd. rewrite Hc. reflexivity. }
    assert (Hp : forall m x' o, run_steps (RunSingleJSONScenario m) (s_steps s) x1 = (x', Some o) ->
      run_steps (RunSingleJSONScenario (S m)) (ExternalSteps comment path :: r) x =
      match o with
      | SOk _ => run_steps (RunSingleJSONScenario (S m)) r (set_x_resolver (Some (mkResolver q rep)) x')
      | _ => (x', Some o)
      end).
    { intros m x' o Ho. cbn [run_steps]. rewrite Hx, Hf, Ho. destruct o as [[]| |]; reflexivity. }
    rewrite steps_app. fold e1. destruct e1 as [w1 [[]| |]] eqn:He1.
    + destruct (IHr (set_x_world w1 x) Hx Hk Hd) as (n2 & H2). exists (S (max n1 n2)). intros m Hm.
      destruct m as [|m]; [lia|]. destruct (H1 m ltac:(lia)) as (y & Hy1 & _ & _ & _ & Hy2).
      destruct (H2 (S m) ltac:(lia)) as (z & Hz). exists z. cbn [x_schedule x_world set_x_world] in Hz.
      rewrite (Hp m y _ Hy1). cbn [snd]. rewrite (Hy2 eq_refl). cbn [fst].
      replace (set_x_resolver (Some (mkResolver q rep)) (set_x_world w1 x1)) with (set_x_world w1 x); [exact Hz|].
      unfold x1, set_x_resolver, set_x_world. cbn. rewrite Hk, Hd, Hx. reflexivity.
    + exists (S n1). intros m Hm. destruct m as [|m]; [lia|]. destruct (H1 m ltac:(lia)) as (y & Hy1 & Hy2 & Hy3 & Hy4 & _).
      exists y. rewrite (Hp m y _ Hy1). cbn [snd fst] in *. split_and!; [reflexivity|exact Hy2|exact Hy3|exact Hy4|discriminate].
    + exists (S n1). intros m Hm. destruct m as [|m]; [lia|]. destruct (H1 m ltac:(lia)) as (y & Hy1 & Hy2 & Hy3 & Hy4 & _).
      exists y. rewrite (Hp m y _ Hy1). cbn [snd fst] in *. split_and!; [reflexivity|exact Hy2|exact Hy3|exact Hy4|discriminate].
Qed.

Lemma schedule_same g : gasScheduleMapFromMandos g = schedule_of g.
Proof. destruct g; reflexivity. Qed.

Lemma file_in_place fr path q s l x : file_says (fr_replace fr) path q s ->
  spelled_out (fr_replace fr) (s_check_gas s) q (s_steps s) l ->
  exists n, forall m, (n <= m)%nat -> exists x',
    let g := if x_loaded x then x_schedule x else schedule_of (s_gas s) in
    let e := ExecuteSteps (W := re_vm R g) (s_check_gas s) l (x_world x) in
    RunSingleJSONScenario m fr path x = (x', Some (snd e)) /\ x_world x' = fst e /\ x_schedule x' = g.
Proof.
  intros Hs Hl. set (x1 := ready (s_check_gas s) (s_gas s) q (fr_replace fr) x).
  destruct (steps_spelled _ _ _ _ _ Hl x1) as (n & Hn); [unfold x1, ready, SetMandosGasSchedule; cbn; destruct (x_loaded x); reflexivity..|].
  exists (S n). intros m Hm. destruct m as [|m]; [lia|]. destruct (Hn m ltac:(lia)) as (x' & H1 & H2 & H3 & _).
  exists x'. cbv zeta. rewrite (run_said m fr path q s x Hs). fold x1.
  assert (E : x_world x1 = x_world x /\ x_schedule x1 = if x_loaded x then x_schedule x else schedule_of (s_gas s)).
  { unfold x1, ready, SetMandosGasSchedule. cbn. destruct (x_loaded x), (s_gas s); split; reflexivity. }
  destruct E as [E1 E2]. rewrite E1, E2 in *. auto.
Qed.
End Runner.
