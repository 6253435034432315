(** The states a driver can reach, and what its operations give there. *)
From Verif Require Import Base IpcModel IpcSpec IpcProofs DriverModel DriverSpec
  DriverProofs.
From Coq Require Import ZifyBool ZifyNat ZifyN.

Section Driver.
  Context {W S : Type} (c : setup W S) (fits : content -> Prop).
  Hypothesis Hc : sound_setup fits c.

  Lemma Hcar : carries (c_codec c) fits. Proof. apply Hc. Qed.
  Lemma Hdec s w req : asks fits req -> decent fits (c_hook c) w (c_machine c s req).
  Proof. apply Hc. Qed.
  Lemma Hstrip s : strips (c_codec c) (eq (c_change c s)).
  Proof.
    intros n m Hn <-. destruct Hc as (_ & _ & H & _). apply H; eauto.
  Qed.

  (** A process waiting for a request on clean pipes. *)
  Definition ready (costs : S) (d : driver W S) : Prop :=
    exists p, d_proc d = PStarted costs (mkArwen 0 AIdle) /\ d_part d = Some p
      /\ p_nonce p = 0 /\ concat (p_in p) = [] /\ concat (p_out p) = [].
  (** A process that has exited. *)
  Definition zombie (d : driver W S) : Prop :=
    exists costs a p, d_proc d = PStarted costs a /\ d_part d = Some p
      /\ arwen_alive a = false /\ concat (p_out p) = [].
  Definition unplugged (d : driver W S) : Prop :=
    exists costs a, d_proc d = PStarted costs a /\ d_part d = None.

  Definition dinv (costs : S) (d : driver W S) : Prop :=
    ready costs d \/ zombie d \/ unplugged d \/ d_proc d = PReaped \/ d_proc d = PNil.

  Lemma closed_inv costs d : dinv costs (closed d).
  Proof.
    unfold closed, Close. destruct d as [args w pr pa]. cbn [d_proc].
    unfold dinv. destruct pr; cbn; auto 6.
  Qed.
  Lemma closed_args (d : driver W S) : d_args (closed d) = d_args d.
  Proof. unfold closed, Close. destruct (d_proc d); done. Qed.
  Lemma closed_world (d : driver W S) : d_world (closed d) = d_world d.
  Proof. unfold closed, Close. destruct (d_proc d); done. Qed.

  Lemma new_ready s w : ready s (mkDriver s w (new_process s) (Some new_pipes)).
  Proof. eexists. split_and!; cbn; done. Qed.

  Lemma start_inv f d d1 ok :
    d_proc d = PReaped -> startArwen c f d = (d1, ok) ->
    dinv (d_args d) d1 /\ d_args d1 = d_args d
    /\ (ok = true -> ready (d_args d) d1 /\ d_world d1 = c_clear c (d_world d)).
  Proof.
    intros Hp Hs. unfold dinv.
    destruct f; cbn in Hs; injection Hs as <- <-; cbn [d_args];
      (split_and!; [|done|intros; try discriminate]).
    - auto 6.
    - cbn. auto 6.
    - cbn. auto 6.
    - cbn. auto 6.
    - right. right. left. eexists _, _. done.
    - left. apply new_ready.
    - left. apply new_ready.
    - split; [apply new_ready|done].
  Qed.

  Lemma restart_inv costs f d d1 ok :
    dinv costs d -> RestartArwenIfNecessary c f d = Some (d1, ok) ->
    d1 = d /\ ok = true /\ (ready costs d \/ zombie d \/ unplugged d)
    \/ d_proc d = PReaped /\ startArwen c f d = (d1, ok).
  Proof.
    intros Hi. unfold RestartArwenIfNecessary, IsClosed.
    destruct (d_proc d) eqn:E; intros H; [done| |].
    - right. injection H as H. done.
    - left. injection H as <- <-. split_and!; [done|done|].
      destruct Hi as [?|[?|[?|[?|?]]]]; auto; congruence.
  Qed.

  (** What a dialogue leaves of a driver. *)
  Lemma converse_keeps calm d req r d2 :
    converses calm c d req r d2 -> d_args d2 = d_args d
    /\ (forall costs a, d_proc d = PStarted costs a -> exists a', d_proc d2 = PStarted costs a').
  Proof.
    intros H. destruct H as [Hn|costs' a' p' nd b ps s r A1|costs' a' p' nd b ps s A1];
      cbn; (split; [done|]); intros costs a E; [eauto| |];
      rewrite E in A1; injection A1 as <- <-; eauto.
  Qed.

  Lemma unplugged_fails calm d req r d2 :
    unplugged d -> converses calm c d req r d2 -> exists e, r = Some (IErr e).
  Proof.
    intros (costs & a & H1 & H2) H. destruct H as [Hn|? ? p|? ? p]; [eauto| |]; congruence.
  Qed.

  Lemma zombie_fails calm d req r d2 :
    zombie d -> converses calm c d req r d2 -> exists e, r = Some (IErr e).
  Proof.
    intros (costs & a & p & H1 & H2 & H3 & H4) H.
    assert (forall p' nd b ps s, Some p' = Some p ->
      StartLoop (c_codec c) (p_nonce p') (d_world d) req = (nd, b) ->
      rtc (move calm c costs) (mkSystem nd a (p_in p' ++ ps) (p_out p')) s ->
      n_at (s_node s) = NLoop \/ exists e, n_at (s_node s) = NDone (IErr e)) as K.
    { intros p' nd b ps s [= ->] Hs Hr.
      apply lost_rtc in Hr as [? _]; [done| |done|by apply nothing_unreadable].
      unfold StartLoop in Hs. destruct (Send _ _ _) as [n [b'|e]]; injection Hs as <- <-;
        cbn; eauto. }
    destruct H as [Hn|costs' a' p' nd b ps s r A1 A2 A3 A4 A5 A6|costs' a' p' nd b ps s A1 A2 A3 A4 A5 A6].
    - congruence.
    - rewrite H1 in A1. injection A1 as <- <-. rewrite H2 in A2.
      destruct (K p' nd b ps s) as [E|[e E]]; [congruence|done|done|congruence|].
      rewrite E in A6. injection A6 as <-. eauto.
    - rewrite H1 in A1. injection A1 as <- <-. rewrite H2 in A2.
      destruct (K p' nd b ps s) as [E|[e E]]; [congruence|done|done|congruence|congruence].
  Qed.

  Lemma ready_change calm costs d s r d2 :
    ready costs d -> converses calm c d (c_change c s) r d2 ->
    exists e, r = Some (IErr e).
  Proof.
    intros (p & H1 & H2 & H3 & H4 & H5) H.
    assert (Hk := proj2 (proj2 (proj2 (proj2 Hc)) s)).
    assert (forall p' nd b ps x, Some p = Some p' ->
      StartLoop (c_codec c) (p_nonce p') (d_world d) (c_change c s) = (nd, b) ->
      concat ps = b ->
      rtc (move calm c costs) (mkSystem nd (mkArwen 0 AIdle) (p_in p' ++ ps) (p_out p')) x ->
      n_at (s_node x) = NLoop \/ exists e, n_at (s_node x) = NDone (IErr e)) as K.
    { intros p' nd b ps x [= <-] Hs Hb Hr. rewrite H3 in Hs.
      exact (change_rtc c costs calm (c_change c s) (d_world d) nd b ps _ _ x (Hstrip s) Hk Hs Hb H4 H5 Hr). }
    destruct H as [Hn|costs' a' p' nd b ps x r A1 A2 A3 A4 A5 A6|costs' a' p' nd b ps x A1 A2 A3 A4 A5 A6].
    - congruence.
    - rewrite H1 in A1. injection A1 as <- <-. rewrite H2 in A2.
      destruct (K p' nd b ps x) as [E|[e E]]; [done..|congruence|].
      rewrite E in A6. injection A6 as <-. eauto.
    - rewrite H1 in A1. injection A1 as <- <-. rewrite H2 in A2.
      destruct (K p' nd b ps x) as [E|[e E]]; [done..|congruence|congruence].
  Qed.

  Lemma ready_ask calm costs d req r d2 :
    asks fits req -> ready costs d -> converses calm c d req r d2 ->
    (exists e, r = Some (IErr e))
    \/ (exists x, r = Some (IOk x)
        /\ (d_world d2, x) = in_process (c_hook c) (d_world d) (c_machine c costs req)
        /\ (ready costs d2 \/ zombie d2)).
  Proof.
    intros Hq (p & H1 & H2 & H3 & H4 & H5) H.
    assert (forall p' nd b ps x, Some p = Some p' ->
      StartLoop (c_codec c) (p_nonce p') (d_world d) req = (nd, b) ->
      concat ps = b ->
      rtc (move calm c costs) (mkSystem nd (mkArwen 0 AIdle) (p_in p' ++ ps) (p_out p')) x ->
      inv c fits costs req (in_process (c_hook c) (d_world d) (c_machine c costs req)) x) as K.
    { intros p' nd b ps x [= <-] Hs Hb Hr. rewrite H3 in Hs.
      eapply (inv_rtc c fits costs Hcar calm req _ _ _ Hq); [|exact Hr].
      eapply open_inv; eauto using Hcar, Hdec. }
    destruct H as [Hn|costs' a' p' nd b ps x r A1 A2 A3 A4 A5 A6|costs' a' p' nd b ps x A1 A2 A3 A4 A5 A6].
    - congruence.
    - rewrite H1 in A1. injection A1 as <- <-. rewrite H2 in A2.
      destruct (K p' nd b ps x) as [w E|w q k n E|w y n E|w k y n E|E|e E|w y E1 E2 E3 E4]; try done;
        try (rewrite E in A6; discriminate).
      + left. rewrite E in A6. injection A6 as <-. eauto.
      + right. rewrite E1 in A6. cbn in A6. injection A6 as <-. exists y. split; [done|].
        rewrite E1. cbn [d_world n_world n_nonce]. split; [done|].
        destruct E3 as [[E3 E3']|E3].
        * left. eexists. cbn. rewrite E3. split_and!; done.
        * right. unfold zombie. cbn. eexists _, _, _. split_and!; done.
    - rewrite H1 in A1. injection A1 as <- <-. rewrite H2 in A2.
      destruct (K p' nd b ps x) as [w E|w q k n E|w y n E|w k y n E|E|e E|w y E1 E2 E3 E4]; try done;
        try (rewrite E in A6; discriminate); try (rewrite E1 in A6; discriminate).
  Qed.

  (** * Any operations *)

  Lemma with_args_ready (s costs : S) (d : driver W S) : ready costs (with_args s d) <-> ready costs d.
  Proof. done. Qed.
  Lemma with_args_inv (s costs : S) (d : driver W S) : dinv costs (with_args s d) <-> dinv costs d.
  Proof. done. Qed.

  Lemma ask_inv calm d req x d' :
    asks fits req -> dinv (d_args d) d -> act calm c d (OAsk req) x d' ->
    dinv (d_args d) d' /\ d_args d' = d_args d
    /\ (forall r, x = Answer r ->
          exists w, (w = d_world d \/ w = c_clear c (d_world d))
            /\ (d_world d', r) = in_process (c_hook c) w (c_machine c (d_args d) req)).
  Proof.
    intros Hq Hi Ha.
    inversion Ha as [? f E|? f d1 Hf E|? f d1 e d2 Hf E Hv|? f d1 r d2 Hf E Hv|? f d1 d2 Hf E Hv
      | | | | | | | |]; subst.
    - split_and!; [done|done|discriminate].
    - destruct (restart_inv _ _ _ _ _ Hi E) as [(_ & ? & _)|[Hr Hs]]; [discriminate|].
      destruct (start_inv _ _ _ _ Hr Hs) as (A & B & _). split_and!; [done|done|discriminate].
    - split_and!; [apply closed_inv| |discriminate].
      rewrite closed_args, (proj1 (converse_keeps _ _ _ _ _ Hv)).
      destruct (restart_inv _ _ _ _ _ Hi E) as [(-> & _)|[Hr Hs]]; [done|].
      destruct (start_inv _ _ _ _ Hr Hs) as (_ & B & _). done.
    - assert (exists w, (w = d_world d \/ w = c_clear c (d_world d)) /\ d_world d1 = w
        /\ d_args d1 = d_args d /\ (ready (d_args d) d1 \/ zombie d1 \/ unplugged d1)) as (w & Hw & Hw1 & Ha1 & Hcase).
      { destruct (restart_inv _ _ _ _ _ Hi E) as [(-> & _ & K)|[Hr Hs]]; [exists (d_world d); split_and!; auto|].
        destruct (start_inv _ _ _ _ Hr Hs) as (_ & B & K). destruct (K eq_refl) as [K1 K2].
        exists (d_world d1). split_and!; auto. }
      destruct Hcase as [Hrd|[Hz|Hu]].
      2:{ destruct (zombie_fails _ _ _ _ _ Hz Hv) as [e ?]. discriminate. }
      2:{ destruct (unplugged_fails _ _ _ _ _ Hu Hv) as [e ?]. discriminate. }
      destruct (ready_ask _ _ _ _ _ _ Hq Hrd Hv) as [[e ?]|(y & Hy & Hin & Hrz)]; [discriminate|].
      injection Hy as <-. split_and!.
      + unfold dinv. tauto.
      + rewrite (proj1 (converse_keeps _ _ _ _ _ Hv)). done.
      + intros r' Hr'. destruct (asserted req r); [|discriminate].
        injection Hr' as <-. exists w. subst w. done.
    - exfalso.
      assert (ready (d_args d) d1 \/ zombie d1 \/ unplugged d1) as Hcase.
      { destruct (restart_inv _ _ _ _ _ Hi E) as [(-> & _ & K)|[Hr Hs]]; [done|].
        destruct (start_inv _ _ _ _ Hr Hs) as (_ & B & K). destruct (K eq_refl) as [K1 K2]. auto. }
      destruct Hcase as [Hrd|[Hz|Hu]].
      + destruct (ready_ask _ _ _ _ _ _ Hq Hrd Hv) as [[e ?]|(y & Hy & _)]; discriminate.
      + destruct (zombie_fails _ _ _ _ _ Hz Hv) as [e ?]. discriminate.
      + destruct (unplugged_fails _ _ _ _ _ Hu Hv) as [e ?]. discriminate.
  Qed.

  Lemma change_fails calm costs f d s d1 r d2 :
    dinv costs d ->
    RestartArwenIfNecessary c f (with_args s d) = Some (d1, true) ->
    converses calm c d1 (c_change c s) r d2 ->
    d_args d1 = s /\ (exists e, r = Some (IErr e)).
  Proof.
    intros Hi E Hv. apply (with_args_inv s) in Hi.
    destruct (restart_inv _ _ _ _ _ Hi E) as [(-> & _ & [K|[K|K]])|[Hr Hs]].
    - split; [done|]. eapply ready_change; eauto.
    - split; [done|]. eapply zombie_fails; eauto.
    - split; [done|]. eapply unplugged_fails; eauto.
    - destruct (start_inv _ _ _ _ Hr Hs) as (_ & B & K). destruct (K eq_refl) as [K1 K2].
      split; [done|]. eapply ready_change; eauto.
  Qed.

  Lemma schedule_inv calm d s x d' :
    dinv (d_args d) d -> act calm c d (OSchedule s) x d' ->
    dinv s d' /\ d_args d' = s.
  Proof.
    intros Hi Ha.
    inversion Ha as [| | | | |? f E|? f d1 Hf E|? f d1 e d2 Hf E Hv|? f d1 r d2 Hf E Hv|? f d1 d2 Hf E Hv
      | | |]; subst.
    - split; [|done]. unfold RestartArwenIfNecessary, IsClosed in E.
      cbn [with_args d_proc] in E. destruct (d_proc d) eqn:Ep; try discriminate.
      unfold dinv. cbn. tauto.
    - apply (with_args_inv s) in Hi as Hi'.
      destruct (restart_inv _ _ _ _ _ Hi' E) as [(_ & ? & _)|[Hr Hs]]; [discriminate|].
      destruct (start_inv _ _ _ _ Hr Hs) as (A & B & _). done.
    - destruct (change_fails _ _ _ _ _ _ _ _ Hi E Hv) as [A _].
      split; [apply closed_inv|]. rewrite closed_args, (proj1 (converse_keeps _ _ _ _ _ Hv)). done.
    - destruct (change_fails _ _ _ _ _ _ _ _ Hi E Hv) as [_ [e A]]. discriminate.
    - destruct (change_fails _ _ _ _ _ _ _ _ Hi E Hv) as [_ [e A]]. discriminate.
  Qed.

  Lemma close_inv d d1 ok :
    dinv (d_args d) d -> Close d = Some (d1, ok) -> dinv (d_args d) d1 /\ d_args d1 = d_args d.
  Proof.
    intros Hi Hcl. unfold Close in Hcl.
    destruct (d_proc d) eqn:E; [done|injection Hcl as <- <-; done|].
    injection Hcl as <- <-. split; [|done]. unfold dinv. cbn. tauto.
  Qed.

  Lemma exit_inv d costs a n :
    dinv (d_args d) d -> d_proc d = PStarted costs a ->
    dinv (d_args d) (mkDriver (d_args d) (d_world d) (PStarted costs (dead n)) (d_part d)).
  Proof.
    intros [(p & A1 & A2 & A3 & A4 & A5)|[(? & ? & p & A1 & A2 & A3 & A4)|[(? & ? & A1 & A2)|[A|A]]]] E;
      try congruence.
    - right. left. eexists _, _, p. cbn. done.
    - right. left. eexists _, _, p. cbn. done.
    - right. right. left. eexists _, _. cbn. done.
  Qed.

  Lemma last_schedule_snoc s (h : list (op S * outcome)) o x :
    last_schedule s (h ++ [(o, x)])
    = match o with OSchedule s' => s' | _ => last_schedule s h end.
  Proof.
    revert s. induction h as [|[o' x'] h IH]; intros s; cbn.
    - destruct o; done.
    - destruct o'; apply IH.
  Qed.

  Lemma act_inv calm d o x d' :
    (match o with OAsk req => asks fits req | _ => True end) ->
    dinv (d_args d) d -> act calm c d o x d' ->
    dinv (d_args d') d' /\ d_args d' = match o with OSchedule s => s | _ => d_args d end.
  Proof.
    intros Hq Hi Ha. destruct o as [req|s| |].
    - destruct (ask_inv _ _ _ _ _ Hq Hi Ha) as (A & B & _). rewrite B. done.
    - destruct (schedule_inv _ _ _ _ _ Hi Ha) as (A & B). rewrite B. done.
    - inversion Ha as [| | | | | | | | | | |? ? E|]; subst; [done|].
      destruct (close_inv _ _ _ Hi E) as [A B]. rewrite B. done.
    - inversion Ha as [| | | | | | | | | | | |? ? ? Hf E]; subst. cbn [d_args].
      split; [|done]. eapply exit_inv; eauto.
  Qed.

  Lemma new_inv f args w d : NewArwenDriver c f args w = Some d ->
    ready args d /\ d_args d = args.
  Proof.
    unfold NewArwenDriver. destruct f; cbn; intros H; try discriminate.
    injection H as <-. split; [apply new_ready|done].
  Qed.

  Lemma runs_inv f args w d0 h d :
    NewArwenDriver c f args w = Some d0 -> asking fits h -> runs false c d0 h d ->
    dinv (d_args d) d /\ d_args d = last_schedule args h.
  Proof.
    intros Hn Hh Hr. apply new_inv in Hn as [Hn1 Hn2].
    induction Hr as [|h d1 o x d2 Hr IH Ha].
    - rewrite Hn2. split; [by left|done].
    - apply Forall_app in Hh as [Hh Ho]. specialize (IH Hh) as [I1 I2].
      apply Forall_inv in Ho. cbn [fst] in Ho.
      destruct (act_inv _ _ _ _ _ Ho I1 Ha) as [A B]. split; [done|].
      rewrite last_schedule_snoc, B, I2. done.
  Qed.

  Lemma right_answer f args w d0 h d req r d' :
    NewArwenDriver c f args w = Some d0 -> asking fits h -> runs false c d0 h d ->
    asks fits req -> act false c d (OAsk req) (Answer r) d' ->
    exists w, (w = d_world d \/ w = c_clear c (d_world d))
      /\ (d_world d', r) = in_process (c_hook c) w (c_machine c (last_schedule args h) req).
  Proof.
    intros Hn Hh Hr Hq Ha. destruct (runs_inv _ _ _ _ _ _ Hn Hh Hr) as [I1 I2].
    destruct (ask_inv _ _ _ _ _ Hq I1 Ha) as (_ & _ & H). rewrite <- I2. eauto.
  Qed.

  (** * Undisturbed operations *)

  Lemma calm_steps costs s s' :
    rtc (move true c costs) s s' ->
    rtc (step (c_codec c) (c_hook c) (c_machine c costs)) s s'.
  Proof.
    intros H. induction H as [|s s1 s2 H1 H2 IH]; [apply rtc_refl|].
    inversion H1; subst; try discriminate. eapply rtc_l; eauto.
  Qed.
  Lemma steps_calm costs s s' :
    rtc (step (c_codec c) (c_hook c) (c_machine c costs)) s s' ->
    rtc (move true c costs) s s'.
  Proof.
    intros H. induction H as [|s s1 s2 H1 H2 IH]; [apply rtc_refl|].
    eapply rtc_l; [|exact IH]. by apply mv_step.
  Qed.

  Lemma ends_reach {A} (R : A -> A -> Prop) Q s : ends R Q s -> exists s', rtc R s s' /\ Q s'.
  Proof.
    intros H. induction H as [s H1 H2|s [s1 H1] H2 IH].
    - exists s. split; [apply rtc_refl|done].
    - destruct (IH s1 H1) as (s' & A1 & A2). exists s'. split; [|done]. eapply rtc_l; eauto.
  Qed.

  Lemma done_stays costs s s' :
    rtc (step (c_codec c) (c_hook c) (c_machine c costs)) s s' ->
    (forall r, n_at (s_node s) = NDone r \/ n_at (s_node s) = NPanic -> s_node s' = s_node s)
    /\ (gone s -> gone s').
  Proof.
    intros H. induction H as [|s s1 s2 H1 H2 [IH1 IH2]]; [done|].
    inversion H1 as [? n r rest a b pieces A1 A2 A3 A4 A5|? n r rest nd b pieces A1 A2 A3 A4 A5]; subst;
      cbn [s_node] in *; split.
    - exact IH1.
    - unfold gone. congruence.
    - intros x [Hx|Hx]; congruence.
    - exact IH2.
  Qed.

  Lemma calm_dialogue costs w req p nd b ps :
    asks fits req -> proper fits (c_hook c) w (c_machine c costs req) ->
    p_nonce p = 0 -> concat (p_in p) = [] -> concat (p_out p) = [] ->
    StartLoop (c_codec c) (p_nonce p) w req = (nd, b) -> concat ps = b ->
    ends (step (c_codec c) (c_hook c) (c_machine c costs))
      (finished (in_process (c_hook c) w (c_machine c costs req)))
      (mkSystem nd (mkArwen 0 AIdle) (p_in p ++ ps) (p_out p)).
  Proof.
    intros [Hp Hq] Hv H1 H2 H3 Hs Hb. rewrite H1 in Hs. unfold StartLoop in Hs.
    destruct (send_ok (c_codec c) fits Hcar 0 req Hp) as (b1 & E1 & E2). rewrite E1 in Hs.
    injection Hs as <- <-.
    destruct (opening_step (c_codec c) fits (c_hook c) (c_machine c costs) Hcar w req
      (mkSystem (mkNode (next 0) w NLoop) (mkArwen 0 AIdle) (p_in p ++ ps) (p_out p)))
      as [A B]; [done..| |].
    - eapply op_request; cbn; try done. rewrite concat_app, H2, Hb. exact E2.
    - apply ends_later; [done|]. intros s' Hs'. eapply phase_ends; [apply Hcar|]. auto.
  Qed.

  Lemma ready_calm costs d req :
    asks fits req -> ready costs d ->
    proper fits (c_hook c) (d_world d) (c_machine c costs req) ->
    (exists d2, converses true c d req
       (Some (IOk (snd (in_process (c_hook c) (d_world d) (c_machine c costs req))))) d2)
    /\ forall r d2, converses true c d req r d2 ->
       r = Some (IOk (snd (in_process (c_hook c) (d_world d) (c_machine c costs req))))
       /\ d_world d2 = fst (in_process (c_hook c) (d_world d) (c_machine c costs req))
       /\ ready costs d2.
  Proof.
    intros Hq Hrd Hv. pose proof Hrd as (p & H1 & H2 & H3 & H4 & H5). split.
    - destruct (StartLoop (c_codec c) (p_nonce p) (d_world d) req) as [nd b] eqn:Es.
      pose proof (calm_dialogue costs (d_world d) req p nd b [b] Hq Hv H3 H4 H5 Es (app_nil_r b)) as He.
      destruct (ends_reach _ _ _ He) as (s & E1 & E2). destruct E2 as (E2 & E3 & E4 & E5).
      eexists. eapply (cv_done true c d req costs _ p nd b [b] s); try done.
      + apply app_nil_r.
      + by apply steps_calm.
      + rewrite E2. done.
    - intros r d2 Hcv.
      destruct (ready_ask _ _ _ _ _ _ Hq Hrd Hcv) as [Hbad|(y & Hy & Hin & Hrz)].
      + exfalso. destruct Hbad as [e ->].
        inversion Hcv as [|costs' a' p' nd b ps x r A1 A2 A3 A4 A5 A6|]; subst; [congruence|].
        rewrite H1 in A1. injection A1 as <- <-. rewrite H2 in A2. injection A2 as <-.
        pose proof (calm_dialogue costs (d_world d) req p nd _ ps Hq Hv H3 H4 H5 A3 eq_refl) as He.
        apply calm_steps in A5. pose proof (ends_run _ _ _ _ He A5) as He'.
        destruct (ends_reach _ _ _ He') as (s & E1 & (E2 & _)).
        pose proof (proj1 (done_stays _ _ _ E1) _ (or_introl A6)) as Hst.
        rewrite <- Hst, E2 in A6. discriminate.
      + subst r.
        destruct (in_process _ _ _) as [w' r'] eqn:Ein. injection Hin as E1 E2. subst y. cbn [fst snd].
        split_and!; [done|done|].
        destruct Hrz as [Hr|Hz]; [done|]. exfalso.
        inversion Hcv as [|costs' a' p' nd b ps x r A1 A2 A3 A4 A5 A6|]; subst.
        destruct Hz as (? & ? & p2 & Z1 & Z2 & Z3 & Z4). cbn in Z1. injection Z1 as <- <-.
        rewrite H1 in A1. injection A1 as <- <-. rewrite H2 in A2. injection A2 as <-.
        pose proof (calm_dialogue costs (d_world d) req p nd _ ps Hq Hv H3 H4 H5 A3 eq_refl) as He.
        apply calm_steps in A5. pose proof (ends_run _ _ _ _ He A5) as He'.
        destruct (ends_reach _ _ _ He') as (s & F1 & (_ & F2 & _)).
        pose proof (proj2 (done_stays _ _ _ F1) Z3) as Hg. unfold gone in Hg.
        rewrite F2 in Hg. discriminate.
  Qed.

  (** The process waits for requests, or will be started by the next one. *)
  Definition dcalm (costs : S) (d : driver W S) : Prop :=
    ready costs d \/ d_proc d = PReaped.

  Lemma belongs_asserted req r : built r -> belongs req r -> asserted req r = true.
  Proof.
    intros (Ht & _) Hb. unfold asserted. rewrite Ht.
    destruct Hb as [[-> ->]|[[-> ->]|[[->| ->] ->]]]; reflexivity.
  Qed.

  Lemma proper_says w t : proper fits (c_hook c) w t -> built (snd (in_process (c_hook c) w t)).
  Proof.
    revert w. induction t as [r|q k IH]; intros w Hp.
    - destruct Hp as [[_ Hb] _]. done.
    - destruct Hp as (_ & _ & _ & Hp). apply IH in Hp. cbn [in_process].
      destruct (c_hook c w q) as [w' a]. done.
  Qed.

  Definition begun (d : driver W S) (w : W) : Prop :=
    d_proc d = PReaped /\ w = c_clear c (d_world d) \/ d_proc d <> PReaped /\ w = d_world d.

  Lemma calm_restart d :
    dcalm (d_args d) d ->
    exists d1, RestartArwenIfNecessary c FNone d = Some (d1, true)
      /\ ready (d_args d) d1 /\ d_args d1 = d_args d /\ begun d (d_world d1).
  Proof.
    intros [Hr|Hr].
    - exists d. split_and!; [|done|done|].
      + destruct Hr as (p & H1 & _). unfold RestartArwenIfNecessary, IsClosed. rewrite H1. done.
      + right. destruct Hr as (p & H1 & _). rewrite H1. done.
    - eexists. split_and!.
      + unfold RestartArwenIfNecessary, IsClosed. rewrite Hr. reflexivity.
      + apply new_ready.
      + done.
      + left. done.
  Qed.

  Lemma calm_ask d req :
    asks fits req -> serves fits c req -> dcalm (d_args d) d ->
    exists w, begun d w /\
    let '(w', r) := in_process (c_hook c) w (c_machine c (d_args d) req) in
    (exists d', act true c d (OAsk req) (Answer r) d')
    /\ forall x d', act true c d (OAsk req) x d' ->
       x = Answer r /\ d_world d' = w' /\ ready (d_args d) d' /\ d_args d' = d_args d.
  Proof.
    intros Hq Hs Hd. destruct (calm_restart d Hd) as (d1 & E & Hr & Ha & Hb).
    exists (d_world d1). split; [done|].
    destruct (Hs (d_args d) (d_world d1)) as [Hp Hbl].
    pose proof (proper_says _ _ Hp) as Hbu.
    destruct (ready_calm _ d1 req Hq Hr Hp) as [(d2 & Hex) Hall].
    destruct (in_process _ _ _) as [w' r]. cbn [fst snd] in *.
    pose proof (belongs_asserted req r Hbu Hbl) as Has. split.
    - exists d2.
      pose proof (act_ask_ok true c d req FNone d1 r d2 (fun _ => eq_refl) E Hex) as K.
      rewrite Has in K. exact K.
    - intros x d' Hact.
      inversion Hact as [? f E'|? f d1' Hf E'|? f d1' e d2' Hf E' Hv|? f d1' y d2' Hf E' Hv|? f d1' d2' Hf E' Hv
        | | | | | | | |]; subst.
      + exfalso. destruct Hd as [(p & Hpr & _)|Hpr]; unfold RestartArwenIfNecessary, IsClosed in E'; rewrite Hpr in E'; discriminate.
      + rewrite (Hf eq_refl), E in E'. discriminate.
      + rewrite (Hf eq_refl), E in E'. injection E' as <-.
        destruct (Hall _ _ Hv) as [? _]. discriminate.
      + rewrite (Hf eq_refl), E in E'. injection E' as <-.
        destruct (Hall _ _ Hv) as (K1 & K2 & K3). injection K1 as ->. rewrite Has.
        split_and!; [done|done|done|].
        rewrite (proj1 (converse_keeps _ _ _ _ _ Hv)). done.
      + rewrite (Hf eq_refl), E in E'. injection E' as <-.
        destruct (Hall _ _ Hv) as [? _]. discriminate.
  Qed.

  Lemma closed_reaped (d : driver W S) costs a : d_proc d = PStarted costs a -> d_proc (closed d) = PReaped.
  Proof. intros H. unfold closed, Close. rewrite H. done. Qed.

  Lemma calm_act d o x d' :
    (match o with OAsk req => asks fits req /\ serves fits c req | _ => True end) ->
    dcalm (d_args d) d -> act true c d o x d' ->
    dcalm (d_args d') d' /\ d_args d' = match o with OSchedule s => s | _ => d_args d end.
  Proof.
    intros Hq Hd Ha. destruct o as [req|s| |].
    - destruct Hq as [Hq Hs]. destruct (calm_ask d req Hq Hs Hd) as (w & _ & K).
      destruct (in_process _ _ _) as [w' r]. destruct K as [_ K].
      destruct (K _ _ Ha) as (_ & _ & K1 & K2). rewrite K2. split; [by left|done].
    - assert (dinv (d_args d) d) as Hi by (unfold dinv, dcalm in *; tauto).
      destruct (schedule_inv _ _ _ _ _ Hi Ha) as [_ B]. split; [|done]. right.
      inversion Ha as [| | | | |? f E|? f d1 Hf E|? f d1 e d2 Hf E Hv|? f d1 r d2 Hf E Hv|? f d1 d2 Hf E Hv
        | | |]; subst.
      + exfalso. destruct Hd as [(p & Hpr & _)|Hpr]; unfold RestartArwenIfNecessary, IsClosed in E;
          cbn [with_args d_proc] in E; rewrite Hpr in E; discriminate.
      + exfalso. rewrite (Hf eq_refl) in E. unfold RestartArwenIfNecessary in E.
        destruct (IsClosed _) as [[]|]; cbn in E; discriminate.
      + assert (exists costs a, d_proc d1 = PStarted costs a) as (costs & a & Hp).
        { rewrite (Hf eq_refl) in E. unfold RestartArwenIfNecessary, IsClosed in E.
          cbn [with_args d_proc] in E. destruct Hd as [(p & Hpr & _)|Hpr]; rewrite Hpr in E;
            injection E as <-; cbn; eauto. }
        destruct (proj2 (converse_keeps _ _ _ _ _ Hv) _ _ Hp) as [a' Hp'].
        by eapply closed_reaped.
      + destruct (change_fails _ _ _ _ _ _ _ _ Hi E Hv) as [_ [e A]]. discriminate.
      + destruct (change_fails _ _ _ _ _ _ _ _ Hi E Hv) as [_ [e A]]. discriminate.
    - inversion Ha as [| | | | | | | | | | |? ? E|]; subst; [done|].
      unfold Close in E. destruct Hd as [(p & Hpr & _)|Hpr]; rewrite Hpr in E; injection E as <- <-.
      + split; [by right|done].
      + split; [by right|done].
    - inversion Ha. discriminate.
  Qed.

  Lemma calm_runs f args w d0 h d :
    NewArwenDriver c f args w = Some d0 -> serving fits c h -> runs true c d0 h d ->
    dcalm (d_args d) d /\ d_args d = last_schedule args h.
  Proof.
    intros Hn Hh Hr. apply new_inv in Hn as [Hn1 Hn2].
    induction Hr as [|h d1 o x d2 Hr IH Ha].
    - rewrite Hn2. split; [by left|done].
    - apply Forall_app in Hh as [Hh Ho]. specialize (IH Hh) as [I1 I2].
      apply Forall_inv in Ho. cbn [fst] in Ho.
      destruct (calm_act _ _ _ _ Ho I1 Ha) as [A B]. split; [done|].
      rewrite last_schedule_snoc, B, I2. done.
  Qed.

  Lemma undisturbed f args w d0 h d req :
    NewArwenDriver c f args w = Some d0 -> serving fits c h -> runs true c d0 h d ->
    asks fits req -> serves fits c req ->
    exists w, (w = d_world d \/ w = c_clear c (d_world d)) /\
    let '(w', r) := in_process (c_hook c) w (c_machine c (last_schedule args h) req) in
    (exists d', act true c d (OAsk req) (Answer r) d')
    /\ forall x d', act true c d (OAsk req) x d' -> x = Answer r /\ d_world d' = w'.
  Proof.
    intros Hn Hh Hr Hq Hs. destruct (calm_runs _ _ _ _ _ _ Hn Hh Hr) as [I1 I2].
    destruct (calm_ask d req Hq Hs I1) as (w1 & Hb & K). exists w1.
    split; [destruct Hb as [[_ ?]|[_ ?]]; auto|].
    rewrite I2 in K. destruct (in_process _ _ _) as [w' r]. destruct K as [K1 K2].
    split; [done|]. intros x d' Ha. destruct (K2 _ _ Ha) as (? & ? & _). done.
  Qed.

  Lemma critical_reaped d req d1 :
    act true c d (OAsk req) Critical d1 -> d_proc d1 = PReaped.
  Proof.
    intros Ha.
    inversion Ha as [|? f d2 Hf E|? f d2 e d3 Hf E Hv|? f d2 r d3 Hf E Hv| | | | | | | | |]; subst.
    - exfalso. rewrite (Hf eq_refl) in E. unfold RestartArwenIfNecessary in E.
      destruct (IsClosed _) as [[]|]; cbn in E; discriminate.
    - assert (exists costs a, d_proc d2 = PStarted costs a) as (costs & a & Hp).
      { rewrite (Hf eq_refl) in E. unfold RestartArwenIfNecessary, IsClosed in E.
        destruct (d_proc d) eqn:Ep; [discriminate| |]; injection E as <-; cbn; eauto. }
      destruct (proj2 (converse_keeps _ _ _ _ _ Hv) _ _ Hp) as [a' Hp'].
      by eapply closed_reaped.
    - match goal with H : _ = Critical |- _ => revert H end.
      destruct (asserted req r); discriminate.
  Qed.

  Lemma second_answered f args w d0 h d req1 d1 req :
    NewArwenDriver c f args w = Some d0 -> asking fits h -> runs false c d0 h d ->
    asks fits req1 -> act true c d (OAsk req1) Critical d1 ->
    asks fits req -> serves fits c req ->
    let '(w', r) := in_process (c_hook c) (c_clear c (d_world d1))
                      (c_machine c (last_schedule args h) req) in
    (exists d', act true c d1 (OAsk req) (Answer r) d')
    /\ forall x d', act true c d1 (OAsk req) x d' -> x = Answer r /\ d_world d' = w'.
  Proof.
    intros Hn Hh Hr Hq1 Ha Hq Hs. destruct (runs_inv _ _ _ _ _ _ Hn Hh Hr) as [I1 I2].
    destruct (ask_inv _ _ _ _ _ Hq1 I1 Ha) as (_ & Hargs & _).
    pose proof (critical_reaped _ _ _ Ha) as Hp.
    destruct (calm_ask d1 req Hq Hs (or_intror Hp)) as (w1 & [[_ ->]|[Hb _]] & K); [|done].
    rewrite Hargs, I2 in K. destruct (in_process _ _ _) as [w' r]. destruct K as [K1 K2].
    split; [done|]. intros x d' Ha'. destruct (K2 _ _ Ha') as (? & ? & _). done.
  Qed.

  (** * What does not go well *)

  Lemma exited_lost f args w d0 x d1 req :
    NewArwenDriver c f args w = Some d0 -> act false c d0 OExit x d1 ->
    asks fits req ->
    (exists d2, act true c d1 (OAsk req) Critical d2)
    /\ forall y d2, act true c d1 (OAsk req) y d2 -> y = Critical.
  Proof.
    intros Hn Ha Hq. apply new_inv in Hn as [Hn1 Hn2].
    inversion Ha as [| | | | | | | | | | | |? ? n Hf E]; subst.
    destruct Hn1 as (p & H1 & H2 & H3 & H4 & H5).
    rewrite H1 in E. injection E as <- <-. rewrite H2.
    set (d1 := mkDriver _ _ _ _).
    assert (RestartArwenIfNecessary c FNone d1 = Some (d1, true)) as Hre by done.
    assert (zombie d1) as Hz by (eexists _, _, p; done).
    split.
    - destruct (send_ok (c_codec c) fits Hcar 0 req (proj1 Hq)) as (b1 & E1 & E2).
      eexists. eapply (act_ask_failed true c d1 req FNone d1 EEof); [done|done|].
      eapply (cv_done true c d1 req (d_args d0) (dead n) p (mkNode (next 0) (d_world d0) NLoop) b1 [b1]);
        [done|done| |apply app_nil_r| |].
      + unfold StartLoop. rewrite H3, E1. done.
      + eapply rtc_once, mv_step.
        eapply (step_node _ _ _ _ (next 0) (IErr EEof) [] (node_end (d_world d0) (IErr EEof)) [] []);
          [done| |right; done|done|done].
        cbn [s_node n_nonce to_node]. by apply receive_nothing.
      + done.
    - intros y d2 Hact.
      inversion Hact as [? f' E'|? f' d1' Hf' E'|? f' d1' e d2' Hf' E' Hv|? f' d1' r d2' Hf' E' Hv|? f' d1' d2' Hf' E' Hv
        | | | | | | | |]; subst.
      + discriminate.
      + done.
      + done.
      + injection E' as <-. destruct (zombie_fails _ _ _ _ _ Hz Hv) as [e ?]. discriminate.
      + injection E' as <-. destruct (zombie_fails _ _ _ _ _ Hz Hv) as [e ?]. discriminate.
  Qed.

  Lemma nil_panics calm d o x d' :
    d_proc d = PNil -> act calm c d o x d' -> x = Panicked /\ d_proc d' = PNil.
  Proof.
    intros Hp Ha.
    assert (forall f, RestartArwenIfNecessary c f d = None) as K1
      by (intros; unfold RestartArwenIfNecessary, IsClosed; rewrite Hp; done).
    assert (forall f s, RestartArwenIfNecessary c f (with_args s d) = None) as K2
      by (intros; unfold RestartArwenIfNecessary, IsClosed; cbn; rewrite Hp; done).
    assert (Close d = None) as K3 by (unfold Close; rewrite Hp; done).
    destruct Ha; try done; try (rewrite K1 in *; discriminate);
      try (rewrite K2 in *; discriminate); try (rewrite K3 in *; discriminate); congruence.
  Qed.

  Lemma unstarted_panics f args w d0 req :
    NewArwenDriver c f args w = Some d0 ->
    exists d, runs false c d0 [(OClose, Nothing); (OAsk req, Critical)] d
    /\ (forall req, exists d', act true c d (OAsk req) Panicked d')
    /\ forall calm h d', runs calm c d h d' -> Forall (fun e => snd e = Panicked) h.
  Proof.
    intros Hn. apply new_inv in Hn as [(p & H1 & H2 & _) Hn2].
    set (d1 := mkDriver (d_args d0) (d_world d0) PReaped (Some p) : driver W S).
    set (d2 := mkDriver (d_args d0) (d_world d0) PNil None : driver W S).
    exists d2. split_and!.
    - change ([(OClose, Nothing); (OAsk req, Critical)])
        with (([] ++ [(OClose, Nothing)]) ++ [(OAsk req, Critical)] : list (op S * outcome)).
      eapply (runs_more _ _ _ _ d1).
      + eapply runs_more; [apply runs_none|].
        apply (act_close false c d0 d1 true). unfold Close. rewrite H1, H2. done.
      + apply (act_ask_unstarted false c d1 req FStart d2); [discriminate|done].
    - intros req'. exists d2. eapply (act_ask_nil true c d2 req' FNone). done.
    - intros calm h d' Hr.
      assert (Forall (fun e => snd e = Panicked) h /\ d_proc d' = PNil) as [? _]; [|done].
      induction Hr as [|h d3 o x d4 Hr [IH1 IH2] Ha]; [done|].
      destruct (nil_panics _ _ _ _ _ IH2 Ha) as [-> A]. split; [|done].
      apply Forall_app. split; [done|]. apply Forall_singleton. done.
  Qed.
End Driver.
