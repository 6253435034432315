(** Proofs for C98. *)
From Verif Require Import VmModel GasSpec OverSpec.

Section over.
Context `{E : env}.

Lemma points_spent h : points_of h = spent h.
Proof. unfold points_of, spent. destruct (h_cur h); [|reflexivity]. reflexivity. Qed.

Lemma final_ok h h' :
  e_v2 E = true -> checkFinalGasAfterExit h = (h', OOk tt) -> h' = h /\ spent h <= budget h.
Proof.
  intros V. unfold checkFinalGasAfterExit. rewrite V. cbn. unfold fail_if. rewrite points_spent. unfold budget.
  destruct (Z.ltb_spec (mt_forexec (h_met h)) (spent h)); cbn; intros X; inversion X; subst. split; [reflexivity|lia].
Qed.

Lemma over_call run rd h h' :
  e_v2 E = true -> vi_ctype (r_input (h_rt h)) <> AsynchronousCallBack ->
  callSCMethod run rd h = (h', OOk tt) ->
  exists p h1, exports_now h (r_fn (h_rt h)) p /\ ran_within run rd p h h1.
Proof.
  intros V N. unfold callSCMethod, verifyAllowedFunctionCall, bind, gets, fail_if.
  destruct (isInitName _); [discriminate|]. cbn -[bool_decide]. destruct (_ && _); [discriminate|]. cbn -[bool_decide].
  unfold try, getFunctionByCallType. rewrite bool_decide_eq_false_2 by exact N. cbn [negb].
  unfold GetFunctionToCall, bind, cur_inst, gets.
  destruct (h_cur h) as [c|] eqn:Hc; [|discriminate].
  destruct (h_insts h !! c) as [x|] eqn:Hx; [|discriminate].
  destruct (export (in_mod x) (r_fn (h_rt h))) as [p|] eqn:Hp.
  - cbn. destruct (callFunction run rd p h) as [h1 [[]|e| |]] eqn:Hf; try discriminate.
    destruct (checkFinalGasAfterExit h1) as [h2 [[]|e| |]] eqn:Hg; try discriminate.
    intros _. destruct (final_ok _ _ V Hg) as [_ L]. exists p, h1. split; [exists c, x; auto|]. split; assumption.
  - destruct (beq _ _); cbn -[bool_decide]; discriminate.
Qed.

Lemma over_init run rd h h' :
  e_v2 E = true -> callInitFunction run rd h = (h', OOk tt) ->
  h' = h \/ exists p, exports_now h InitFunctionName p /\ ran_within run rd p h h'.
Proof.
  intros V. unfold callInitFunction, GetInitFunction, bind, cur_inst.
  destruct (h_cur h) as [c|] eqn:Hc; [|discriminate].
  destruct (h_insts h !! c) as [x|] eqn:Hx; [|discriminate]. cbn -[InitFunctionName].
  destruct (export (in_mod x) InitFunctionName) as [p|] eqn:Hp.
  - destruct (callFunction run rd p h) as [h1 [[]|e| |]] eqn:Hf; try discriminate.
    intros Hg. destruct (final_ok _ _ V Hg) as [-> L]. right. exists p. split; [exists c, x; auto|]. split; assumption.
  - intros X; inversion X; auto.
Qed.
End over.
