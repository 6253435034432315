(** Proofs for C97. *)
From Verif Require Import VmModel GasSpec AsyncSpec AsyncProofs PaidSpec.

Lemma pays_zero s d a : pays s d 0 a = 0.
Proof. unfold pays. repeat destruct (bool_decide _); reflexivity. Qed.

Lemma c97_unpaid `{E : env} h h' r : metered h -> vi_value (r_input (h_rt h)) = 0 ->
  sendCallbackToCurrentCaller h = (h', r) -> r <> OPanic ->
  exists pay sent, outcome_of h h' pay sent /\ (forall a, pay a = 0) /\
    (forall a t, t ∈ sent a -> a = vi_caller (r_input (h_rt h)) /\ ot_value t = 0).
Proof.
  intros Hm Hv H Hr. destruct (back_run h h' r Hm H Hr) as [_ [(-> & _ & data & _ & Ho)|(e & -> & Ho)]].
  - rewrite Hv in Ho. eexists _, _. split; [exact Ho|]. split; [intros a; apply pays_zero|].
    intros a t Ht. unfold sends in Ht. destruct (bool_decide (a = _)) eqn:Ha; [|apply elem_of_nil in Ht as []].
    apply bool_decide_eq_true in Ha. apply elem_of_list_singleton in Ht as ->. split; [exact Ha|reflexivity].
  - eexists _, _. split; [exact Ho|]. split; [reflexivity|]. intros a t Ht. apply elem_of_nil in Ht as [].
Qed.
