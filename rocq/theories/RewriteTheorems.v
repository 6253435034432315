(** C76: writing out a scenario that has been read.  [files] is the content of
    the files an expression may name, [keccak] the hash function. *)
From Verif Require Import Base ScenModel WorldModel ScenParseModel ScenWriteModel RewriteSpec
  RewriteProofs RewriteRunProofs ExWorld ExRewrite.
From stdpp Require Import gmap.
Local Open Scope Z_scope.

(** C76, except for what [kept] excludes: the scenario read from a file can be
    written, the text written can be read, and what it says is what the file
    said. *)
Theorem C76_rewritten_partial :
  forall files keccak text s,
  ParseScenarioFile files keccak text = SOk s -> kept s ->
  exists text' s', ScenarioToJSONString s = SOk text' /\
    ParseScenarioFile files keccak text' = SOk s' /\ p_scenario s' = p_scenario s.
Proof. intros files keccak text s. exact (rewritten files keccak text s). Qed.
Print Assumptions C76_rewritten_partial.

Example C76_rewritten_partial_ex :
  ParseScenarioFile no_files no_hash full_text = SOk (read_of full_text) /\ kept (read_of full_text) /\
  length (s_steps (read_of full_text)) = 7%nat /\ again full_text <> full_text.
Proof.
  split; [vm_compute; reflexivity|]. split; [apply full_kept|]. split; [vm_compute; reflexivity|].
  apply (bool_decide_unpack _). vm_compute. exact I.
Qed.

(** C76, with the same exceptions: the scenario written out runs as the one that
    was read, in every world: it ends in the same world, and it passes, fails or
    panics alike. *)
Theorem C76_same_run_partial :
  forall files keccak text s (W : wenv) w,
  ParseScenarioFile files keccak text = SOk s -> kept s ->
  exists text' s', ScenarioToJSONString s = SOk text' /\
    ParseScenarioFile files keccak text' = SOk s' /\
    s_check_gas s' = s_check_gas s /\ s_gas s' = s_gas s /\
    ExecuteSteps (s_check_gas s') (s_steps s') w = ExecuteSteps (s_check_gas s) (s_steps s) w.
Proof.
  intros files keccak text s W w H K. destruct (rewritten files keccak text s H K) as (text' & s' & H1 & H2 & H3).
  exists text', s'. injection H3 as E1 E2 E3 E4 E5. rewrite E3. repeat split; try assumption.
  apply same_run, E5.
Qed.
Print Assumptions C76_same_run_partial.

Example C76_same_run_partial_ex :
  kept (read_of uri_less_text) /\
  ExecuteSteps (W := silent) true (s_steps (read_of uri_less_text)) empty_world <> (empty_world, SOk tt) /\
  snd (ExecuteSteps (W := silent) true (s_steps (read_of uri_less_text)) empty_world) = SOk tt.
Proof.
  split; [apply uri_less_kept|]. split; [|vm_compute; reflexivity].
  intros H. apply (f_equal (fun r => bool_decide (mw_accts (fst r) = ∅))) in H. vm_compute in H. discriminate H.
Qed.

(** C76: the shard of an account is not written. *)
Theorem C76_shard_refuted : exists text s text' s',
  read text = SOk s /\ ScenarioToJSONString s = SOk text' /\ read text' = SOk s' /\
  p_scenario s' <> p_scenario s /\
  map wa_shard (map snd (map_to_list (mw_accts (fst (ExecuteSteps (W := silent) true (s_steps s) empty_world))))) = [1] /\
     map wa_shard (map snd (map_to_list (mw_accts (fst (ExecuteSteps (W := silent) true (s_steps s') empty_world))))) = [0].
Proof.
  exists shard_text, (read_of shard_text), (again shard_text), (read_of (again shard_text)).
  split; [vm_compute; reflexivity|]. split; [vm_compute; reflexivity|]. split; [vm_compute; reflexivity|].
  split; [intros H; vm_compute in H; discriminate H|]. split; vm_compute; reflexivity.
Qed.
Print Assumptions C76_shard_refuted.

(** C76: a token given by amount and last nonce is written as the amount. *)
Theorem C76_last_nonce_refuted : exists text s text' s',
  read text = SOk s /\ ScenarioToJSONString s = SOk text' /\ read text' = SOk s' /\
  p_scenario s' <> p_scenario s.
Proof.
  exists last_text, (read_of last_text), (again last_text), (read_of (again last_text)).
  split; [vm_compute; reflexivity|]. split; [vm_compute; reflexivity|]. split; [vm_compute; reflexivity|].
  intros H; vm_compute in H; discriminate H.
Qed.
Print Assumptions C76_last_nonce_refuted.

(** C76: the creator is written where the URI is to be checked: a scenario that
    passes fails when it is written out. *)
Theorem C76_uri_refuted : exists text s text' s',
  read text = SOk s /\ ScenarioToJSONString s = SOk text' /\ read text' = SOk s' /\
  snd (ExecuteSteps (W := silent) true (s_steps s) empty_world) = SOk tt /\
  snd (ExecuteSteps (W := silent) true (s_steps s') empty_world) = SErr.
Proof.
  exists uri_text, (read_of uri_text), (again uri_text), (read_of (again uri_text)).
  do 3 (apply conj; [vm_compute; reflexivity|]). apply conj; vm_compute; reflexivity.
Qed.
Print Assumptions C76_uri_refuted.

(** C76: a check that there is no creator is not written: a scenario that fails
    passes when it is written out. *)
Theorem C76_empty_creator_refuted : exists text s text' s',
  read text = SOk s /\ ScenarioToJSONString s = SOk text' /\ read text' = SOk s' /\
  snd (ExecuteSteps (W := silent) true (s_steps s) empty_world) = SErr /\
  snd (ExecuteSteps (W := silent) true (s_steps s') empty_world) = SOk tt.
Proof.
  exists empty_text, (read_of empty_text), (again empty_text), (read_of (again empty_text)).
  do 3 (apply conj; [vm_compute; reflexivity|]). apply conj; vm_compute; reflexivity.
Qed.
Print Assumptions C76_empty_creator_refuted.

(** C76: "+" alone among the tokens is not written. *)
Theorem C76_plus_refuted : exists text s text' s',
  read text = SOk s /\ ScenarioToJSONString s = SOk text' /\ read text' = SOk s' /\
  (exists c xs a, s_steps s = [CheckState c (Some xs)] /\ xs_accounts xs = [a] /\ x_more_esdt a = true) /\
  (exists c xs a, s_steps s' = [CheckState c (Some xs)] /\ xs_accounts xs = [a] /\ x_more_esdt a = false).
Proof.
  exists plus_text, (read_of plus_text), (again plus_text), (read_of (again plus_text)).
  split; [vm_compute; reflexivity|]. split; [vm_compute; reflexivity|]. split; [vm_compute; reflexivity|].
  split; [exists [], plus_check, plus_one|exists [], plain_check, plain_one];
    (apply conj; [vm_compute; reflexivity|apply conj; vm_compute; reflexivity]).
Qed.
Print Assumptions C76_plus_refuted.

(** C76: writing panics where an expected log lacks a field, and where a
    checkState step has no accounts. *)
Theorem C76_panic_refuted : exists text text' s s',
  read text = SOk s /\ ScenarioToJSONString s = SPanic /\
  read text' = SOk s' /\ ScenarioToJSONString s' = SPanic /\
  (exists ident c t r, s_steps s = [TxStep ident c t (Some r)]) /\ s_steps s' = [CheckState [] None].
Proof.
  exists log_text, no_accounts_text, (read_of log_text), (read_of no_accounts_text).
  split; [vm_compute; reflexivity|]. split; [vm_compute; reflexivity|]. split; [vm_compute; reflexivity|].
  split; [vm_compute; reflexivity|]. split; [|vm_compute; reflexivity].
  eexists _, _, _, _. vm_compute. reflexivity.
Qed.
Print Assumptions C76_panic_refuted.

(** C76: a transaction without a sender is read, and cannot be read again. *)
Theorem C76_no_sender_refuted : exists text s text',
  read text = SOk s /\ ScenarioToJSONString s = SOk text' /\ read text' = SErr.
Proof.
  exists no_sender_text, (read_of no_sender_text), (again no_sender_text).
  do 2 (apply conj; [vm_compute; reflexivity|]). vm_compute. reflexivity.
Qed.
Print Assumptions C76_no_sender_refuted.
