(** C78: reading a scenario file.  [files] is the content of the files an
    expression may name, [keccak] the hash function. *)
From Verif Require Import Base JsonModel JsonSpec ScenModel ScenParseModel FileSpec FileStepProofs ExRewrite ExFile.
From stdpp Require Import list.
Local Open Scope Z_scope.

(** C78: a file is read, and as this scenario, exactly if it is a document whose
    fields say this scenario: every field has a known key, a field that is given
    says its part of the scenario, a field that is missing leaves the default. *)
Theorem C78_read :
  forall files keccak text s,
  ParseScenarioFile files keccak text = SOk s <->
  exists v, lax_document text v /\ scenario_said files keccak v s.
Proof. intros files keccak text s. exact (file_iff files keccak text s). Qed.
Print Assumptions C78_read.

Example C78_read_ex :
  ParseOrderedJSON small_text = JOk (Some small_value) /\
  ParseScenarioFile no_files no_hash small_text = SOk small_scenario /\
  scenario_said no_files no_hash small_value small_scenario /\
  ParseScenarioFile no_files no_hash full_text = SOk (read_of full_text).
Proof.
  split; [vm_compute; reflexivity|]. split; [vm_compute; reflexivity|]. split; [|vm_compute; reflexivity].
  assert (H : ParseScenarioFile no_files no_hash small_text = SOk small_scenario) by (vm_compute; reflexivity).
  apply C78_read in H as (v & Hv & H). apply JsonParseProofs.lax_accepted in Hv.
  assert (E : ParseOrderedJSON small_text = JOk (Some small_value)) by (vm_compute; reflexivity).
  rewrite E in Hv. injection Hv as <-. exact H.
Qed.

(** C78: the order of the fields of a step matters: the reader crashes on an
    expectation that is written before its transaction. *)
Theorem C78_order_refuted : exists before after a b,
  ParseOrderedJSON before = JOk (Some (JMap [(str "steps", JList [JMap [a; b; (str "tx", JMap [(str "to", JStr (str "address:bob")); (str "function", JStr (str "f"))])]])])) /\
  ParseOrderedJSON after = JOk (Some (JMap [(str "steps", JList [JMap [a; (str "tx", JMap [(str "to", JStr (str "address:bob")); (str "function", JStr (str "f"))]); b]])])) /\
  ParseScenarioFile no_files no_hash before = SPanic /\
  exists s, ParseScenarioFile no_files no_hash after = SOk s.
Proof.
  exists tx_last, tx_first, (str "step", JStr (str "scQuery")),
    (str "expect", JMap [(str "status", JStr (str "4"))]).
  split; [vm_compute; reflexivity|]. split; [vm_compute; reflexivity|]. split; [vm_compute; reflexivity|].
  exists (read_of tx_first). vm_compute. reflexivity.
Qed.
Print Assumptions C78_order_refuted.
