(** C61: results and events are recorded exactly as reported. *)
From Verif Require Import VmModel CodecSpec BigSpec IdentSpec QuerySpec QueryProofs ResultSpec ResultProofs ExEnv ExSafe.

(** A reported result is appended to the results, with the bytes the contract
    gave or the shortest form of its number; nothing else changes. *)
Theorem C61_results_appended : forall `{E : env} fuel c h m d,
  counting h -> cur_mem h = ROk m -> blen (m_data m) <= max_i32 -> reported h (m_data m) c d ->
  exists h', vmApi fuel c h = (h', OOk 0) /\ cur_mem h' = ROk m /\
    (forall y, bval (h_big h') y = bval (h_big h) y) /\ only_own (with_result d h) h'.
Proof. intros E fuel c h m d. apply c61_result. Qed.
Print Assumptions C61_results_appended.

(** An event is appended to the events under the contract's address, its first
    topic as identifier; in a read-only call it is not, and nothing else
    changes either. *)
Theorem C61_events_appended : forall `{E : env} fuel c h m topics data,
  counting h -> cur_mem h = ROk m -> blen (m_data m) <= max_i32 -> announced (m_data m) c topics data ->
  exists h', vmApi fuel c h = (h', OOk 0) /\ cur_mem h' = ROk m /\
    (forall y, bval (h_big h') y = bval (h_big h) y) /\
    only_own (if r_ro (h_rt h) then h else with_event (event_entry (r_addr (h_rt h)) topics data) h) h'.
Proof. intros E fuel c h m ts d. apply c61_event. Qed.
Print Assumptions C61_events_appended.

(** Bytes 1 to 3 of "hello", the number -256 and handle 3 (1000) reported by a
    contract that has one result already; two events, one with a topic vector
    (lengths 2 and 3, the strings after them). *)
Example C61_results_ex :
  counting safeHost /\ exists m, cur_mem safeHost = ROk m /\
  reported safeHost (m_data m) (A_finish 1 3) (str "ell") /\
  reported safeHost (m_data m) (A_int64finish (-256)) [zb 255; zb 0] /\
  reported safeHost (m_data m) (A_bigIntFinishUnsigned 3) [zb 3; zb 232] /\
  match vmApi (E := safeEnv) 1 (A_int64finish (-256)) safeHost with
  | (h', OOk r) => r = 0 /\ o_retdata (h_out h') = [str "ret"; [zb 255; zb 0]]
  | _ => False
  end.
Proof.
  split; [exists 0%nat, (ex_inst (str "hello")); repeat split; discriminate|].
  exists (in_mem (ex_inst (str "hello"))). split; [reflexivity|].
  split; [right; repeat split; vm_compute; intuition discriminate|].
  split; [apply signed_bytes_is; vm_compute; reflexivity|].
  split; [apply unsigned_bytes_is; vm_compute; reflexivity|]. vm_compute. split; reflexivity.
Qed.

Definition topic_memory : bytes := [zb 2; zb 0; zb 0; zb 0; zb 3; zb 0; zb 0; zb 0] ++ str "hello".
Example C61_events_ex :
  announced topic_memory (A_writeEventLog 2 0 8 11 2) [str "he"; str "llo"] (str "lo") /\
  announced (replicate 64 (zb 7)) (A_writeLog 0 0 0 2) [replicate 32 (zb 7); replicate 32 (zb 7)] [] /\
  match vmApi (E := safeEnv) 1 (A_writeEventLog 2 0 8 11 2) (ex_running topic_memory (h_world safeHost)) with
  | (h', OOk r) => r = 0 /\ o_logs (h_out h') = [mkLog (addr "s") (str "he") [str "llo"] (str "lo")]
  | _ => False
  end.
Proof.
  split.
  { split; [right; repeat split; vm_compute; intuition discriminate|]. split; [|split; [vm_compute; discriminate|vm_compute; reflexivity]].
    vm_compute. intuition discriminate. }
  split.
  { split; [left; split; reflexivity|]. split; [vm_compute; discriminate|]. split; [vm_compute; discriminate|]. split; [vm_compute; reflexivity|].
    intros j t Hj. destruct j as [|[|j]]; [| |discriminate Hj]; injection Hj as <-; right; repeat split; vm_compute; intuition discriminate. }
  vm_compute. split; reflexivity.
Qed.
