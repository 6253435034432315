(** The property theorems about the message pipes. *)
From Verif Require Import Base IpcModel IpcSpec IpcProofs ExIpc.
From stdpp Require Import relations.
Open Scope Z_scope.

(** C50: any messages sent over a pipe one after the other are received intact
    and in order, in whatever pieces the bytes arrive and whatever follows
    them; sender and receiver agree on the nonce afterwards. *)
Theorem C50_intact :
  forall C fits nonce cs, carries C fits -> Forall (passes fits) cs ->
  exists nonce' frames, SendMany C nonce cs = (nonce', map IOk frames) /\
  forall pieces behind, concat pieces = concat frames ++ behind ->
  exists rest,
    ReceiveMany C nonce (length cs) pieces
    = (nonce', map IOk (numbered nonce cs), rest)
    /\ concat rest = behind.
Proof.
  intros C fits nonce cs HC Hp.
  destruct (send_total C fits cs nonce HC Hp) as (n' & bs & H).
  exists n', bs. split; [exact H|]. intros pieces behind Hcat.
  exact (intact C fits nonce cs n' bs pieces behind HC Hp H Hcat).
Qed.
Print Assumptions C50_intact.

Example C50_intact_ex :
  carries tiny small
  /\ Forall (passes small) [some KContractCallRequest "one"; some KStop "two"]
  /\ match SendMany tiny 4294967295
             [some KContractCallRequest "one"; some KStop "two"] with
     | (n, [IOk a; IOk b]) =>
         n = 1 /\ length (a ++ b) = 46%nat
         /\ fst (ReceiveMany tiny 4294967295 2
                   (map (fun x => [x]) (a ++ b)))
            = (1, [IOk (mkMsg 0 (some KContractCallRequest "one"));
                   IOk (mkMsg 1 (some KStop "two"))])
     | _ => False
     end.
Proof.
  split; [exact tiny_carries|]. split; [|vm_compute; repeat split].
  constructor; [|constructor; [|constructor]];
    apply some_passes; vm_compute; reflexivity.
Qed.

(** C50: messages that arrive in any order, duplicated, replayed or with some
    missing: exactly those are delivered that carry the next number at the time
    they arrive; all others are rejected and change nothing. *)
Theorem C50_rejects :
  forall C fits nonce ms frames pieces behind,
  carries C fits ->
  Forall (fun m => passes fits (g_content m) /\ 0 <= g_nonce m < 4294967296) ms ->
  Forall2 (fun m b => Sender_Send C m = IOk b) ms frames ->
  concat pieces = concat frames ++ behind ->
  exists nonce' rest,
    ReceiveMany C nonce (length ms) pieces = (nonce', judged nonce ms, rest)
    /\ concat rest = behind.
Proof. exact any_judged. Qed.
Print Assumptions C50_rejects.

Example C50_rejects_ex :
  let call := some KContractCallRequest "x" in
  judged 7 [mkMsg 8 call; mkMsg 8 call; mkMsg 10 call; mkMsg 9 call;
            mkMsg 7 call; mkMsg 10 call]
  = [IOk (mkMsg 8 call); IErr EInvalidMessageNonce; IErr EInvalidMessageNonce;
     IOk (mkMsg 9 call); IErr EInvalidMessageNonce; IOk (mkMsg 10 call)].
Proof. vm_compute. reflexivity. Qed.

(** C50: while the virtual machine waits for an answer, a message with another
    number than the next one is taken for a failed call, whatever it says. *)
Theorem C50_stray_answer :
  forall (W : Type) C fits (hook : W -> content -> W * content) vm nd n k m frame pieces behind out,
  carries C fits -> passes fits (g_content m) -> 0 <= g_nonce m < 4294967296 ->
  Sender_Send C m = IOk frame -> concat pieces = frame ++ behind -> g_nonce m <> next n ->
  let '(a, bytes) := advance C n (k (IErr ECannotReceiveHookCallResponse)) in
  exists rest, concat rest = behind /\
    step C hook vm (mkSystem nd (mkArwen n (AAsk k)) pieces out) (mkSystem nd a rest (out ++ [bytes])).
Proof. intros W. exact stray. Qed.
Print Assumptions C50_stray_answer.

(** a copy of answer 3 arrives when answer 5 is awaited; the machine reports the failure *)
Example C50_stray_answer_ex :
  let m := mkMsg 3 (some KBlockchainGetCodeResponse "old") in
  passes small (g_content m) /\ g_nonce m <> next 4 /\
  match Sender_Send tiny m with
  | IOk frame =>
      let k r := Say (match r with IOk c => c | IErr _ => some KContractResponse "failed" end) in
      fst (arwen_take tiny asking_vm (mkArwen 4 (AAsk k)) (fst (Receive tiny 4 [frame]))) = mkArwen 0 AIdle /\
      snd (arwen_take tiny asking_vm (mkArwen 4 (AAsk k)) (fst (Receive tiny 4 [frame]))) =
      snd (advance tiny 4 (Say (some KContractResponse "failed")))
  | IErr _ => False
  end.
Proof. split; [apply some_passes; vm_compute; reflexivity|]. split; [vm_compute; discriminate|]. vm_compute. split; reflexivity. Qed.

(** C50: whatever bytes arrive, and whatever the marshalizer does with them, the
    messages delivered by a messenger carry the numbers that follow its nonce,
    each one more than the one before. *)
Theorem C50_consecutive :
  forall C nonce k pieces nonce' rs rest,
  ReceiveMany C nonce k pieces = (nonce', rs, rest) ->
  map g_nonce (delivered rs) = following nonce (length (delivered rs))
  /\ nonce' = List.last (map g_nonce (delivered rs)) nonce.
Proof. intros C nonce k. exact (delivered_following C k nonce). Qed.
Print Assumptions C50_consecutive.

Example C50_consecutive_ex :
  following 4294967293 4 = [4294967294; 4294967295; 0; 1].
Proof. vm_compute. reflexivity. Qed.

(** C50: no number is delivered twice, in fewer than 2^32 messages. *)
Theorem C50_once :
  forall C nonce k pieces nonce' rs rest,
  ReceiveMany C nonce k pieces = (nonce', rs, rest) ->
  Z.of_nat (length (delivered rs)) <= 4294967296 ->
  NoDup (map g_nonce (delivered rs)).
Proof.
  intros C nonce k pieces nonce' rs rest H Hl.
  destruct (delivered_following C k _ _ _ _ _ H) as [-> _].
  apply following_nodup. exact Hl.
Qed.
Print Assumptions C50_once.

(** C50: a whole dialogue.  The node sends a request to a virtual machine that
    asks the node's hook whatever questions the node answers, in messages that
    the marshalizer can carry.  In whatever
    pieces the bytes travel and in whatever order the two processes move, every
    run comes to an end, and there the node holds the very response, and its
    world is in the very state, that the same machine gives with the hook
    called directly; both sides are ready for the next dialogue and nothing is
    left on the pipes. *)
Theorem C50_dialogue :
  forall (W : Type) C fits (hook : W -> content -> W * content) vm w req,
  carries C fits ->
  passes fits req -> request req -> proper fits hook w (vm req) ->
  forall n bytes pieces,
  StartLoop C 0 w req = (n, bytes) -> concat pieces = bytes ->
  ends (step C hook vm)
    (fun s =>
       let '(w', r) := in_process hook w (vm req) in
       s_node s = mkNode 0 w' (NDone (IOk r))
       /\ s_arwen s = mkArwen 0 AIdle
       /\ concat (to_arwen s) = [] /\ concat (to_node s) = [])
    (mkSystem n (mkArwen 0 AIdle) pieces []).
Proof.
  intros W C fits hook vm w req HC Hp Hr Hv n b pieces Hs Hb.
  pose proof (dialogue C fits hook vm HC w req n b pieces Hp Hr Hv Hs Hb) as H.
  destruct (in_process hook w (vm req)) as [w' r]. exact H.
Qed.
Print Assumptions C50_dialogue.

Example C50_dialogue_ex :
  passes small (some KContractCallRequest "go")
  /\ request (some KContractCallRequest "go")
  /\ proper small echo 0%nat (asking_vm (some KContractCallRequest "go"))
  /\ in_process echo 0%nat (asking_vm (some KContractCallRequest "go"))
     = (2%nat, some KContractResponse "aabb").
Proof.
  split_and!.
  - apply some_passes; vm_compute; reflexivity.
  - right. left. reflexivity.
  - apply asking_proper.
  - vm_compute. reflexivity.
Qed.

(** C50, refuted across dialogues: the nonce starts again at zero with every
    dialogue, so a request recorded in one dialogue and replayed after it is
    delivered again. *)
Theorem C50_replay_refuted :
  forall C fits req, carries C fits -> passes fits req ->
  exists frame, Send C 0 req = (1, IOk frame) /\
  exists rest, Receive C 0 [frame] = (1, IOk (mkMsg 1 req), rest) /\
  exists rest', Receive C ResetDialogue [frame] = (1, IOk (mkMsg 1 req), rest').
Proof. exact replayed. Qed.
Print Assumptions C50_replay_refuted.

(** C50, refuted for changes of the gas schedule: nothing is registered for
    their kind, so the request arrives as an undefined message without its
    fields, the virtual machine crashes on it, and the node finds the pipe
    closed. *)
Theorem C50_gas_schedule_refuted :
  forall (W : Type) C fits (hook : W -> content -> W * content) vm w req,
  strips C fits -> fits req ->
  g_type req = TOf KGasScheduleChangeRequest ->
  g_kind req = KGasScheduleChangeRequest ->
  forall n bytes pieces,
  StartLoop C 0 w req = (n, bytes) -> concat pieces = bytes ->
  ends (step C hook vm)
    (fun s => n_at (s_node s) = NDone (IErr EEof) /\ a_at (s_arwen s) = APanic)
    (mkSystem n (mkArwen 0 AIdle) pieces []).
Proof.
  intros W C fits hook vm w req HC Hf Ht Hk n b pieces Hs Hb.
  exact (gas_schedule_ends C fits hook vm w req n b pieces HC Hf Ht Hk Hs Hb).
Qed.
Print Assumptions C50_gas_schedule_refuted.

Example C50_gas_schedule_ex :
  strips tiny small /\ small (some KGasScheduleChangeRequest "costs").
Proof.
  split; [exact tiny_strips|]. split; [by eexists|].
  split; [split; [discriminate|reflexivity]|vm_compute; reflexivity].
Qed.

(** C50, refuted for five kinds of questions (snapshots and reverting to them,
    built-in functions, clearing compiled code, nil checks): the node has a
    replier for them but does not take them for questions, so the dialogue ends
    with an error although the virtual machine did nothing wrong. *)
Theorem C50_unheard_refuted :
  forall (W : Type) C fits (hook : W -> content -> W * content) vm w req q k,
  carries C fits -> passes fits req -> request req ->
  vm req = Ask q k -> passes fits q -> unheard q ->
  forall n bytes pieces,
  StartLoop C 0 w req = (n, bytes) -> concat pieces = bytes ->
  ends (step C hook vm)
    (fun s => n_at (s_node s) = NDone (IErr EBadMessageFromArwen)
              /\ n_world (s_node s) = w)
    (mkSystem n (mkArwen 0 AIdle) pieces []).
Proof.
  intros W C fits hook vm w req q k HC Hp Hr Hv Hq Hu n b pieces Hs Hb.
  exact (unheard_ends C fits hook vm HC w req n b pieces q k Hp Hr Hv Hq Hu Hs Hb).
Qed.
Print Assumptions C50_unheard_refuted.

Example C50_unheard_ex :
  snapshot_vm (some KContractCallRequest "go")
  = Ask (some KBlockchainGetSnapshotRequest "") (fun _ => Say (some KContractResponse "done"))
  /\ unheard (some KBlockchainGetSnapshotRequest "")
  /\ passes small (some KBlockchainGetSnapshotRequest "").
Proof.
  split; [reflexivity|]. split; [right; left; reflexivity|].
  apply some_passes; vm_compute; reflexivity.
Qed.

(** C50, refuted for long messages: the length on the pipe has 32 bits, so a
    message that encodes to four gigabytes, although the marshalizer would give
    it back, is cut. *)
Theorem C50_long_refuted :
  exists C m data frame,
  Marshal C m = IOk data
  /\ Unmarshal C (CreateMessage (g_kind (g_content m))) data = IOk m
  /\ built (g_content m)
  /\ Sender_Send C m = IOk frame
  /\ fst (Receiver_Receive C [frame]) = IErr EDecode.
Proof. exact cut_short. Qed.
Print Assumptions C50_long_refuted.
