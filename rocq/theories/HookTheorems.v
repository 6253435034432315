(** The property theorems about the virtual machine behind the pipe. *)
From Verif Require Import Base IpcModel IpcSpec IpcProofs ExIpc HookModel HookSpec HookProofs ExHook.
From stdpp Require Import gmap.
Open Scope Z_scope.

(** C64: whatever question the virtual machine puts to the gateway, the node's
    hook is asked that very question, and what the gateway hands back is what the
    hook answered, errors included. *)
Theorem C64_hook_partial :
  forall (W : Type) L (hook : forall q, W -> W * hook_ret q) w q,
  kept L (request_fields q) ->
  plain_answer q (snd (hook q w)) -> kept L (response_fields L q (snd (hook q w))) ->
  let '(w', c) := node_hook L hook w (gateway_request L q) in
  w' = fst (hook q w) /\ gateway_answer L q (IOk c) = snd (hook q w).
Proof.
  intros W L hook w q H1 H2 H3. rewrite (hook_back L hook w q H1).
  split; [reflexivity|]. apply answer_back; assumption.
Qed.
Print Assumptions C64_hook_partial.

Example C64_hook_ex :
  let q := HGetUserAccount (str "alice") in
  kept some_outside (request_fields q)
  /\ plain_answer q (snd (some_hook q 3%nat))
  /\ kept some_outside (response_fields some_outside q (snd (some_hook q 3%nat)))
  /\ snd (some_hook q 3%nat) = Good (Some (mkHandler 4 100 [] [] (str "alice") 0 [] [] []))
  /\ plain_answer HGetSnapshot (5 : hook_ret HGetSnapshot)
  /\ plain_answer (HIsPayable (str "bob")) (Bad (str "unknown") : hook_ret (HIsPayable (str "bob"))).
Proof.
  repeat split; try discriminate. vm_compute. intuition discriminate.
Qed.

(** C64: the node gets from its driver the very output or error the virtual
    machine returned. *)
Theorem C64_output_partial :
  forall L r, plain_result r -> kept L (output_fields L r) ->
  driver_result L (contract_response L r) = Some r.
Proof. exact driver_back. Qed.
Print Assumptions C64_output_partial.

Example C64_output_ex :
  plain_result (snd (direct some_hook 0%nat reading))
  /\ kept some_outside (output_fields some_outside (snd (direct some_hook 0%nat reading)))
  /\ match snd (direct some_hook 0%nat reading) with
     | Good (Some o) => size (go_accounts o) = 2%nat /\ go_data o = [str "old"]
     | _ => False
     end.
Proof.
  split; [exact (report_tidy _ _)|vm_compute; auto].
Qed.

(** C64: a call or a deployment through the pipe.  However the bytes travel and
    whichever process moves first, every run comes to an end with the node's
    world changed, and the node's driver returning, exactly as if the virtual
    machine ran in the node's process with the hook called directly. *)
Theorem C64_pipe_partial :
  forall (W : Type) L C fits (hook : forall q, W -> W * hook_ret q)
    (vm : content -> machine) w req,
  carries C fits -> passes fits req ->
  g_kind req = KContractCallRequest \/ g_kind req = KContractDeployRequest ->
  smooth L fits hook w (vm req) ->
  forall n bytes pieces,
  StartLoop C 0 w req = (n, bytes) -> concat pieces = bytes ->
  ends (step C (node_hook L hook) (fun c => behind_gateway L (vm c)))
    (fun s => exists c,
       s_node s = mkNode 0 (fst (direct hook w (vm req))) (NDone (IOk c))
       /\ driver_result L c = Some (snd (direct hook w (vm req))))
    (mkSystem n (mkArwen 0 AIdle) pieces []).
Proof.
  intros W L C fits hook vm w req HC Hp Hr. apply piped; [exact HC|exact Hp|].
  destruct Hr as [Hr|Hr]; [right; left|left]; exact Hr.
Qed.
Print Assumptions C64_pipe_partial.

Example C64_pipe_ex :
  carries tiny small
  /\ passes small (some KContractCallRequest "go")
  /\ smooth some_outside small some_hook 0%nat reading
  /\ fst (direct some_hook 0%nat reading) = 2%nat.
Proof.
  split; [exact tiny_carries|].
  split; [apply some_passes; vm_compute; reflexivity|].
  split; [|reflexivity].
  assert (forall k e f, knownb k = true ->
    blen e + blen (pack some_outside f) + 12 <? 4294967296 = true ->
    small (message some_outside k e f)) as Hs.
  { intros k e f H1 H2. split; [exists k; reflexivity|]. cbn [message g_kind g_error g_body].
    unfold knownb, KLastKind in H1. apply Z.ltb_lt in H2.
    apply andb_prop in H1 as [H1 _]. apply andb_prop in H1 as [H1 H3].
    apply Z.leb_le in H1. apply Z.ltb_lt in H3. lia. }
  cbn [smooth reading].
  do 2 (split; [exact I|]; split; [apply Hs; vm_compute; reflexivity|]; split; [exact I|];
        split; [exact I|]; split; [apply Hs; vm_compute; reflexivity|]; split; [exact I|]).
  split; [|split; [apply Hs; vm_compute; reflexivity|exact I]].
  exact (report_tidy _ _).
Qed.

(** C64, refuted for reverting to a snapshot: when the node cannot revert, the
    gateway still reports success. *)
Theorem C64_revert_refuted :
  forall L n t, kept L FNone ->
  gateway_answer L (HRevertToSnapshot n) (IOk (node_response L (HRevertToSnapshot n) (Bad t))) = Good tt.
Proof. exact revert_error. Qed.
Print Assumptions C64_revert_refuted.

(** C64, refuted for errors with a percent sign: the text is used as a format,
    and a double percent sign comes out single. *)
Theorem C64_percent_refuted :
  forall L, errorf L (str "100%% sure") = str "100% sure" ->
  kept L (output_fields L (Bad (str "100%% sure"))) ->
  driver_result L (contract_response L (Bad (str "100%% sure"))) = Some (Bad (str "100% sure"))
  /\ str "100%% sure" <> str "100% sure".
Proof.
  intros L H Hk. split; [|vm_compute; discriminate].
  rewrite <- H. apply reformatted; [vm_compute; discriminate|exact Hk].
Qed.
Print Assumptions C64_percent_refuted.

Example C64_percent_ex :
  errorf some_outside (str "100%% sure") = str "100% sure"
  /\ kept some_outside (output_fields some_outside (Bad (str "100%% sure")))
  /\ kept some_outside FNone.
Proof. vm_compute. auto. Qed.

(** C64, refuted for errors without a text, which arrive as no error at all, and
    for a result that is neither output nor error, which arrives as a successful
    execution. *)
Theorem C64_nothing_refuted :
  (forall L a k, kept L (FBytes []) ->
   gateway_answer L (HGetStorageData a k) (IOk (node_response L (HGetStorageData a k) (Bad []))) = Good [])
  /\ (forall L, kept L (output_fields L (Good None)) ->
   driver_result L (contract_response L (Good None))
   = Some (Good (Some (mkGOutput [] 0 [] 0 None ∅ [] [] [])))).
Proof. split; [exact empty_error|exact nil_output]. Qed.
Print Assumptions C64_nothing_refuted.

(** C64, refuted for an output with an account under a key that is not its
    address: it arrives under its address, and the key is gone. *)
Theorem C64_moved_refuted :
  forall L k a o,
  ga_address a <> k -> ga_updates a = ∅ -> go_accounts o = {[k := a]} ->
  go_accounts (ConvertToVMOutput (NewSerializableVMOutput L (Some o))) = {[ga_address a := a]}.
Proof. exact moved. Qed.
Print Assumptions C64_moved_refuted.
