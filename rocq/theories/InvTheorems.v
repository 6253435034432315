(** Storage over whole executions: C15, C18, C20. *)
From Verif Require Import VmModel CallSpec StoSpec InvSpec CellProofs CallProofs ExCalls.

(** "s" tries to write a reserved key, writes one of its own keys, then calls
    "t", which writes one of its own; "r" calls the writer "t" read-only; "d"
    runs the code of "t" on its own storage *)
Definition ex_w : list (string * list (string * prog)) :=
  [("s", [("bad", store_kv "ELRONDk" "v" PRet);
          ("ok", store_kv "k" "v" (call_dest 1000 "t" 0 "write" PRet));
          ("ro", call_ro 1000 "t" "write" PRet);
          ("roread", call_ro 1000 "t" "read" PRet);
          ("nested", call_ro 1000 "t" "ronest" PRet);
          ("same", call_same 1000 "t" 0 "write" PRet)]);
   ("t", [("write", store_kv "x" "v" (finish_with "done" PRet)); ("read", finish_with "done" PRet);
          ("ronest", call_ro 500 "t" "read" (store_kv "x" "v" PRet))])]%string.
Lemma ex_w_builtins a k : builtins_leave (E := cEnv ex_w) a k.
Proof. intros w i w' r [= <- <-]. split; [reflexivity|]. intros o [= <-] x. cbn. rewrite lookup_empty. discriminate. Qed.

(** * C15 *)
(** Whatever a running contract does, nested calls and deployments included, the
    cells of protected keys stay as they were, for every account whose cell is
    still the node's or that is not an address for new contracts. *)
Theorem C15_run : forall `{E : env} n p h h' r a k,
  host_ok h -> vmRun n p h = (h', r) -> r <> OFuel -> protected_key k -> builtins_leave a k ->
  cell h a k = node_value (h_world h) a k \/ ~ fresh_address a ->
  cell h' a k = cell h a k /\ node_value (h_world h') a k = node_value (h_world h) a k.
Proof.
  intros E n p h h' r a k [Hs Hw] H Hr Hk Hb Hf.
  exact (protected_eff _ _ _ _ a k (any_run n p h h' r Hs H Hr) Hw Hk Hb Hf).
Qed.
Print Assumptions C15_run.

(** No transaction has an output that changes a protected key. *)
Theorem C15_call : forall `{E : env} n i h h' o a k,
  h_stoprot h = true -> no_stacks h -> RunSmartContractCall n i h = (h', OOk o) ->
  protected_key k -> builtins_leave a k ->
  output_value (h_world h) o a k = node_value (h_world h) a k /\
  node_value (h_world h') a k = node_value (h_world h) a k.
Proof. intros. eapply call_cells; eassumption. Qed.
Print Assumptions C15_call.

Theorem C15_create : forall `{E : env} n i h h' o a k,
  h_stoprot h = true -> no_stacks h -> RunSmartContractCreate n i h = (h', OOk o) ->
  protected_key k -> builtins_leave a k ->
  output_value (h_world h) o a k = node_value (h_world h) a k /\
  node_value (h_world h') a k = node_value (h_world h) a k.
Proof. intros. eapply create_cells; eassumption. Qed.
Print Assumptions C15_create.

(** a write attempt fails; another write, in the same world, gets through *)
Example C15_call_ex :
  protected_key (E := cEnv ex_w) (str "ELRONDk") /\
  (forall a, builtins_leave (E := cEnv ex_w) a (str "ELRONDk")) /\ no_stacks (host0 (cWorld ex_w)) /\
  match snd (cTx ex_w "bad" 0 50000) with
  | OOk o => o_code o = RcExecutionFailed /\ output_value (cWorld ex_w) o (addr "s") (str "ELRONDk") = []
  | _ => False
  end /\
  match snd (cTx ex_w "ok" 0 50000) with
  | OOk o => o_code o = RcOk /\ output_value (cWorld ex_w) o (addr "s") (str "k") = str "v"
  | _ => False
  end.
Proof.
  split; [left; exists (str "k"); reflexivity|]. split; [intros a; apply ex_w_builtins|].
  split; [split; reflexivity|]. vm_compute. tauto.
Qed.

(** * C18 *)
(** While a contract runs with the storage of another account, the storage of
    [a] changes only after [a] was made the owner of the storage in use. *)
Theorem C18_run : forall `{E : env} n p h h' r a k,
  host_ok h -> vmRun n p h = (h', r) -> r <> OFuel -> h_stoaddr h <> a -> builtins_leave a k ->
  cell h a k = node_value (h_world h) a k \/ ~ fresh_address a ->
  cell h' a k <> cell h a k -> entered_storage a h h'.
Proof.
  intros E n p h h' r a k [Hs Hw] H Hr Hn Hb Hf Hv. pose proof (any_run n p h h' r Hs H Hr) as He.
  destruct (trace_split h h' a (EffFrameProofs.k_trace _ _ _ _ _ (EffFrameProofs.eff_kept _ _ _ _ _ He Hw))) as [T|T]; [|exact T].
  destruct Hv. exact (proj1 (foreign_eff _ _ _ _ a k He Hw Hn Hb Hf T)).
Qed.
Print Assumptions C18_run.

(** The same for one API call: with [a] not the owner, an API call that does
    not enter [a]'s storage changes no cell of [a]. *)
Theorem C18_api : forall `{E : env} n c h h' r a k,
  host_ok h -> vmApi n c h = (h', r) -> r <> OFuel -> h_stoaddr h <> a -> builtins_leave a k ->
  cell h a k = node_value (h_world h) a k \/ ~ fresh_address a ->
  cell h' a k <> cell h a k -> entered_storage a h h'.
Proof.
  intros E n c h h' r a k [Hs Hw] H Hr Hn Hb Hf Hv. pose proof (any_api n c h h' r Hs H Hr) as He.
  destruct (trace_split h h' a (EffFrameProofs.k_trace _ _ _ _ _ (EffFrameProofs.eff_kept _ _ _ _ _ He Hw))) as [T|T]; [|exact T].
  destruct Hv. exact (proj1 (foreign_eff _ _ _ _ a k He Hw Hn Hb Hf T)).
Qed.
Print Assumptions C18_api.

(** In a transaction's output only accounts whose storage was entered in this
    transaction have changed cells. *)
Theorem C18_call : forall `{E : env} n i h h' o a k,
  h_stoprot h = true -> no_stacks h -> RunSmartContractCall n i h = (h', OOk o) -> builtins_leave a k ->
  output_value (h_world h) o a k <> node_value (h_world h) a k -> entered_storage a h h'.
Proof. intros. eapply call_owner; eassumption. Qed.
Print Assumptions C18_call.

Theorem C18_create : forall `{E : env} n i h h' o a k,
  h_stoprot h = true -> no_stacks h -> RunSmartContractCreate n i h = (h', OOk o) -> builtins_leave a k ->
  output_value (h_world h) o a k <> node_value (h_world h) a k -> entered_storage a h h'.
Proof. intros. eapply create_owner; eassumption. Qed.
Print Assumptions C18_create.

(** a call to "t" writes into the storage of "t"; "t"'s code run by "s" on the
    same context writes into the storage of "s" *)
Example C18_ex :
  match snd (cTx ex_w "ok" 0 50000), snd (cTx ex_w "same" 0 50000) with
  | OOk o, OOk o' =>
      output_value (cWorld ex_w) o (addr "t") (str "x") = str "v" /\
      output_value (cWorld ex_w) o' (addr "t") (str "x") = [] /\
      output_value (cWorld ex_w) o' (addr "s") (str "x") = str "v"
  | _, _ => False
  end /\
  In (EvOwner (addr "t")) (h_trace (fst (cTx ex_w "ok" 0 50000))) /\
  existsb (fun e => match e with EvOwner a => beq a (addr "t") | _ => false end) (h_trace (fst (cTx ex_w "same" 0 50000))) = false.
Proof. vm_compute. tauto. Qed.

(** * C20 *)
(** A frame marked read-only, whatever it does and however deep it calls, writes
    no storage, as long as nothing in it calls executeReadOnly itself. *)
Theorem C20_run_partial : forall `{E : env} n p h h' r a k,
  host_ok h -> vmRun n p h = (h', r) -> r <> OFuel -> r_ro (h_rt h) = true ->
  builtins_leave a k -> no_readonly_call h h' ->
  cell h' a k = cell h a k /\ node_value (h_world h') a k = node_value (h_world h) a k.
Proof.
  intros E n p h h' r a k [Hs Hw] H Hr Hro Hb Hn.
  exact (readonly_eff _ _ _ _ a k (any_run n p h h' r Hs H Hr) Hw Hro (no_ro_call _ _ Hn) Hb).
Qed.
Print Assumptions C20_run_partial.

(** An executeReadOnly call changes no cell, unless another executeReadOnly call
    is made below it. *)
Theorem C20_api_partial : forall `{E : env} n gas dest f fl na al ad h h' r a k,
  host_ok h -> vmApi n (A_executeReadOnly gas dest f fl na al ad) h = (h', r) -> r <> OFuel -> r <> OPanic ->
  builtins_leave a k -> one_readonly_call h h' -> cell h' a k = cell h a k.
Proof. intros. eapply ro_api; eassumption. Qed.
Print Assumptions C20_api_partial.

(** the callee's write has no effect, and the callee is not told *)
Example C20_ex :
  let r := vmApi (E := cEnv ex_w) 12 (A_executeReadOnly 1000 0 64 5 0 0 0)
             (set_h_insts {[0%nat := mkInst 0 100000 BreakpointNone (mkMem (addr "t" ++ val32 0 ++ str "write" ++ replicate 64 Byte.x00) 1) (mod_of [])]}
               (cHost ex_w)) in
  r.2 = OOk 0 /\ o_retdata (h_out r.1) = [str "done"] /\
  readonly_marks (h_trace r.1) = 2%nat /\ cell r.1 (addr "s") (str "x") = [].
Proof. vm_compute. tauto. Qed.

(** Full C20 is false: a nested executeReadOnly call ends by clearing the mark
    of its caller, which is itself being executed read-only; the caller then
    writes. *)
Theorem C20_nested_refuted :
  exists (E : env) p h a k, env_ok E /\ host_ok h /\ (forall b k', builtins_leave b k') /\
    (exists gas dest f fl, p = PWrite 0 (addr "t" ++ val32 0 ++ str "ronest") (PApi (A_executeReadOnly gas dest f fl 0 0 0) (fun _ => PRet))) /\
    let r := vmRun 12 p h in
    r.2 = OOk true /\ cell r.1 a k <> cell h a k.
Proof.
  exists (cEnv ex_w), (call_ro 1000 "t" "ronest" PRet), (cHost ex_w), (addr "s"), (str "x").
  split; [apply exEnv_ok|]. split; [split; [reflexivity|intros i [= <-]; vm_compute; lia]|].
  split; [intros b k'; apply ex_w_builtins|]. split; [exists 1000, 0, 64, 6; reflexivity|].
  vm_compute. split; [reflexivity|discriminate].
Qed.
Print Assumptions C20_nested_refuted.
