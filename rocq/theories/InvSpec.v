(** Vocabulary for what contracts cannot do during a whole execution. *)
From Verif Require Import VmTypes StoSpec.

(** the program never makes an API call with [bad] *)
Fixpoint never_calls (bad : api_call -> Prop) (p : prog) : Prop :=
  match p with
  | PRet | PTrap => True
  | PWork _ k => never_calls bad k
  | PRead _ _ k => forall d, never_calls bad (k d)
  | PWrite _ _ k => never_calls bad k
  | PGrow k => forall b, never_calls bad (k b)
  | PApi c k => ~ bad c /\ forall r, never_calls bad (k r)
  end.
Definition module_never (bad : api_call -> Prop) (m : wmodule) : Prop :=
  forall name p, In (name, p) (wm_exports m) -> never_calls bad p.
(** no contract, deployed or running, makes such a call *)
Definition nobody_calls `{E : env} (bad : api_call -> Prop) (h : host) : Prop :=
  (forall code m, e_compile E code = Some m -> module_never bad m) /\
  (forall i x, h_insts h !! i = Some x -> module_never bad (in_mod x)).

(** the node's built-in functions do not change the cell [k] of [a] *)
Definition builtins_leave `{E : env} (a k : bytes) : Prop :=
  forall w i w' r, e_builtin E w i = (w', r) ->
    node_value w' a k = node_value w a k /\
    forall o, r = ROk o -> forall x, o_accounts o !! a = Some x -> oa_storage x !! k = None.

(** the node may give [a] to a new contract *)
Definition fresh_address `{E : env} (a : bytes) : Prop := exists creator nonce, e_newAddress E creator nonce = ROk a.

Definition is_readonly (c : api_call) : Prop :=
  match c with A_executeReadOnly _ _ _ _ _ _ _ => True | _ => False end.
Definition is_bycaller (c : api_call) : Prop :=
  match c with A_executeOnDestContextByCaller _ _ _ _ _ _ _ _ => True | _ => False end.
Definition is_deploy (c : api_call) : Prop :=
  match c with A_createContract _ _ _ _ _ _ _ _ _ | A_deployFromSourceContract _ _ _ _ _ _ _ _ => True | _ => False end.

(** keys that contracts must not write: those of the protocol, and those of the
    VM other than the cells of time locks and pending asynchronous calls *)
Definition protected_key `{E : env} (k : bytes) : Prop :=
  reserved_key k \/
  vm_key k /\ forall k', k <> k' ++ str "ARWEN@TIMELOCK" /\ k <> k' ++ str "ARWEN@ASYNC".

(** what an output changes in the cell [k] of [a], seen from a node with [w] *)
Definition output_value (w : world) (o : vm_output) (a k : bytes) : bytes :=
  match o_accounts o !! a with
  | Some x => default (node_value w a k) (oa_storage x !! k)
  | None => node_value w a k
  end.

(** between [h] and [h'] the storage of [a] was made the storage in use
    (contexts/storage.go:69-72 SetAddress, recorded in the trace) *)
Definition entered_storage (a : bytes) (h h' : host) : Prop :=
  exists t, h_trace h' = t ++ h_trace h /\ In (EvOwner a) t.

(** how often the read-only mark was set, on or off, in a stretch of the trace;
    one executeReadOnly call sets it twice *)
Definition readonly_marks (t : list event) : nat :=
  length (List.filter (fun e => match e with EvReadOnly _ => true | _ => false end) t).
(** no executeReadOnly call between [h] and [h'] *)
Definition no_readonly_call (h h' : host) : Prop :=
  exists t, h_trace h' = t ++ h_trace h /\ readonly_marks t = 0%nat.
(** at most one executeReadOnly call between [h] and [h'] *)
Definition one_readonly_call (h h' : host) : Prop :=
  exists t, h_trace h' = t ++ h_trace h /\ (readonly_marks t <= 2)%nat.
