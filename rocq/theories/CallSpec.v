(** Vocabulary for nested calls: what a caller finds again after a call, and
    the states in which the host starts contract code.  Only fields of the host
    state are named here, no function of the model. *)
From Verif Require Import VmTypes CtxModel.

(** The host between any two steps: storage is protected
    (contexts/storage.go:34 starts so, and only the VM's own writes switch it
    off for their duration), and the number of the running instance has been
    given out. *)
Definition host_ok (h : host) : Prop :=
  h_stoprot h = true /\ forall i, h_cur h = Some i -> (i < h_next h)%nat.

(** C28: the frame of the caller and the heights (even the contents) of all
    state stacks. *)
Record frame_restored (h h' : host) : Prop := mkRestored {
  fr_address : r_addr (h_rt h') = r_addr (h_rt h);
  fr_input : r_input (h_rt h') = r_input (h_rt h);
  fr_function : r_fn (h_rt h') = r_fn (h_rt h);
  fr_instance : h_cur h' = h_cur h;
  fr_owner : h_stoaddr h' = h_stoaddr h;
  fr_bigints : h_bigst h' = h_bigst h;
  fr_outputs : h_outst h' = h_outst h;
  fr_metering : h_metst h' = h_metst h;
  fr_frames : h_rtst h' = h_rtst h;
  fr_owners : h_stost h' = h_stost h;
  fr_instances : h_ist h' = h_ist h;
  (** suspended instances: code, memory and gas counters *)
  fr_suspended : forall j, (j < h_next h)%nat -> h_cur h <> Some j -> h_insts h' !! j = h_insts h !! j
}.

(** The world's snapshots: after a panic some may be left on top. *)
Definition snapshots_restored {A} (h h' : host) (r : outc A) : Prop :=
  (exists s, h_bcst h' = s ++ h_bcst h) /\ (r <> OPanic -> h_bcst h' = h_bcst h).

(** [starts_only_in P m]: [m run], which uses [run] to run contract code, does
    so only in states with [P]: what [run] does in other states is immaterial. *)
Definition starts_only_in {A} (P : host -> Prop) (m : (prog -> M bool) -> M A) (h : host) : Prop :=
  forall run1 run2, (forall p hs, P hs -> run1 p hs = run2 p hs) -> m run1 h = m run2 h.

(** the state in which code called by [i] starts: an empty big-integer store,
    instance stack [rest], and the frame asked for *)
Record entered (i : call_input) (ro : bool) (rest : list (option nat)) (h : host) : Prop := mkEntered {
  en_big : h_big h = ∅;
  en_ist : h_ist h = rest;
  en_sto : h_stoaddr h = ci_rcpt i;
  en_addr : r_addr (h_rt h) = ci_rcpt i;
  en_caller : vi_caller (r_input (h_rt h)) = vi_caller (ci_vm i);
  en_value : vi_value (r_input (h_rt h)) = vi_value (ci_vm i);
  en_esdt : vi_esdt (r_input (h_rt h)) = vi_esdt (ci_vm i);
  en_ctype : vi_ctype (r_input (h_rt h)) = vi_ctype (ci_vm i);
  en_ro : r_ro (h_rt h) = ro
}.
(** less than ten instances suspended below the running one *)
Definition shallow (h : host) : Prop := (length (h_ist h) < 10)%nat.

(** C58: what belongs to one transaction *)
Record no_stacks (h : host) : Prop := mkNoStacks {
  ns_bigints : h_bigst h = [];
  ns_outputs : h_outst h = [];
  ns_metering : h_metst h = [];
  ns_frames : h_rtst h = [];
  ns_owners : h_stost h = [];
  ns_instances : h_ist h = [];
  ns_running : h_cur h = None
}.

(** API functions that run another contract on its own context, or create one *)
Definition calls_other (c : api_call) : Prop :=
  match c with
  | A_executeOnDestContext _ _ _ _ _ _ _ _ | A_executeOnDestContextByCaller _ _ _ _ _ _ _ _
  | A_transferValueExecute _ _ _ _ _ _ _ _ | A_transferESDTExecute _ _ _ _ _ _ _ _ _ _
  | A_transferESDTNFTExecute _ _ _ _ _ _ _ _ _ _ _
  | A_createContract _ _ _ _ _ _ _ _ _ | A_deployFromSourceContract _ _ _ _ _ _ _ _ => True
  | _ => False
  end.

(** a transaction starts with these values, whatever ran before: of the earlier
    transactions only the world, the cache of compiled contracts, the snapshots
    left by panics and numbers without meaning remain *)
Definition starts_fresh (h h0 : host) : Prop :=
  h0 = mkHost ∅ [] newVMOutput [] ∅ metering0 [] frame0 [] (h_codesize h) false (h_insts h) (h_next h) None []
         (h_stoaddr h) [] true (h_world h) (h_bcst h) (h_cache h) (h_trace h).
