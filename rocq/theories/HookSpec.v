(** What it means for a virtual machine behind the pipe to do the same as one in
    the process of the node. *)
From Verif Require Import Base IpcModel IpcSpec HookModel.
From stdpp Require Import gmap.
Local Open Scope Z_scope.

(** Errors with a text, and no percent sign in it. *)
Definition plain_text (t : bytes) : Prop := t <> [] /\ ~ In Coq.Init.Byte.x25 t.
Definition plain {A} (r : eres A) : Prop :=
  match r with Good _ => True | Bad t => plain_text t end.

(** Outputs with every account under its address and every update under its key. *)
Definition tidy (o : goutput) : Prop :=
  forall k a, go_accounts o !! k = Some a ->
    ga_address a = k /\ forall s u, ga_updates a !! s = Some u -> gu_offset u = s.

(** Results of a contract: a tidy output or a plain error, not neither. *)
Definition plain_result (r : eres (option goutput)) : Prop :=
  match r with
  | Good (Some o) => tidy o
  | Good None => False
  | Bad t => plain_text t
  end.

(** Answers of the hook. *)
Definition plain_answer (q : hook_q) : hook_ret q -> Prop :=
  match q as q0 return hook_ret q0 -> Prop with
  | HNewAddress _ _ _ | HGetStorageData _ _ | HGetBlockhash _ => plain
  | HProcessBuiltInFunction _ => plain_result
  | HGetAllState _ => plain
  | HGetUserAccount _ => plain
  | HIsPayable _ => plain
  | HGetESDTToken _ _ _ => plain
  | HRevertToSnapshot _ => fun r => r = Good tt
  | _ => fun _ => True
  end.

(** The methods that reach the node (C50). *)
Definition reaches (q : hook_q) : Prop :=
  match q with
  | HProcessBuiltInFunction _ | HClearCompiledCodes | HGetSnapshot | HRevertToSnapshot _ => False
  | _ => True
  end.

(** The machine with the node's hook called directly. *)
Fixpoint direct {W} (hook : forall q, W -> W * hook_ret q) (w : W) (m : machine)
  : W * eres (option goutput) :=
  match m with
  | MDone r => (w, r)
  | MAsk q k => direct hook (fst (hook q w)) (k (snd (hook q w)))
  end.

(** A run, with the hook called directly, in which nothing is said that the pipe
    does not convey: [fits] are the messages the marshalizer carries. *)
Fixpoint smooth {W} (L : outside) (fits : content -> Prop)
  (hook : forall q, W -> W * hook_ret q) (w : W) (m : machine) : Prop :=
  match m with
  | MDone r =>
      plain_result r /\ fits (contract_response L r) /\ kept L (output_fields L r)
  | MAsk q k =>
      reaches q /\ fits (gateway_request L q) /\ kept L (request_fields q)
      /\ plain_answer q (snd (hook q w))
      /\ fits (node_response L q (snd (hook q w)))
      /\ kept L (response_fields L q (snd (hook q w)))
      /\ smooth L fits hook (fst (hook q w)) (k (snd (hook q w)))
  end.
