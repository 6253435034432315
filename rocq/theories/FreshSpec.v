(** What a host has been through, and what two hosts of equal nodes share. *)
From Verif Require Import VmModel CallSpec.

(** a new host has run nothing *)
Definition new_host (h : host) : Prop := no_stacks h /\ h_stoprot h = true /\ h_insts h = ∅.

(** transactions run one after the other, ending normally, with an error or
    with a panic; the node's state may change in between *)
Inductive history `{E : env} : host -> Prop :=
| hi_new h : new_host h -> history h
| hi_call n i h h' r : history h -> RunSmartContractCall n i h = (h', r) -> r <> OFuel -> history h'
| hi_create n i h h' r : history h -> RunSmartContractCreate n i h = (h', r) -> r <> OFuel -> history h'
| hi_world w h : history h -> history (set_h_world w h).

(** the hosts read the same node: its state and its cache of compiled code *)
Definition same_node (h1 h2 : host) : Prop := h_world h1 = h_world h2 /\ h_cache h1 = h_cache h2.

(** [m] started by two hosts: the same result (outputs, errors and panics), the
    same changes of the node, and the same events on the way *)
Definition same_run {A} (m : M A) (h1 h2 : host) : Prop :=
  snd (m h1) = snd (m h2) /\ same_node (fst (m h1)) (fst (m h2)) /\
  exists events, h_trace (fst (m h1)) = events ++ h_trace h1 /\ h_trace (fst (m h2)) = events ++ h_trace h2.
