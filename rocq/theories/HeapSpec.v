(** Vocabulary for the life of instances: only fields of the host state. *)
From Verif Require Import VmTypes.

(** the host still refers to instance [j]: it runs it, or has suspended it *)
Definition refers (h : host) (j : nat) : Prop := h_cur h = Some j \/ In (Some j) (h_ist h).

(** The instances not yet freed ([h_insts]) are exactly those the host still
    refers to, and were created by it (numbers are given out in order and never
    twice). *)
Record accounted (h : host) : Prop := mkAccounted {
  ac_alive : forall j, refers h j -> is_Some (h_insts h !! j);
  ac_freed : forall j, is_Some (h_insts h !! j) -> refers h j;
  ac_given : forall j, is_Some (h_insts h !! j) -> (j < h_next h)%nat
}.

(** the same instances are there; those created in between have been freed *)
Definition same_instances (h h' : host) : Prop :=
  forall j, is_Some (h_insts h' !! j) <-> is_Some (h_insts h !! j).

(** code starts on an instance of its own: it is there, and not suspended below *)
Definition own_instance (h : host) : Prop :=
  exists j x, h_cur h = Some j /\ h_insts h !! j = Some x /\ ~ In (Some j) (h_ist h).
