(** Vocabulary for C47 and C48. *)
From Verif Require Import VmModel.

(** [visit] is an order in which a loop can visit the entries of [m] *)
Definition visits {A} (m : gmap bytes A) (visit : list (bytes * A)) : Prop := Permutation visit (map_to_list m).
Definition visits_keys {A} (m : gmap bytes A) (visit : list bytes) : Prop := Permutation visit (map fst (map_to_list m)).

(** the calls of all contexts *)
Definition all_calls (m : gmap bytes async_ctx) : list gen_call := concat (map (fun p => ax_calls p.2) (map_to_list m)).
Definition total (l : list Z) : Z := fold_right Z.add 0 l.
(** gas asked for, number of calls that ask for nothing, gas handed out *)
Definition asked (m : gmap bytes async_ctx) : Z := total (map gc_provided (all_calls m)).
Definition unspecified (m : gmap bytes async_ctx) : Z :=
  Z.of_nat (length (List.filter (fun c => gc_provided c =? 0) (all_calls m))).
Definition handed_out (m : gmap bytes async_ctx) : Z := total (map gc_limit (all_calls m)).
(** amounts as Go's uint64 holds them *)
Definition typed_calls (m : gmap bytes async_ctx) : Prop :=
  forall c, In c (all_calls m) -> 0 <= gc_provided c < 2 ^ 64.

(** what a call gets *)
Definition fair (left : Z) (m : gmap bytes async_ctx) (c : gen_call) : Z :=
  if gc_provided c =? 0 then (left - asked m) / unspecified m else gc_provided c.

(** amounts in accounts as Go's uint64 holds them *)
Definition typed_acc (m : gmap bytes out_account) : Prop :=
  forall a x, m !! a = Some x ->
    0 <= oa_gasused x /\ Forall (fun t => 0 <= ot_gaslimit t /\ 0 <= ot_gaslocked t) (oa_transfers x).
