(** Vocabulary for value: C21-C24. *)
From Verif Require Import VmTypes StoSpec.

(** the balance change of [a] in an output *)
Definition change (m : gmap bytes out_account) (a : bytes) : Z :=
  match m !! a with Some x => oa_delta x | None => 0 end.
(** the sum of the balance changes *)
Definition total_change (m : gmap bytes out_account) : Z :=
  map_fold (fun _ x s => oa_delta x + s) 0 m.
(** the balance the node has for [a] *)
Definition node_balance (w : world) (a : bytes) : Z :=
  match w_accounts w !! a with Some u => ua_balance u | None => 0 end.

(** the node's built-in functions neither make nor destroy value *)
Definition builtins_conserve `{E : env} : Prop :=
  forall w i w' o, e_builtin E w i = (w', ROk o) -> total_change (o_accounts o) = 0.
(** the node's built-in functions take nothing from [a] and do not report or
    change its balance *)
Definition builtins_take_nothing `{E : env} (a : bytes) : Prop :=
  forall w i w' r, e_builtin E w i = (w', r) ->
    w_accounts w' !! a = w_accounts w !! a /\
    forall o x, r = ROk o -> o_accounts o !! a = Some x -> 0 <= oa_delta x /\ oa_balance x = None.

(** the node's built-in functions do not change the balance of [a] *)
Definition builtins_pay_nothing `{E : env} (a : bytes) : Prop :=
  forall w i w' o, e_builtin E w i = (w', ROk o) -> change (o_accounts o) a = 0.

(** every account removed from the output between [h] and [h'], which happens
    when a nested deployment fails, had no balance change, neither then nor in
    the outputs saved by the calls under way *)
Definition no_funds_deleted (h h' : host) : Prop :=
  exists t, h_trace h' = t ++ h_trace h /\
    forall a ds d, In (EvDelete a ds) t -> In d ds -> d = 0.

(** a movement recorded between [h] and [h'] *)
Definition moved (h h' : host) (sc : bytes) (parent : option bytes) (sender dest : bytes) (v : Z) : Prop :=
  exists t, h_trace h' = t ++ h_trace h /\ In (EvMove sc parent sender dest v) t.

(** [sc] (called by the contract [parent], if any) spends its own money: it is
    the sender, or it has just been entered and is paid by the contract that
    calls it *)
Definition own_money (sc : bytes) (parent : option bytes) (sender dest : bytes) (v : Z) : Prop :=
  v = 0 \/ sender = sc \/ (dest = sc /\ parent = Some sender).

(** the balance recorded for [a] is the node's, and covers what [a] has spent *)
Definition covered (h : host) (a : bytes) : Prop :=
  forall x, o_accounts (h_out h) !! a = Some x ->
    (forall b, oa_balance x = Some b -> b = node_balance (h_world h) a) /\
    (oa_delta x < 0 -> 0 <= node_balance (h_world h) a + oa_delta x).
