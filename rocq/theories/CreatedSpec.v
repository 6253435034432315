(** What is said of the calls created with createAsyncCall
    (arwen/elrondapi/elrondei.go:1267-1326), once the contract that created them has ended. *)
From Verif Require Import VmModel.
From Verif Require Export AsyncSpec.

(** the call as it is handed on: destination, data and value of the created call
    (asyncCall.go:291-319 reads it through the interface AsyncCallInfoHandler; the
    gas locked of a created call is zero, arwen/common.go:202-205) *)
Definition created (c : gen_call) : async_call := mkAsync (gc_dest c) (gc_data c) (gc_limit c) 0 (gc_value c).
(** no call of [info] waits for an answer *)
Definition all_answered (info : async_info) : Prop :=
  forall id ctx c, ai_map info !! id = Some ctx -> c ∈ ax_calls ctx -> gc_status c <> AsPending.
(** the function that is told the outcome, and the state of the call after it *)
Definition told (c : gen_call) (o : vm_output) : bytes := if bool_decide (o_code o = RcOk) then gc_success c else gc_error c.
Definition settled (o : vm_output) : async_status := if bool_decide (o_code o = RcOk) then AsResolved else AsRejected.
(** the same call, in another state *)
Definition in_state (s : async_status) (c : gen_call) : gen_call :=
  mkGenCall s (gc_dest c) (gc_data c) (gc_limit c) (gc_value c) (gc_success c) (gc_error c) (gc_provided c).
(** [h'] is [h] but for the state of call number [n] of context [id] *)
Definition marks (id : bytes) (n : nat) (s : async_status) (h h' : host) : Prop :=
  (exists m, h' = set_h_rt (set_r_actx (set_ai_map m (r_actx (h_rt h))) (h_rt h)) h) /\
  forall id' n', 
    (ai_map (r_actx (h_rt h')) !! id' ≫= fun ctx => ax_calls ctx !! n') =
    (if bool_decide (id' = id /\ n' = n)
     then in_state s <$> (ai_map (r_actx (h_rt h)) !! id' ≫= fun ctx => ax_calls ctx !! n')
     else ai_map (r_actx (h_rt h)) !! id' ≫= fun ctx => ax_calls ctx !! n').
