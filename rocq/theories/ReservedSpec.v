(** C96: values that the protocol keeps in accounts. *)
From Verif Require Export VmModel StoSpec.

(** the output has no value yet for key [k] of account [a] *)
Definition not_recorded (h : host) (a k : bytes) : Prop :=
  match o_accounts (h_out h) !! a with
  | Some x => oa_storage x !! k = None
  | None => True
  end.

(** what a transaction returned *)
Definition returned (r : host * outc vm_output) : option (return_code * list bytes) :=
  match snd r with OOk o => Some (o_code o, o_retdata o) | _ => None end.
(** the value that the output of a transaction tells the node to store *)
Definition to_store (r : host * outc vm_output) (a k : bytes) : option bytes :=
  match snd r with
  | OOk o => match o_accounts o !! a with Some x => oa_storage x !! k | None => None end
  | _ => None
  end.
