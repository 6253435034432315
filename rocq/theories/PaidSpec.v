(** C97: payments with asynchronous calls. *)
From Verif Require Export VmModel GasSpec AsyncSpec.

(** what account [a] has gained when the transaction is over *)
Definition gained (r : host * outc vm_output) (a : bytes) : Z :=
  match snd r with OOk o => default 0 (oa_delta <$> o_accounts o !! a) | _ => 0 end.
(** how the transaction ended and what it returned *)
Definition ended (r : host * outc vm_output) : option (return_code * list bytes) :=
  match snd r with OOk o => Some (o_code o, o_retdata o) | _ => None end.
