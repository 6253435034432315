(** C95: what is charged is paid. *)
From Verif Require Export VmModel GasSpec.

(** charges, one after the other *)
Fixpoint charge_all (gs : list Z) : M unit :=
  match gs with
  | [] => ret tt
  | g :: r => UseGas g ;;; charge_all r
  end.
Definition sum_charged (gs : list Z) : Z := foldr Z.add 0 gs.

(** how a transaction ended, what it returned and the gas that came back *)
Definition bill (r : host * outc vm_output) : option (return_code * list bytes * Z) :=
  match snd r with OOk o => Some (o_code o, o_retdata o, o_gasrem o) | _ => None end.
