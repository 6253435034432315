(** Vocabulary: gas that leaves with outgoing transfers. *)
From Verif Require Import VmTypes GasSpec.

(** the limits and the locks of all outgoing transfers to any account *)
Definition attached (o : vm_output) : Z := map_fold (fun _ x g => transfers_gas x + g) 0 (o_accounts o).
