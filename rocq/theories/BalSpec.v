(** Vocabulary for C60: the balances shown to contracts. *)
From Verif Require Import VmTypes MoneySpec StoSpec QuerySpec.

(** the balance of [a] at this point of the transaction: the node's, and what
    this transaction has moved *)
Definition balance_now (h : host) (a : bytes) : Z := node_balance (h_world h) a + change (o_accounts (h_out h)) a.

(** the call [c] asks for the balance of the address at [o]; for a balance [b]
    it has to put the bytes [ws] into memory and assign the handles [hs] *)
Definition shows (c : api_call) (o b : Z) (ws : list (Z * bytes)) (hs : list (Z * Z)) : Prop :=
  match c with
  | A_getExternalBalance o' ro => o' = o /\ exists d, unsigned_bytes b d /\ ws = [(ro, d)] /\ hs = []
  | A_bigIntGetExternalBalance o' y => o' = o /\ ws = [] /\ hs = [(i32 y, b)]
  | _ => False
  end.

(** the host after the VM has looked up the balance of [a] *)
Definition looked_up (a : bytes) (h : host) : host :=
  set_h_out (set_o_accounts (<[a := set_oa_balance (Some (node_balance (h_world h) a)) (acc_of (h_out h) a)]>
                              (o_accounts (h_out h))) (h_out h)) h.
