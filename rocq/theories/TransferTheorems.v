(** C72 for the transactions that need no machine: transfers and rewards. *)
From Verif Require Import Base ScenModel WorldModel WorldSpec TransferSpec TransferProofs ExWorld.
From stdpp Require Import gmap.
Local Open Scope Z_scope.

(** C72: a transfer that the sender can pay moves the value and takes the gas,
    and changes nothing else. *)
Theorem C72_transfer :
  forall (W : wenv) ident tx w a value,
  t_type tx = TxTransfer -> t_esdt tx = None -> jz_value (t_value tx) = Some value ->
  mw_accts w !! jb_value (t_from tx) = Some a ->
  fee_of tx + value <= wa_balance a -> fee_of tx <= wa_balance a -> 0 <= nonce_of w (jb_value (t_to tx)) ->
  exists w' o, executeTx ident tx w = (w', SOk o) /\ o_code o = RcOk /\
    moved (jb_value (t_from tx)) (jb_value (t_to tx)) (fee_of tx) value w w'.
Proof. intros W ident tx w a value. exact (transferred W ident tx w a value). Qed.
Print Assumptions C72_transfer.

Example C72_transfer_ex :
  wa_balance <$> mw_accts setup !! alice = Some 1000 /\ fee_of (pay 5) = 20 /\ nonce_of setup bob = 0 /\
  balance_of (fst (executeTx (W := silent) (str "pay") (pay 5) setup)) alice = 975 /\
  balance_of (fst (executeTx (W := silent) (str "pay") (pay 5) setup)) bob = 15.
Proof. repeat split; vm_compute; reflexivity. Qed.

(** C72: a reward adds its value to the balance, and to the sum of rewards in
    the storage, of its receiver. *)
Theorem C72_reward :
  forall (W : wenv) ident tx w a value,
  t_type tx = ValidatorReward -> jz_value (t_value tx) = Some value ->
  mw_accts w !! jb_value (t_to tx) = Some a -> 0 <= wa_nonce a ->
  exists w' o, executeTx ident tx w = (w', SOk o) /\ o_code o = RcOk /\
    rewarded (jb_value (t_to tx)) value w w'.
Proof. intros W ident tx w a value. exact (rewarded_ok W ident tx w a value). Qed.
Print Assumptions C72_reward.

Example C72_reward_ex :
  let reward := mkTx ValidatorReward (ju 0) (jz 7) None (jb []) (jb bob) [] (jb []) [] (ju 0) (ju 0) in
  nonce_of setup bob = 0 /\
  balance_of (fst (executeTx (W := silent) (str "r") reward setup)) bob = 17 /\
  storage_at (fst (executeTx (W := silent) (str "r") reward setup)) bob (str "ELRONDreward") = Some [Byte.x07].
Proof. repeat split; vm_compute; reflexivity. Qed.

(** C72: without the money for the gas there is no transaction, without the
    money for the value it fails for want of funds (and by C71 only the gas is
    paid). *)
Theorem C72_unaffordable :
  forall (W : wenv) ident tx w a value,
  has_sender tx -> t_esdt tx = None -> jz_value (t_value tx) = Some value ->
  mw_accts w !! jb_value (t_from tx) = Some a ->
  (wa_balance a < fee_of tx -> snd (executeTx ident tx w) = SErr) /\
  (fee_of tx <= wa_balance a < fee_of tx + value -> exists o,
     snd (executeTx ident tx w) = SOk o /\ o_code o = RcOutOfFunds).
Proof. intros W ident tx w a value. exact (unaffordable W ident tx w a value). Qed.
Print Assumptions C72_unaffordable.

Example C72_unaffordable_ex :
  has_sender (pay 990) /\
  wa_balance <$> mw_accts setup !! alice = Some 1000 /\ fee_of (pay 990) = 20 /\
  o_code <$> (match snd (executeTx (W := silent) (str "pay") (pay 990) setup) with SOk o => Some o | _ => None end)
    = Some RcOutOfFunds.
Proof. split; [right; right; reflexivity|]. repeat split; vm_compute; reflexivity. Qed.
