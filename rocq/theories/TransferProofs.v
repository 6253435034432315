(** Transactions that the executor of scenarios carries out without the machine. *)
From Verif Require Import Base CodecSpec CodecProofs ScenModel WorldModel WorldSpec WorldProofs TransferSpec.
From stdpp Require Import gmap.
Local Open Scope Z_scope.

Section Transfers.
Context (W : wenv).

Lemma sum_single to o : sum_deltas {[to := o]} = oa_delta o.
Proof.
  unfold sum_deltas. rewrite <- insert_empty. rewrite map_fold_insert_L; [|intros; lia|apply lookup_empty].
  rewrite map_fold_empty. lia.
Qed.
Lemma update_single to o w addr :
  mw_accts (UpdateAccounts (W := W) {[to := o]} w) !! addr =
  if bool_decide (addr = to) then Some (UpdateAccountFromOutputAccount (W := W) to o (mw_accts w !! to))
  else mw_accts w !! addr.
Proof.
  unfold UpdateAccounts. cbn [mw_accts set_mw_accts]. rewrite lookup_merge.
  rewrite map_lookup_imap. case_bool_decide as E.
  - subst addr. rewrite lookup_singleton. cbn. by destruct (mw_accts w !! to).
  - rewrite lookup_singleton_ne by done. cbn. by destruct (mw_accts w !! addr).
Qed.

Lemma update_plain to o a : oa_nonce o = 0 -> oa_code o = [] -> oa_transfers o = [] -> oa_deployer o = None ->
  (forall x, a = Some x -> 0 <= wa_nonce x) ->
  let x := default (new_account to []) a in
  UpdateAccountFromOutputAccount (W := W) to o a =
  mkWAcc true (wa_address x) (wa_nonce x) (wa_balance x + oa_delta o) (wa_delta x)
    (oa_storage o ∪ wa_storage x) (wa_code x) (wa_codehash x) (wa_meta x) (wa_owner x)
    (wa_async x) (wa_username x) (wa_reward x) (wa_shard x) (wa_is_sc x).
Proof.
  intros H1 H2 H3 H4 Hn. unfold UpdateAccountFromOutputAccount. rewrite H1, H2, H3, H4. cbn [default].
  set (x := match a with Some a => a | None => new_account to [] end).
  assert (default (new_account to []) a = x) as -> by (by destruct a).
  assert (0 <= wa_nonce x) as Hx by (unfold x; destruct a; [by apply Hn|cbn; lia]).
  destruct x. cbn in *. destruct (_ <? 0) eqn:E; [lia|]. done.
Qed.

Lemma transferred ident tx w a value :
  t_type tx = TxTransfer -> t_esdt tx = None -> jz_value (t_value tx) = Some value ->
  mw_accts w !! jb_value (t_from tx) = Some a -> fee_of tx + value <= wa_balance a -> fee_of tx <= wa_balance a -> 0 <= nonce_of w (jb_value (t_to tx)) ->
  exists w' o, executeTx (W := W) ident tx w = (w', SOk o) /\ o_code o = RcOk /\
    moved (jb_value (t_from tx)) (jb_value (t_to tx)) (fee_of tx) value w w'.
Proof.
  intros Ht He Hv Ha Hb Hf Hn. unfold executeTx. rewrite Hv, Ht, He. cbn [HasSender].
  assert (UpdateWorldStateBefore (jb_value (t_from tx)) (ju_value (t_gaslimit tx)) (ju_value (t_gasprice tx)) (CreateStateBackup w) =
    (set_mw_accts (<[jb_value (t_from tx) := charged (fee_of tx) a]> (mw_accts w)) (CreateStateBackup w), true)) as ->.
  { unfold UpdateWorldStateBefore. cbn [mw_accts CreateStateBackup set_mw_snaps]. rewrite Ha.
    assert (wa_balance (set_wa_nonce (u64 (wa_nonce a + 1)) a) = wa_balance a) as -> by by destruct a.
    fold (fee_of tx). destruct (wa_balance a <? fee_of tx) eqn:E; [lia|]. by destruct a. }
  cbn beta iota. unfold tx_output, senderHasEnoughBalance. rewrite Ht. cbn [HasSender].
  cbn [mw_accts set_mw_accts]. rewrite lookup_insert. cbn [wa_balance charged].
  destruct (value <=? wa_balance a - fee_of tx) eqn:E; [|lia]. cbn [negb].
  rewrite bool_decide_true by done. unfold updateStateAfterTx. rewrite Ht. cbn [HasSender negb orb].
  cbn [o_accounts simpleTransferOutput]. rewrite sum_single. cbn [oa_delta empty_acc]. rewrite Z.eqb_refl.
  eexists _, _. split; [done|]. split; [done|].
  set (w1 := UpdateBalanceWithDelta _ _ _).
  assert (forall addr, mw_accts w1 !! addr =
    if bool_decide (addr = jb_value (t_from tx)) then Some (charged (fee_of tx + value) a) else mw_accts w !! addr) as H1.
  { intros addr. unfold w1, UpdateBalanceWithDelta. cbn [mw_accts set_mw_accts]. case_bool_decide as Ea.
    - subst addr. rewrite lookup_alter, lookup_insert. cbn. f_equal. unfold charged, set_wa_balance. cbn. f_equal. lia.
    - rewrite lookup_alter_ne, lookup_insert_ne by congruence. done. }
  set (to := jb_value (t_to tx)) in *. set (from := jb_value (t_from tx)) in *.
  assert (forall x, mw_accts w1 !! to = Some x -> 0 <= wa_nonce x) as Hx.
  { intros x. rewrite H1. case_bool_decide as E1.
    - intros [= <-]. cbn. apply Z.mod_pos_bound. lia.
    - intros E2. unfold nonce_of in Hn. by rewrite E2 in Hn. }
  assert (forall addr, mw_accts (CommitChanges (UpdateAccounts (W := W) {[to := empty_acc value]} w1)) !! addr =
    if bool_decide (addr = to)
    then let x := default (new_account to []) (mw_accts w1 !! to) in
      Some (mkWAcc true (wa_address x) (wa_nonce x) (wa_balance x + value) (wa_delta x)
        (wa_storage x) (wa_code x) (wa_codehash x) (wa_meta x) (wa_owner x)
        (wa_async x) (wa_username x) (wa_reward x) (wa_shard x) (wa_is_sc x))
    else mw_accts w1 !! addr) as H2.
  { intros addr. unfold CommitChanges. cbn [mw_accts set_mw_snaps]. rewrite update_single.
    case_bool_decide; [|done]. rewrite update_plain by done. cbn [oa_delta oa_storage empty_acc].
    by rewrite (left_id_L ∅ (∪)). }
  assert (forall x : Z, u64 x = x mod 2 ^ 64) as HU by done.
  unfold moved, balance_of, nonce_of, storage_at, identity_of. split_and!.
  1-5: intros addr; try intros k; rewrite H2; cbv zeta; repeat case_bool_decide; subst; rewrite ?H1;
    repeat case_bool_decide; subst; try congruence; rewrite ?Ha; cbn;
    repeat match goal with |- context [mw_accts ?q !! ?b] => destruct (mw_accts q !! b) eqn:? end; cbn; try lia; try done;
    try (split; [tauto || eauto|eauto]; fail); try (split; intros; eauto; tauto).
  all: try done.
  all: match goal with A : mw_accts _ !! ?f = Some _, B : mw_accts _ !! ?t = _, E : ?t = ?f |- _ => rewrite E, A in B end; by simplify_eq.
Qed.

Lemma rewarded_ok ident tx w a value :
  t_type tx = ValidatorReward -> jz_value (t_value tx) = Some value ->
  mw_accts w !! jb_value (t_to tx) = Some a -> 0 <= wa_nonce a ->
  exists w' o, executeTx (W := W) ident tx w = (w', SOk o) /\ o_code o = RcOk /\
    rewarded (jb_value (t_to tx)) value w w'.
Proof.
  intros Ht Hv Ha Hn. unfold executeTx. rewrite Hv, Ht. cbn [HasSender]. unfold tx_output, senderHasEnoughBalance.
  rewrite Ht. cbn [HasSender negb]. unfold validatorRewardOutput. cbn [mw_accts CreateStateBackup set_mw_snaps].
  rewrite Ha. cbn [o_code]. rewrite bool_decide_true by done. unfold updateStateAfterTx. rewrite Ht. cbn [HasSender negb orb].
  cbn [o_accounts]. set (to := jb_value (t_to tx)) in *.
  set (sum := be_encode _).
  eexists _, _. split; [done|]. split; [done|].
  set (w1 := set_mw_accts _ _).
  assert (forall addr, mw_accts w1 !! addr =
    if bool_decide (addr = to) then Some (set_wa_delta value a) else mw_accts w !! addr) as H1.
  { intros addr. unfold w1. cbn [mw_accts set_mw_accts set_mw_snaps CreateStateBackup]. case_bool_decide as Ea.
    - subst addr. by rewrite lookup_insert.
    - by rewrite lookup_insert_ne by congruence. }
  assert (forall addr, mw_accts (CommitChanges (UpdateAccounts (W := W) {[to := set_oa_storage {[ElrondRewardKey := sum]} (empty_acc value)]} w1)) !! addr =
    if bool_decide (addr = to)
    then Some (mkWAcc true (wa_address a) (wa_nonce a) (wa_balance a + value) value
        ({[ElrondRewardKey := sum]} ∪ wa_storage a) (wa_code a) (wa_codehash a) (wa_meta a) (wa_owner a)
        (wa_async a) (wa_username a) (wa_reward a) (wa_shard a) (wa_is_sc a))
    else mw_accts w !! addr) as H2.
  { intros addr. unfold CommitChanges. cbn [mw_accts set_mw_snaps]. rewrite update_single. rewrite !H1.
    rewrite (bool_decide_true (to = to)) by done.
    case_bool_decide; [|done]. rewrite update_plain; [by destruct a|done..|]. intros x [= <-]. by destruct a. }
  unfold rewarded, balance_of, nonce_of, storage_at, identity_of. split_and!.
  4: { exists sum. rewrite H2, Ha, bool_decide_true by done. cbn [wa_storage]. split.
    - apply lookup_union_Some_l. by rewrite lookup_singleton.
    - split.
      + rewrite <- !be_decode_value. unfold sum. rewrite be_decode_encode. unfold StorageValue. done.
      + unfold sum. pose proof (be_encode_lead (be_decode (StorageValue a ElrondRewardKey) + value)) as HL.
        destruct (be_encode _) as [|b l]; [done|]. cbn in *. intros [= ->]. by apply HL. }
  3: { intros addr k Hk. rewrite H2. case_bool_decide; [|done]. subst addr. rewrite Ha. cbn [wa_storage].
    rewrite lookup_union_r; [done|]. apply lookup_singleton_ne. intros <-. by apply Hk. }
  1-4: intros addr; rewrite H2; case_bool_decide; subst; rewrite ?Ha; cbn; try done; try lia.
  all: done.
Qed.

Lemma unaffordable ident tx w a value :
  has_sender tx -> t_esdt tx = None -> jz_value (t_value tx) = Some value ->
  mw_accts w !! jb_value (t_from tx) = Some a ->
  (wa_balance a < fee_of tx -> snd (executeTx (W := W) ident tx w) = SErr) /\
  (fee_of tx <= wa_balance a < fee_of tx + value -> exists o,
     snd (executeTx (W := W) ident tx w) = SOk o /\ o_code o = RcOutOfFunds).
Proof.
  intros Hs He Hv Ha. apply has_sender_iff in Hs. unfold executeTx. rewrite Hv, He, Hs.
  unfold UpdateWorldStateBefore. cbn [mw_accts CreateStateBackup set_mw_snaps]. rewrite Ha.
  assert (wa_balance (set_wa_nonce (u64 (wa_nonce a + 1)) a) = wa_balance a) as -> by by destruct a.
  fold (fee_of tx). split; intros H.
  - destruct (wa_balance a <? fee_of tx) eqn:E; [done|lia].
  - destruct (wa_balance a <? fee_of tx) eqn:E; [lia|]. cbn beta iota.
    unfold tx_output, senderHasEnoughBalance. rewrite Hs. cbn [mw_accts set_mw_accts]. rewrite lookup_insert.
    assert (wa_balance (set_wa_balance (wa_balance a - fee_of tx) (set_wa_nonce (u64 (wa_nonce a + 1)) a)) = wa_balance a - fee_of tx)
      as -> by by destruct a.
    destruct (value <=? wa_balance a - fee_of tx) eqn:E2; [lia|]. cbn [negb]. by exists outOfFundsResult.
Qed.
End Transfers.
