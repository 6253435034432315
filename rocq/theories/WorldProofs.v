(** Proofs about the transaction steps of a scenario. *)
From Verif Require Import WorldModel WorldSpec CheckProofs.
From Coq Require Import ZifyBool ZifyNat ZifyN.
Local Open Scope Z_scope.

Definition bare (a : waccount) : waccount := set_wa_storage ∅ a.
Lemma bare_eq a b s : bare a = bare b -> wa_storage b = s -> set_wa_storage s a = b.
Proof. destruct a, b. unfold bare, set_wa_storage. cbn. intros [= -> -> -> -> -> -> -> -> -> -> -> -> -> ->] ->. reflexivity. Qed.
Lemma bare_set s a : bare (set_wa_storage s a) = bare a.
Proof. reflexivity. Qed.
Lemma set_storage_set s s' a : set_wa_storage s (set_wa_storage s' a) = set_wa_storage s a.
Proof. reflexivity. Qed.

(** ** Reloading storage *)
Lemma load_all keys other : forall m,
  (forall k, k ∈ keys -> is_Some (other !! k)) ->
  exists m', load_storages keys other m = (m', true) /\
    forall k, m' !! k = if bool_decide (k ∈ keys)
                        then (fun a => set_wa_storage (match other !! k with Some o => wa_storage o | None => ∅ end) a) <$> m !! k
                        else m !! k.
Proof.
  induction keys as [|k0 keys IH]; intros m Hk; cbn [load_storages].
  - exists m. split; [reflexivity|]. intros k. reflexivity.
  - destruct (Hk k0 (elem_of_list_here _ _)) as [o Ho]. rewrite Ho.
    destruct (IH (alter (set_wa_storage (wa_storage o)) k0 m)) as (m' & -> & Hm').
    { intros k Hin. apply Hk. right. exact Hin. }
    exists m'. split; [reflexivity|]. intros k. rewrite Hm'.
    destruct (decide (k = k0)) as [->|Hne].
    + rewrite lookup_alter, Ho. rewrite (bool_decide_eq_true_2 (k0 ∈ k0 :: keys)) by left.
      destruct (bool_decide (k0 ∈ keys)); [|reflexivity].
      destruct (m !! k0); reflexivity.
    + rewrite lookup_alter_ne by congruence.
      destruct (bool_decide_reflect (k ∈ keys)) as [Hi|Hi].
      * rewrite bool_decide_eq_true_2 by (right; exact Hi). reflexivity.
      * rewrite bool_decide_eq_false_2; [reflexivity|]. intros [H|H]%elem_of_cons; contradiction.
Qed.

Lemma load_bare keys other : forall m m' ok, load_storages keys other m = (m', ok) ->
  bare <$> m' = bare <$> m.
Proof.
  induction keys as [|k keys IH]; intros m m' ok; cbn [load_storages].
  - intros [= <- <-]. reflexivity.
  - destruct (other !! k) as [o|]; [|intros [= <- <-]; reflexivity].
    intros H. rewrite (IH _ _ _ H). apply map_eq. intros i. rewrite !lookup_fmap.
    destruct (decide (i = k)) as [->|Hne]; [rewrite lookup_alter|rewrite lookup_alter_ne by congruence; reflexivity].
    destruct (m !! k); reflexivity.
Qed.

Section Tx.
Context (W : wenv) (HO : visits_each_once W).

Lemma revert_ok n w s : 0 <= n -> mw_snaps w !! Z.to_nat n = Some s ->
  (forall k, is_Some (mw_accts w !! k) -> is_Some (s !! k)) ->
  exists m, RevertToSnapshot n w = (set_mw_accts m (set_mw_snaps (take (Z.to_nat n) (mw_snaps w)) w), true) /\
    forall k, m !! k = (fun a => set_wa_storage (match s !! k with Some o => wa_storage o | None => ∅ end) a) <$> mw_accts w !! k.
Proof.
  intros Hn Hs Hd. unfold RevertToSnapshot.
  assert (Hl : (Z.to_nat n < length (mw_snaps w))%nat) by (eapply lookup_lt_Some; exact Hs).
  replace ((n <? 0) || (Z.of_nat (length (mw_snaps w)) <=? n)) with false by lia.
  rewrite Hs. unfold LoadAccountStorageFrom.
  destruct (load_all (we_order W (map fst (map_to_list (mw_accts w)))) s (mw_accts w)) as (m & Hm & Hk).
  { intros k Hin. apply Hd. rewrite <- (HO _) in Hin. apply elem_of_list_fmap in Hin as ([k' a] & -> & Hin).
    apply elem_of_map_to_list in Hin. eauto. }
  rewrite Hm. exists m. split; [reflexivity|]. intros k. rewrite Hk.
  destruct (bool_decide_reflect (k ∈ we_order W (map fst (map_to_list (mw_accts w))))) as [Hi|Hi]; [reflexivity|].
  destruct (mw_accts w !! k) as [a|] eqn:Ha; [|reflexivity].
  exfalso. apply Hi. rewrite <- (HO _). apply elem_of_list_fmap. exists (k, a). split; [reflexivity|].
  apply elem_of_map_to_list. exact Ha.
Qed.

Lemma revert_bare n w : bare <$> mw_accts (fst (RevertToSnapshot n w)) = bare <$> mw_accts w.
Proof.
  unfold RevertToSnapshot. destruct (_ || _); [reflexivity|].
  destruct (mw_snaps w !! Z.to_nat n) as [s|]; [|reflexivity].
  unfold LoadAccountStorageFrom. destruct (load_storages _ _ _) as [m ok] eqn:Hm. cbn.
  exact (load_bare _ _ _ _ _ Hm).
Qed.
Lemma revert_frame n w :
  let w' := fst (RevertToSnapshot n w) in
  mw_previous w' = mw_previous w /\ mw_current w' = mw_current w /\
  mw_hashes w' = mw_hashes w /\ mw_mocks w' = mw_mocks w.
Proof.
  unfold RevertToSnapshot. destruct (_ || _); [cbn; auto|].
  destruct (mw_snaps w !! Z.to_nat n) as [s|]; [|cbn; auto].
  destruct (LoadAccountStorageFrom _ _). cbn. auto.
Qed.
Lemma revert_snaps n w : n <> 0 -> forall s rest, mw_snaps w = s :: rest ->
  exists rest', mw_snaps (fst (RevertToSnapshot n w)) = s :: rest'.
Proof.
  intros Hn s rest Hs. unfold RevertToSnapshot. destruct (_ || _) eqn:Hc; [exists rest; exact Hs|].
  destruct (mw_snaps w !! Z.to_nat n) as [t|]; [|exists rest; exact Hs].
  destruct (LoadAccountStorageFrom _ _). cbn. rewrite Hs.
  destruct (Z.to_nat n) as [|p] eqn:Hp; [lia|]. cbn. eauto.
Qed.

Definition frame_eq (w w' : mworld) : Prop :=
  mw_previous w' = mw_previous w /\ mw_current w' = mw_current w /\
  mw_hashes w' = mw_hashes w /\ mw_mocks w' = mw_mocks w.
Lemma frame_refl w : frame_eq w w.
Proof. unfold frame_eq. auto. Qed.
Lemma frame_trans a b c : frame_eq a b -> frame_eq b c -> frame_eq a c.
Proof. unfold frame_eq. intuition congruence. Qed.

(** What a run that writes only storage keeps. *)
Definition kept (w w' : mworld) : Prop :=
  frame_eq w w' /\ bare <$> mw_accts w' = bare <$> mw_accts w.
Lemma kept_refl w : kept w w.
Proof. split; [apply frame_refl|reflexivity]. Qed.
Lemma kept_trans a b c : kept a b -> kept b c -> kept a c.
Proof. intros [H1 H2] [H3 H4]. split; [eapply frame_trans; eassumption|congruence]. Qed.

Lemma hook_kept o w : storage_only [o] -> kept w (hook_step o w).
Proof.
  intros H. inversion H as [|? ? Ho _]; subst. destruct o; try contradiction; cbn [hook_step].
  - split; [split; auto|]. cbn. apply map_eq. intros i. rewrite !lookup_fmap.
    destruct (decide (i = a)) as [->|Hne]; [rewrite lookup_alter|rewrite lookup_alter_ne by congruence; reflexivity].
    destruct (mw_accts w !! a); reflexivity.
  - split; [apply revert_frame|apply revert_bare].
Qed.
Lemma hooks_kept ops : forall w, storage_only ops -> kept w (hook_steps ops w).
Proof.
  induction ops as [|o ops IH]; intros w H; [apply kept_refl|].
  inversion H as [|? ? Ho Hr]; subst. unfold hook_steps. cbn [fold_left]. fold (hook_steps ops (hook_step o w)).
  eapply kept_trans; [apply (hook_kept o w); constructor; [exact Ho|constructor]|apply IH, Hr].
Qed.
Lemma hooks_first ops : forall w s rest, keeps_first ops -> mw_snaps w = s :: rest ->
  exists rest', mw_snaps (hook_steps ops w) = s :: rest'.
Proof.
  induction ops as [|o ops IH]; intros w s rest H Hs; [eauto|].
  inversion H as [|? ? Ho Hr]; subst. unfold hook_steps. cbn [fold_left]. fold (hook_steps ops (hook_step o w)).
  assert (Hx : exists rest', mw_snaps (hook_step o w) = s :: rest').
  { destruct o; cbn [hook_step]; try (exists rest; exact Hs).
    - exists (rest ++ [mw_accts (set_mw_accts (alter (set_key k v) a (mw_accts w)) w)]). cbn. rewrite Hs. reflexivity.
    - eapply revert_snaps; eassumption. }
  destruct Hx as [rest' Hx]. eapply IH; eassumption.
Qed.

(** Rolling back to the first snapshot. *)
Lemma rollback_restores w w1 s rest : kept w1 w -> mw_snaps w = s :: rest ->
  (forall k, wa_storage <$> s !! k = wa_storage <$> mw_accts w1 !! k) ->
  RollbackChanges w = set_mw_snaps [] w1.
Proof.
  intros [(F1 & F2 & F3 & F4) Hb] Hs Hst. unfold RollbackChanges.
  assert (Hba : forall k, bare <$> mw_accts w !! k = bare <$> mw_accts w1 !! k).
  { intros k. rewrite <- !lookup_fmap, Hb. reflexivity. }
  destruct (revert_ok 0 w s) as (m & -> & Hm); [lia|rewrite Hs; reflexivity| |].
  { intros k [a Ha]. specialize (Hst k). specialize (Hba k). rewrite Ha in Hba. cbn in Hba.
    destruct (mw_accts w1 !! k); [|discriminate]. destruct (s !! k); [eauto|discriminate]. }
  cbn. assert (Hmm : m = mw_accts w1).
  { apply map_eq. intros k. rewrite Hm. specialize (Hst k). specialize (Hba k).
    destruct (mw_accts w !! k) as [a|], (mw_accts w1 !! k) as [a1|]; try discriminate Hba; [|reflexivity].
    cbn in Hba |- *. apply (inj Some) in Hba. destruct (s !! k) as [o|]; [|discriminate]. cbn in Hst. apply (inj Some) in Hst.
    f_equal. apply bare_eq; [exact Hba|symmetry; exact Hst]. }
  rewrite Hmm. unfold set_mw_accts, set_mw_snaps. cbn. rewrite F1, F2, F3, F4. reflexivity.
Qed.

(** ** Before the machine runs *)
Lemma sender_dec tx : HasSender (t_type tx) = true <-> has_sender tx.
Proof.
  unfold has_sender. destruct (t_type tx); cbn; split; auto; try discriminate;
    intros [H|[H|H]]; discriminate.
Qed.
Lemma charge_is a fee : set_wa_balance (wa_balance (set_wa_nonce (u64 (wa_nonce a + 1)) a) - fee)
    (set_wa_nonce (u64 (wa_nonce a + 1)) a) = charged fee a.
Proof. reflexivity. Qed.

Definition charge_world (tx : transaction) (w : mworld) : mworld :=
  if HasSender (t_type tx)
  then set_mw_accts (alter (charged (fee_of tx)) (jb_value (t_from tx)) (mw_accts w)) w
  else w.

Lemma before_ok from gl gp w w' : UpdateWorldStateBefore from gl gp w = (w', true) ->
  (exists a, mw_accts w !! from = Some a /\ gl * gp <= wa_balance a) /\
  w' = set_mw_accts (alter (charged (gl * gp)) from (mw_accts w)) w.
Proof.
  unfold UpdateWorldStateBefore. destruct (mw_accts w !! from) as [a|] eqn:Ha; [|discriminate].
  destruct (_ <? _) eqn:Hc; [discriminate|]. intros [= <-].
  split; [exists a; split; [reflexivity|]; cbn in Hc; lia|].
  f_equal. apply map_eq. intros i.
  destruct (decide (i = from)) as [->|Hne].
  - rewrite lookup_insert, lookup_alter, Ha. reflexivity.
  - rewrite lookup_insert_ne, lookup_alter_ne by congruence. reflexivity.
Qed.

Lemma charge_lookup tx w addr :
  mw_accts (charge_world tx w) !! addr =
  (if HasSender (t_type tx) && bool_decide (addr = jb_value (t_from tx))
   then charged (fee_of tx) <$> mw_accts w !! addr else mw_accts w !! addr).
Proof.
  unfold charge_world. destruct (HasSender (t_type tx)); [|reflexivity]. cbn.
  destruct (bool_decide_reflect (addr = jb_value (t_from tx))) as [->|Hne].
  - apply lookup_alter.
  - apply lookup_alter_ne. congruence.
Qed.
Lemma charge_storage tx w k :
  wa_storage <$> mw_accts (charge_world tx w) !! k = wa_storage <$> mw_accts w !! k.
Proof.
  rewrite charge_lookup. destruct (_ && _); [|reflexivity]. destruct (mw_accts w !! k); reflexivity.
Qed.
Lemma charge_only tx w snaps : mw_snaps w = snaps -> only_charged tx w (set_mw_snaps snaps (charge_world tx w)).
Proof.
  intros <-. unfold only_charged.
  assert (Ha : mw_accts (set_mw_snaps (mw_snaps w) (charge_world tx w)) = mw_accts (charge_world tx w)) by reflexivity.
  rewrite Ha. split; [|split].
  - intros addr a Hl. rewrite charge_lookup, Hl. pose proof (sender_dec tx) as Hd.
    destruct (HasSender (t_type tx)); cbn.
    + destruct (bool_decide_reflect (addr = jb_value (t_from tx))) as [He|He].
      * split; [reflexivity|]. intros Hn. exfalso. apply Hn. split; [apply Hd; reflexivity|exact He].
      * split; [intros [_ ?]; contradiction|reflexivity].
    + split; [|reflexivity]. intros [Hs _]. apply Hd in Hs. discriminate.
  - intros addr Hl. rewrite charge_lookup, Hl. destruct (_ && _); reflexivity.
  - unfold charge_world. destruct (HasSender (t_type tx)); cbn; auto.
Qed.

(** What [executeTx] is: the sender pays, tokens move, the machine runs, the
    state is updated or rolled back. *)
Definition after_start (tx : transaction) (w : mworld) : mworld := charge_world tx (CreateStateBackup w).

Inductive started (tx : transaction) (w : mworld) : mworld -> Z -> Prop :=
| started_none : t_esdt tx = None \/ HasSender (t_type tx) = false ->
    started tx w (after_start tx w) (if HasSender (t_type tx) then ju_value (t_gaslimit tx) else 0)
| started_esdt e w2 gas : t_esdt tx = Some e -> HasSender (t_type tx) = true ->
    directESDTTransferFromTx tx e (after_start tx w) = (w2, SOk gas) ->
    started tx w w2 gas.

Lemma execute_inv ident tx w w' o : executeTx ident tx w = (w', SOk o) ->
  exists value w2 gas w3, jz_value (t_value tx) = Some value /\ started tx w w2 gas /\
    (HasSender (t_type tx) = true -> exists a, mw_accts w !! jb_value (t_from tx) = Some a /\ fee_of tx <= wa_balance a) /\
    tx_output ident tx value gas w2 = (w3, SOk o) /\
    ((o_code o <> RcOk /\ w' = RollbackChanges w3) \/
     (o_code o = RcOk /\ exists w4, updateStateAfterTx tx value o w3 = (w4, true) /\ w' = CommitChanges w4)).
Proof.
  unfold executeTx. destruct (jz_value (t_value tx)) as [value|]; [|discriminate].
  intros H. exists value.
  assert (Hstart : exists w2 gas, started tx w w2 gas /\
    (HasSender (t_type tx) = true -> exists a, mw_accts w !! jb_value (t_from tx) = Some a /\ fee_of tx <= wa_balance a) /\
    (let '(w, r) := tx_output ident tx value gas w2 in
      match r with
      | SErr => (RollbackChanges w, SErr)
      | SPanic => (w, SPanic)
      | SOk o =>
          if bool_decide (o_code o = RcOk) then
            let '(w, ok) := updateStateAfterTx tx value o w in
            (CommitChanges w, if ok then SOk o else SErr)
          else (RollbackChanges w, SOk o)
      end) = (w', SOk o)).
  { destruct (HasSender (t_type tx)) eqn:Hs.
    - destruct (UpdateWorldStateBefore _ _ _ _) as [w1 [|]] eqn:Hb; [|discriminate].
      apply before_ok in Hb as [Hbal Hw1].
      assert (Hw1' : w1 = after_start tx w) by (unfold after_start, charge_world; rewrite Hs; exact Hw1).
      destruct (t_esdt tx) as [e|] eqn:He.
      + destruct (directESDTTransferFromTx tx e w1) as [w2 [gas| |]] eqn:Hd; try discriminate.
        rewrite Hw1' in Hd. exists w2, gas. split; [econstructor 2; eassumption|]. split; [intros _; exact Hbal|exact H].
      + exists w1, (ju_value (t_gaslimit tx)). split; [|split; [intros _; exact Hbal|exact H]].
        rewrite Hw1'. pose proof (started_none tx w (or_introl He)) as Hn. rewrite Hs in Hn. exact Hn.
    - exists (after_start tx w), 0. split; [|split; [discriminate|]].
      + pose proof (started_none tx w (or_intror Hs)) as Hn. rewrite Hs in Hn. exact Hn.
      + unfold after_start, charge_world. rewrite Hs. exact H. }
  destruct Hstart as (w2 & gas & Hst & Hbal & Hrest). exists w2, gas.
  destruct (tx_output ident tx value gas w2) as [w3 [o'| |]]; try discriminate.
  exists w3. destruct (bool_decide_reflect (o_code o' = RcOk)) as [Hc|Hc].
  - destruct (updateStateAfterTx tx value o' w3) as [w4 [|]] eqn:Hu; [|discriminate].
    injection Hrest as <- <-. split; [reflexivity|]. split; [exact Hst|]. split; [exact Hbal|]. split; [reflexivity|].
    right. split; [exact Hc|]. exists w4. split; [exact Hu|reflexivity].
  - injection Hrest as <- <-. split; [reflexivity|]. split; [exact Hst|]. split; [exact Hbal|]. split; [reflexivity|].
    left. split; [exact Hc|reflexivity].
Qed.

(** ** Every run of the machine, with a property of its writes *)
Lemma started_hooks (P : list hook_op -> Prop) tx w w2 gas : P [] -> vm_always P W -> started tx w w2 gas ->
  exists ops, P ops /\ w2 = hook_steps ops (after_start tx w).
Proof.
  intros P0 [HP _] Hs. inversion Hs as [|e ? ? He Ht Hd]; subst; [exists []; auto|].
  unfold directESDTTransferFromTx in Hd. destruct (jz_value (tx_tvalue e)); [|discriminate].
  destruct (mw_accts (after_start tx w) !! jb_value (t_from tx)); [|discriminate].
  match type of Hd with context [we_transfer W ?x ?c] => set (cc := c) in * end.
  destruct (mw_accts (after_start tx w) !! ci_rcpt cc); [|discriminate].
  unfold vm_run in Hd. injection Hd as <- _. exists (fst (we_transfer W (after_start tx w) cc)). split; [apply HP|reflexivity].
Qed.
Lemma output_hooks (P : list hook_op -> Prop) ident tx value gas w2 w3 o : P [] -> vm_always P W ->
  t_type tx <> ValidatorReward ->
  tx_output ident tx value gas w2 = (w3, SOk o) -> exists ops, P ops /\ w3 = hook_steps ops w2.
Proof.
  intros P0 (_ & HPc & HPd) Ht H. unfold tx_output in H.
  destruct (negb (senderHasEnoughBalance tx value w2)); [injection H as <- _; exists []; auto|].
  destruct (t_type tx); try contradiction.
  - unfold scCreate, vm_run in H. injection H as <- _. eexists. split; [apply HPd|reflexivity].
  - unfold scCall in H. destruct (mw_accts w2 !! _) as [a|]; [|discriminate]. destruct (wa_code a); [discriminate|].
    unfold vm_run in H. injection H as <- _. eexists. split; [apply HPc|reflexivity].
  - unfold scCall in H. destruct (mw_accts w2 !! _) as [a|]; [|discriminate]. destruct (wa_code a); [discriminate|].
    unfold vm_run in H. injection H as <- _. eexists. split; [apply HPc|reflexivity].
  - injection H as <- _. exists []. auto.
Qed.

(** ** A failed transaction *)
Lemma reward_output ident tx value gas w2 w3 o : t_type tx = ValidatorReward ->
  tx_output ident tx value gas w2 = (w3, SOk o) ->
  exists a, mw_accts w2 !! jb_value (t_to tx) = Some a /\
    w3 = set_mw_accts (<[jb_value (t_to tx) := set_wa_delta value a]> (mw_accts w2)) w2 /\
    o = mkOut [] RcOk [] 0 (Some 0)
          {[jb_value (t_to tx) := set_oa_storage {[ElrondRewardKey :=
               be_encode (be_decode (StorageValue a ElrondRewardKey) + value)]} (empty_acc value)]} [].
Proof.
  intros Ht H. unfold tx_output, senderHasEnoughBalance in H. rewrite Ht in H. cbn [HasSender negb] in H.
  unfold validatorRewardOutput in H. destruct (mw_accts w2 !! _) as [a|]; [|discriminate].
  injection H as <- <-. exists a. auto.
Qed.

Lemma failed_charged ident tx w w' o :
  vm_always storage_only W -> vm_always keeps_first W -> mw_snaps w = [] ->
  executeTx ident tx w = (w', SOk o) -> o_code o <> RcOk -> only_charged tx w w'.
Proof.
  intros HS HK Hsn H Hc. apply execute_inv in H as (value & w2 & gas & w3 & _ & Hst & _ & Hout & Hend).
  destruct Hend as [[_ ->]|[Hc' _]]; [|contradiction].
  assert (HB : vm_always (fun ops => storage_only ops /\ keeps_first ops) W).
  { destruct HS as (A1 & A2 & A3), HK as (B1 & B2 & B3). repeat split; auto. }
  assert (HB0 : (fun ops => storage_only ops /\ keeps_first ops) []) by (split; constructor).
  destruct (started_hooks _ tx w w2 gas HB0 HB Hst) as (ops1 & [S1 K1] & Hw2).
  destruct (decide (t_type tx = ValidatorReward)) as [Hv|Hv].
  { destruct (reward_output _ _ _ _ _ _ _ Hv Hout) as (a & _ & _ & Ho). rewrite Ho in Hc. cbn in Hc. contradiction. }
  destruct (output_hooks _ ident tx value gas w2 w3 o HB0 HB Hv Hout) as (ops2 & [S2 K2] & Hw3).
  assert (Hsn0 : mw_snaps (after_start tx w) = mw_accts w :: []).
  { unfold after_start, charge_world. destruct (HasSender (t_type tx)); cbn; rewrite Hsn; reflexivity. }
  destruct (hooks_first ops1 _ _ _ K1 Hsn0) as (r1 & Hr1). rewrite <- Hw2 in Hr1.
  destruct (hooks_first ops2 _ _ _ K2 Hr1) as (r2 & Hr2). rewrite <- Hw3 in Hr2.
  assert (Hkept : kept (after_start tx w) w3).
  { eapply kept_trans; [|rewrite Hw3; apply hooks_kept, S2]. rewrite Hw2. apply hooks_kept, S1. }
  rewrite (rollback_restores w3 (after_start tx w) (mw_accts w) r2 Hkept Hr2).
  2: { intros k. unfold after_start. rewrite charge_storage. reflexivity. }
  replace (set_mw_snaps [] (after_start tx w)) with (set_mw_snaps [] (charge_world tx w)).
  - apply charge_only. exact Hsn.
  - unfold after_start, charge_world. destruct (HasSender (t_type tx)); reflexivity.
Qed.

(** ** A successful transaction *)
Definition upd (outs : gmap bytes out_account) (addr : bytes) (a : option waccount) : option waccount :=
  match outs !! addr with
  | Some o => Some (UpdateAccountFromOutputAccount addr o a)
  | None => a
  end.
Lemma update_lookup outs w addr :
  mw_accts (UpdateAccounts outs w) !! addr = upd outs addr (mw_accts w !! addr).
Proof.
  unfold UpdateAccounts, upd. cbn. rewrite lookup_merge, map_lookup_imap.
  destruct (outs !! addr), (mw_accts w !! addr); reflexivity.
Qed.
Lemma update_frame outs w : frame_eq w (UpdateAccounts outs w) /\ mw_snaps (UpdateAccounts outs w) = mw_snaps w.
Proof. unfold frame_eq. cbn. auto. Qed.

Lemma state_after tx value o w w' ok : updateStateAfterTx tx value o w = (w', ok) ->
  (forall addr, mw_accts w' !! addr =
     upd (o_accounts o) addr
       ((fun a => if HasSender (t_type tx) && bool_decide (addr = jb_value (t_from tx))
                  then set_wa_balance (wa_balance a - value) a else a) <$> mw_accts w !! addr)) /\
  frame_eq w w' /\ (ok = true -> has_sender tx -> total_delta (o_accounts o) = value).
Proof.
  unfold updateStateAfterTx. intros [= <- <-]. split; [|split].
  - intros addr. rewrite update_lookup. f_equal. destruct (HasSender (t_type tx)); cbn.
    + destruct (bool_decide_reflect (addr = jb_value (t_from tx))) as [->|Hne].
      * rewrite lookup_alter. destruct (mw_accts w !! _); reflexivity.
      * rewrite lookup_alter_ne by congruence. destruct (mw_accts w !! _); reflexivity.
    + destruct (mw_accts w !! _); reflexivity.
  - destruct (HasSender (t_type tx)); cbn; unfold frame_eq; auto.
  - intros Hok Hs. apply sender_dec in Hs. rewrite Hs in Hok. cbn [negb orb] in Hok. unfold sum_deltas in Hok. unfold total_delta. lia.
Qed.

(** The account before the output is applied. *)
Lemma before_output ident tx w w2 w3 o value gas :
  vm_always storage_only W -> started tx w w2 gas -> tx_output ident tx value gas w2 = (w3, SOk o) ->
  frame_eq w w3 /\
  forall addr, exists f : waccount -> waccount,
    (forall a, wa_exists (f a) = wa_exists a /\ wa_address (f a) = wa_address a /\
       wa_nonce (f a) = (if HasSender (t_type tx) && bool_decide (addr = jb_value (t_from tx)) then u64 (wa_nonce a + 1) else wa_nonce a) /\
       wa_balance (f a) = (if HasSender (t_type tx) && bool_decide (addr = jb_value (t_from tx)) then wa_balance a - fee_of tx else wa_balance a) /\
       wa_code (f a) = wa_code a /\ wa_codehash (f a) = wa_codehash a /\ wa_meta (f a) = wa_meta a /\
       wa_owner (f a) = wa_owner a /\ wa_async (f a) = wa_async a /\ wa_username (f a) = wa_username a /\
       wa_reward (f a) = wa_reward a /\ wa_shard (f a) = wa_shard a /\ wa_is_sc (f a) = wa_is_sc a) /\
    mw_accts w3 !! addr = f <$> mw_accts w !! addr.
Proof.
  intros HS Hst Hout.
  destruct (started_hooks _ tx w w2 gas (List.Forall_nil _) HS Hst) as (ops1 & S1 & Hw2).
  assert (Hk : kept (after_start tx w) w2) by (rewrite Hw2; apply hooks_kept, S1).
  assert (Hw3 : exists g : bytes -> Z -> Z, frame_eq w2 w3 /\
     forall addr, (fun a => set_wa_delta 0 (bare a)) <$> mw_accts w3 !! addr = (fun a => set_wa_delta 0 (bare a)) <$> mw_accts w2 !! addr).
  { exists (fun _ z => z). destruct (decide (t_type tx = ValidatorReward)) as [Hv|Hv].
    - destruct (reward_output _ _ _ _ _ _ _ Hv Hout) as (a & Ha & -> & _). split; [unfold frame_eq; cbn; auto|].
      intros addr. cbn. destruct (decide (addr = jb_value (t_to tx))) as [->|Hne].
      + rewrite lookup_insert, Ha. reflexivity.
      + rewrite lookup_insert_ne by congruence. reflexivity.
    - destruct (output_hooks _ ident tx value gas w2 w3 o (List.Forall_nil _) HS Hv Hout) as (ops2 & S2 & ->).
      destruct (hooks_kept ops2 w2 S2) as [Hf Hb]. split; [exact Hf|]. intros addr.
      assert (Hbb : bare <$> mw_accts (hook_steps ops2 w2) !! addr = bare <$> mw_accts w2 !! addr).
      { rewrite <- !lookup_fmap, Hb. reflexivity. }
      destruct (mw_accts (hook_steps ops2 w2) !! addr), (mw_accts w2 !! addr); try discriminate Hbb; [|reflexivity].
      cbn in Hbb |- *. apply (inj Some) in Hbb. rewrite Hbb. reflexivity. }
  destruct Hw3 as (_ & Hf3 & H3). destruct Hk as [Hf2 Hb2]. split.
  - eapply frame_trans; [|exact Hf3]. eapply frame_trans; [|exact Hf2].
    unfold after_start, charge_world, frame_eq. destruct (HasSender (t_type tx)); cbn; auto.
  - intros addr. specialize (H3 addr).
    assert (H2 : bare <$> mw_accts w2 !! addr = bare <$> mw_accts (after_start tx w) !! addr).
    { rewrite <- !lookup_fmap, Hb2. reflexivity. }
    assert (H1 : mw_accts (after_start tx w) !! addr =
      (if HasSender (t_type tx) && bool_decide (addr = jb_value (t_from tx))
       then charged (fee_of tx) <$> mw_accts w !! addr else mw_accts w !! addr)).
    { unfold after_start. rewrite charge_lookup. reflexivity. }
    rewrite H1 in H2. clear H1.
    destruct (mw_accts w !! addr) as [a|].
    + destruct (mw_accts w3 !! addr) as [a3|].
      2: { destruct (mw_accts w2 !! addr); [discriminate|]. destruct (_ && _); discriminate. }
      destruct (mw_accts w2 !! addr) as [a2|]; [|discriminate].
      exists (fun x => mkWAcc (wa_exists x) (wa_address x)
                 (if HasSender (t_type tx) && bool_decide (addr = jb_value (t_from tx)) then u64 (wa_nonce x + 1) else wa_nonce x)
                 (if HasSender (t_type tx) && bool_decide (addr = jb_value (t_from tx)) then wa_balance x - fee_of tx else wa_balance x)
                 (wa_delta a3) (wa_storage a3) (wa_code x) (wa_codehash x) (wa_meta x) (wa_owner x)
                 (wa_async x) (wa_username x) (wa_reward x) (wa_shard x) (wa_is_sc x)).
      split; [intros; cbn; repeat split; reflexivity|]. cbn. f_equal.
      cbn in H3. apply (inj Some) in H3 as H3'. revert H3' H2. destruct a3, a2, a. unfold bare, set_wa_delta, set_wa_storage.
      destruct (_ && _); cbn; intros; repeat match goal with H : Some _ = Some _ |- _ => apply (inj Some) in H end; unfold charged in *; cbn in *; simplify_eq; subst; try reflexivity.
      all: injection H2; intros; subst; reflexivity.
    + assert (Hn : mw_accts w3 !! addr = None).
      { destruct (mw_accts w2 !! addr); [destruct (_ && _); discriminate|]. destruct (mw_accts w3 !! addr); [discriminate|reflexivity]. }
      exists (fun x => mkWAcc (wa_exists x) (wa_address x)
                 (if HasSender (t_type tx) && bool_decide (addr = jb_value (t_from tx)) then u64 (wa_nonce x + 1) else wa_nonce x)
                 (if HasSender (t_type tx) && bool_decide (addr = jb_value (t_from tx)) then wa_balance x - fee_of tx else wa_balance x)
                 0 ∅ (wa_code x) (wa_codehash x) (wa_meta x) (wa_owner x)
                 (wa_async x) (wa_username x) (wa_reward x) (wa_shard x) (wa_is_sc x)).
      split; [intros; cbn; repeat split; reflexivity|]. rewrite Hn. reflexivity.
Qed.

Lemma upd_fields addr o a :
  let b := UpdateAccountFromOutputAccount addr o (Some a) in
  wa_address b = wa_address a /\ wa_owner b = wa_owner a /\ wa_username b = wa_username a /\
  wa_reward b = wa_reward a /\ wa_shard b = wa_shard a /\
  wa_balance b = wa_balance a + oa_delta o /\
  wa_nonce b = Z.max (wa_nonce a) (oa_nonce o) /\
  (if bool_decide (oa_code o = [])
   then wa_code b = wa_code a /\ wa_codehash b = wa_codehash a /\ wa_meta b = wa_meta a /\ wa_is_sc b = wa_is_sc a
   else wa_code b = oa_code o /\ wa_codehash b = we_sha W (oa_code o) /\ wa_meta b = we_meta W /\ wa_is_sc b = true) /\
  wa_async b = match oa_transfers o with
               | t :: _ => if bool_decide (ot_data t = []) then wa_async a else ot_data t
               | [] => wa_async a
               end /\
  wa_storage b = oa_storage o ∪ wa_storage a.
Proof.
  unfold UpdateAccountFromOutputAccount. cbn zeta.
  set (a1 := set_wa_balance _ _). 
  assert (H1 : wa_address a1 = wa_address a /\ wa_owner a1 = wa_owner a /\ wa_username a1 = wa_username a /\
    wa_reward a1 = wa_reward a /\ wa_shard a1 = wa_shard a /\ wa_balance a1 = wa_balance a + oa_delta o /\ wa_nonce a1 = wa_nonce a /\
    wa_code a1 = wa_code a /\ wa_codehash a1 = wa_codehash a /\ wa_meta a1 = wa_meta a /\ wa_is_sc a1 = wa_is_sc a /\
    wa_async a1 = wa_async a /\ wa_storage a1 = wa_storage a) by (cbn; repeat split; reflexivity).
  clearbody a1. destruct H1 as (E1 & E2 & E3 & E4 & E5 & E6 & E7 & E8 & E9 & E10 & E11 & E12 & E13).
  set (a2 := if wa_nonce a1 <? oa_nonce o then _ else _).
  assert (H2 : wa_address a2 = wa_address a /\ wa_owner a2 = wa_owner a /\ wa_username a2 = wa_username a /\
    wa_reward a2 = wa_reward a /\ wa_shard a2 = wa_shard a /\ wa_balance a2 = wa_balance a + oa_delta o /\ wa_nonce a2 = Z.max (wa_nonce a) (oa_nonce o) /\
    wa_code a2 = wa_code a /\ wa_codehash a2 = wa_codehash a /\ wa_meta a2 = wa_meta a /\ wa_is_sc a2 = wa_is_sc a /\
    wa_async a2 = wa_async a /\ wa_storage a2 = wa_storage a).
  { unfold a2. destruct (_ <? _) eqn:Hn; cbn; repeat (split; [assumption || lia|]); assumption. }
  clearbody a2. clear E1 E2 E3 E4 E5 E6 E7 E8 E9 E10 E11 E12 E13 a1.
  destruct H2 as (E1 & E2 & E3 & E4 & E5 & E6 & E7 & E8 & E9 & E10 & E11 & E12 & E13).
  destruct (oa_code o) as [|c code].
  - rewrite bool_decide_eq_true_2 by reflexivity.
    destruct (oa_transfers o) as [|t ts]; [cbn; repeat (split; [assumption || auto|]); congruence|].
    destruct (ot_data t) as [|d ds]; [rewrite bool_decide_eq_true_2 by reflexivity|rewrite bool_decide_eq_false_2 by discriminate]; cbn;
      repeat (split; [assumption || auto|]); congruence.
  - rewrite bool_decide_eq_false_2 by discriminate.
    destruct (oa_transfers o) as [|t ts]; [cbn; repeat (split; [assumption || auto|]); congruence|].
    destruct (ot_data t) as [|d ds]; [rewrite bool_decide_eq_true_2 by reflexivity|rewrite bool_decide_eq_false_2 by discriminate]; cbn;
      repeat (split; [assumption || auto|]); congruence.
Qed.
Lemma upd_new addr o : UpdateAccountFromOutputAccount addr o None =
  UpdateAccountFromOutputAccount addr o (Some (new_account addr (default [] (oa_deployer o)))).
Proof. reflexivity. Qed.
Lemma upd_exists addr o a : wa_exists (UpdateAccountFromOutputAccount addr o a) = true.
Proof.
  unfold UpdateAccountFromOutputAccount. cbn zeta.
  destruct (oa_code o), (oa_transfers o) as [|t ts]; try destruct (ot_data t); cbn; destruct (_ <? _); reflexivity.
Qed.

Lemma succeeded ident tx w w' o :
  vm_always storage_only W -> executeTx ident tx w = (w', SOk o) -> o_code o = RcOk ->
  exists value, jz_value (t_value tx) = Some value /\
  (forall addr a, mw_accts w !! addr = Some a -> exists a', mw_accts w' !! addr = Some a' /\
     applied W value (fee_of tx) (has_sender tx /\ addr = jb_value (t_from tx)) (o_accounts o !! addr) a a') /\
  (forall addr, mw_accts w !! addr = None ->
     match o_accounts o !! addr with
     | Some oa => exists a', mw_accts w' !! addr = Some a' /\ created W addr oa a'
     | None => mw_accts w' !! addr = None
     end) /\
  mw_snaps w' = [] /\ frame_eq w w'.
Proof.
  intros HS H Hc. apply execute_inv in H as (value & w2 & gas & w3 & Hv & Hst & _ & Hout & Hend).
  destruct Hend as [[Hc' _]|(_ & w4 & Hu & ->)]; [contradiction|].
  destruct (before_output ident tx w w2 w3 o value gas HS Hst Hout) as [Hf Hb].
  destruct (state_after tx value o w3 w4 true Hu) as (Ha & Hf' & _).
  exists value. split; [exact Hv|]. split; [|split; [|split]].
  - intros addr a Hl. specialize (Ha addr). cbn.
    destruct (Hb addr) as (f & Hf1 & Hf2). rewrite Hf2, Hl in Ha. cbn [fmap option_fmap option_map] in Ha.
    destruct (Hf1 a) as (F1 & F2 & F3 & F4 & F5 & F6 & F7 & F8 & F9 & F10 & F11 & F12 & F13).
    assert (Hdec : HasSender (t_type tx) && bool_decide (addr = jb_value (t_from tx)) = true <-> has_sender tx /\ addr = jb_value (t_from tx)).
    { rewrite andb_true_iff, bool_decide_eq_true, sender_dec. tauto. }
    set (b := HasSender (t_type tx) && bool_decide (addr = jb_value (t_from tx))) in *.
    set (a1 := if b then set_wa_balance (wa_balance (f a) - value) (f a) else f a) in *.
    assert (G : wa_address a1 = wa_address a /\ wa_owner a1 = wa_owner a /\ wa_username a1 = wa_username a /\ wa_reward a1 = wa_reward a /\
      wa_shard a1 = wa_shard a /\ wa_code a1 = wa_code a /\ wa_codehash a1 = wa_codehash a /\ wa_meta a1 = wa_meta a /\ wa_is_sc a1 = wa_is_sc a /\
      wa_async a1 = wa_async a /\ wa_nonce a1 = (if b then (wa_nonce a + 1) mod 2 ^ 64 else wa_nonce a) /\
      wa_balance a1 = (if b then wa_balance a - fee_of tx - value else wa_balance a)).
    { unfold a1. destruct b; cbn; rewrite ?F4; repeat (split; [assumption|]); first [assumption|reflexivity]. }
    clearbody a1. destruct G as (G1 & G2 & G3 & G4 & G5 & G6 & G7 & G8 & G9 & G10 & G11 & G12).
    unfold upd in Ha. destruct (o_accounts o !! addr) as [oa|].
    + eexists. split; [exact Ha|]. destruct (upd_fields addr oa a1) as (U1 & U2 & U3 & U4 & U5 & U6 & U7 & U8 & U9 & U10).
      unfold applied. split; [|split; [|split; [|split; [|split]]]].
      * intros Hs. apply Hdec in Hs. rewrite Hs in G12. rewrite U6, G12. reflexivity.
      * intros Hs. destruct b; [exfalso; apply Hs, Hdec; reflexivity|]. rewrite U6, G12. reflexivity.
      * intros n Hn1 Hn2. rewrite U7, G11. destruct b; [rewrite Hn1 by (apply Hdec; reflexivity)|rewrite Hn2 by (intros Hs; apply Hdec in Hs; discriminate)]; reflexivity.
      * destruct (bool_decide (oa_code oa = [])); destruct U8 as (V1 & V2 & V3 & V4); repeat split; congruence.
      * rewrite U9, G10. reflexivity.
      * repeat split; congruence.
    + eexists. split; [exact Ha|]. unfold applied. split; [|split; [|split; [|split; [|split]]]].
      * intros Hs. apply Hdec in Hs. rewrite Hs in G12. rewrite G12. lia.
      * intros Hs. destruct b; [exfalso; apply Hs, Hdec; reflexivity|]. rewrite G12. lia.
      * intros n Hn1 Hn2. rewrite G11. destruct b; [rewrite Hn1 by (apply Hdec; reflexivity)|rewrite Hn2 by (intros Hs; apply Hdec in Hs; discriminate)]; reflexivity.
      * repeat split; congruence.
      * exact G10.
      * repeat split; congruence.
  - intros addr Hl. specialize (Ha addr). destruct (Hb addr) as (f & _ & Hf2). rewrite Hf2, Hl in Ha. cbn [fmap option_fmap option_map] in Ha.
    unfold upd in Ha. destruct (o_accounts o !! addr) as [oa|]; [|exact Ha].
    eexists. split; [exact Ha|]. pose proof (upd_exists addr oa None) as Hex. rewrite upd_new in Hex |- *.
    destruct (upd_fields addr oa (new_account addr (default [] (oa_deployer oa)))) as (U1 & U2 & U3 & U4 & U5 & U6 & U7 & U8 & U9 & U10).
    unfold created. repeat (split; [assumption|]). 
    split; [|split; [exact U2|split; [rewrite U10; cbn; apply (right_id_L _ _)|auto]]].
    destruct (bool_decide_reflect (oa_code oa = [])) as [He|He]; [rewrite He; apply U8|apply U8].
  - reflexivity.
  - eapply frame_trans; [exact Hf|]. eapply frame_trans; [exact Hf'|]. unfold frame_eq. cbn. auto.
Qed.

(** ** Money *)
Lemma total_insert addr a m : m !! addr = None ->
  total_balance (<[addr := a]> m) = wa_balance a + total_balance m.
Proof. intros H. unfold total_balance. rewrite map_fold_insert_L; [reflexivity|intros; lia|exact H]. Qed.
Lemma total_pick addr a m : m !! addr = Some a ->
  total_balance m = wa_balance a + total_balance (delete addr m).
Proof.
  intros H. rewrite <- (insert_delete m addr a H) at 1. apply total_insert, lookup_delete.
Qed.
Lemma total_set addr m b : total_balance (<[addr := b]> m) =
  total_balance m + wa_balance b - match m !! addr with Some a => wa_balance a | None => 0 end.
Proof.
  rewrite <- insert_delete_insert. rewrite total_insert by apply lookup_delete.
  destruct (m !! addr) as [a|] eqn:Ha.
  - rewrite (total_pick addr a m Ha). lia.
  - rewrite delete_notin by exact Ha. lia.
Qed.
Lemma delta_insert addr a m : m !! addr = None ->
  total_delta (<[addr := a]> m) = oa_delta a + total_delta m.
Proof. intros H. unfold total_delta. rewrite map_fold_insert_L; [reflexivity|intros; lia|exact H]. Qed.

Lemma total_update outs : forall w,
  total_balance (mw_accts (UpdateAccounts outs w)) = total_balance (mw_accts w) + total_delta outs.
Proof.
  induction outs as [|addr o outs Hn IH] using map_ind; intros w.
  - assert (He : mw_accts (UpdateAccounts ∅ w) = mw_accts w).
    { apply map_eq. intros i. rewrite update_lookup. unfold upd. rewrite lookup_empty. reflexivity. }
    rewrite He. unfold total_delta. rewrite map_fold_empty. lia.
  - assert (He : mw_accts (UpdateAccounts (<[addr := o]> outs) w) =
              <[addr := UpdateAccountFromOutputAccount addr o (mw_accts w !! addr)]> (mw_accts (UpdateAccounts outs w))).
    { apply map_eq. intros i. rewrite update_lookup. unfold upd. destruct (decide (i = addr)) as [->|Hne].
      - rewrite !lookup_insert. reflexivity.
      - rewrite !lookup_insert_ne by congruence. rewrite update_lookup. reflexivity. }
    rewrite He, total_set, IH, delta_insert by exact Hn.
    rewrite update_lookup. unfold upd. rewrite Hn.
    destruct (mw_accts w !! addr) as [a|].
    + destruct (upd_fields addr o a) as (_ & _ & _ & _ & _ & Hb & _). rewrite Hb. lia.
    + rewrite upd_new. destruct (upd_fields addr o (new_account addr (default [] (oa_deployer o)))) as (_ & _ & _ & _ & _ & Hb & _).
      rewrite Hb. cbn. lia.
Qed.
Lemma total_alter (f : waccount -> waccount) addr m d : (forall a, wa_balance (f a) = wa_balance a + d) ->
  total_balance (alter f addr m) = total_balance m + match m !! addr with Some _ => d | None => 0 end.
Proof.
  intros Hf. destruct (m !! addr) as [a|] eqn:Ha.
  - replace (alter f addr m) with (<[addr := f a]> m).
    + rewrite total_set, Ha, Hf. lia.
    + apply map_eq. intros i. destruct (decide (i = addr)) as [->|Hne].
      * rewrite lookup_insert, lookup_alter, Ha. reflexivity.
      * rewrite lookup_insert_ne, lookup_alter_ne by congruence. reflexivity.
  - replace (alter f addr m) with m; [lia|]. apply map_eq. intros i. destruct (decide (i = addr)) as [->|Hne].
    + rewrite lookup_alter, Ha. reflexivity.
    + rewrite lookup_alter_ne by congruence. reflexivity.
Qed.
Lemma total_bare m m' : bare <$> m = bare <$> m' -> total_balance m = total_balance m'.
Proof.
  assert (Hb : forall m, total_balance m = total_balance (bare <$> m)).
  { clear. induction m as [|k a m Hn IH] using map_ind.
    - rewrite fmap_empty. reflexivity.
    - rewrite fmap_insert, !total_insert; [rewrite IH; reflexivity|rewrite lookup_fmap, Hn; reflexivity|exact Hn]. }
  intros H. rewrite (Hb m), (Hb m'), H. reflexivity.
Qed.
Lemma rollback_total w : total_balance (mw_accts (RollbackChanges w)) = total_balance (mw_accts w).
Proof. apply total_bare. apply revert_bare. Qed.
Lemma charge_total tx w : total_balance (mw_accts (charge_world tx w)) =
  total_balance (mw_accts w) - match (if HasSender (t_type tx) then mw_accts w !! jb_value (t_from tx) else None) with Some _ => fee_of tx | None => 0 end.
Proof.
  unfold charge_world. destruct (HasSender (t_type tx)); [|lia]. cbn.
  rewrite (total_alter _ _ _ (- fee_of tx)); [destruct (mw_accts w !! _); lia|intros a; cbn; lia].
Qed.

Lemma money ident tx w w' o :
  vm_always storage_only W -> executeTx ident tx w = (w', SOk o) ->
  exists value, jz_value (t_value tx) = Some value /\
  total_balance (mw_accts w') = total_balance (mw_accts w) +
    (if HasSender (t_type tx) then - fee_of tx
     else if bool_decide (o_code o = RcOk) then total_delta (o_accounts o) else 0) /\
  (has_sender tx -> o_code o = RcOk -> total_delta (o_accounts o) = value) /\
  (t_type tx = ValidatorReward -> total_delta (o_accounts o) = value /\ o_code o = RcOk).
Proof.
  intros HS H. apply execute_inv in H as (value & w2 & gas & w3 & Hv & Hst & Hbal & Hout & Hend).
  exists value. split; [exact Hv|].
  destruct (started_hooks _ tx w w2 gas (List.Forall_nil _) HS Hst) as (ops1 & S1 & Hw2).
  assert (T2 : total_balance (mw_accts w2) = total_balance (mw_accts w) - (if HasSender (t_type tx) then fee_of tx else 0)).
  { rewrite Hw2. rewrite (total_bare _ (mw_accts (after_start tx w))) by apply (hooks_kept ops1 _ S1).
    unfold after_start. rewrite charge_total. cbn. destruct (HasSender (t_type tx)); [|reflexivity].
    destruct (Hbal eq_refl) as (a & Ha & _). rewrite Ha. reflexivity. }
  assert (T3 : total_balance (mw_accts w3) = total_balance (mw_accts w2)).
  { destruct (decide (t_type tx = ValidatorReward)) as [Hr|Hr].
    - destruct (reward_output _ _ _ _ _ _ _ Hr Hout) as (a & Ha & -> & _). cbn. rewrite total_set, Ha. cbn. lia.
    - destruct (output_hooks _ ident tx value gas w2 w3 o (List.Forall_nil _) HS Hr Hout) as (ops2 & S2 & ->).
      apply total_bare, (hooks_kept ops2 _ S2). }
  assert (Hrew : t_type tx = ValidatorReward -> total_delta (o_accounts o) = value /\ o_code o = RcOk).
  { intros Hr. destruct (reward_output _ _ _ _ _ _ _ Hr Hout) as (a & _ & _ & ->). cbn [o_accounts o_code].
    split; [|reflexivity]. rewrite <- insert_empty, delta_insert by apply lookup_empty. unfold total_delta. rewrite map_fold_empty. cbn. lia. }
  destruct Hend as [[Hc ->]|(Hc & w4 & Hu & ->)].
  - split; [|split; [intros _ Hx; contradiction|exact Hrew]].
    rewrite rollback_total, T3, T2, bool_decide_eq_false_2 by exact Hc. destruct (HasSender (t_type tx)); lia.
  - pose proof (state_after tx value o w3 w4 true Hu) as (_ & _ & Hsum).
    split; [|split; [intros Hs _; apply Hsum; [reflexivity|exact Hs]|exact Hrew]].
    rewrite bool_decide_eq_true_2 by exact Hc.
    unfold updateStateAfterTx in Hu. injection Hu as Hu Hok. rewrite <- Hu. cbn [CommitChanges set_mw_snaps mw_accts].
    change (total_balance (mw_accts (UpdateAccounts (o_accounts o) (if HasSender (t_type tx) then UpdateBalanceWithDelta (jb_value (t_from tx)) (- value) w3 else w3))) =
      total_balance (mw_accts w) + (if HasSender (t_type tx) then - fee_of tx else total_delta (o_accounts o))).
    rewrite total_update. destruct (HasSender (t_type tx)) eqn:Hs.
    + unfold UpdateBalanceWithDelta. cbn [mw_accts set_mw_accts]. rewrite (total_alter _ _ _ (- value)) by reflexivity.
      rewrite (Hsum eq_refl) by (apply sender_dec; exact Hs).
      destruct (mw_accts w3 !! jb_value (t_from tx)) as [a3|] eqn:Ha3; [lia|].
      exfalso. destruct (Hbal eq_refl) as (a & Ha & _).
      destruct (before_output ident tx w w2 w3 o value gas HS Hst Hout) as [_ Hb].
      destruct (Hb (jb_value (t_from tx))) as (f & _ & Hf). rewrite Ha3, Ha in Hf. discriminate.
    + lia.
Qed.

(** ** What the machine is given, and what it saves *)
Lemma hooks_storage ops : forall w addr k, never_reverts ops -> is_Some (mw_accts w !! addr) ->
  exists a', mw_accts (hook_steps ops w) !! addr = Some a' /\
  (forall v, last_with save_key ops (Some (addr, k)) (HSave addr k v) -> wa_storage a' !! k = Some v) /\
  (none_with save_key ops (Some (addr, k)) -> Some (wa_storage a' !! k) = (fun a => wa_storage a !! k) <$> mw_accts w !! addr).
Proof.
  induction ops as [|o ops IH]; intros w addr k Hn [a Ha].
  - exists a. split; [exact Ha|]. split.
    + intros v (b & t & Hl & _). destruct b; discriminate.
    + intros _. rewrite Ha. reflexivity.
  - inversion Hn as [|? ? Ho Hr]; subst. unfold hook_steps. cbn [fold_left]. fold (hook_steps ops (hook_step o w)).
    assert (Hb : exists b, mw_accts (hook_step o w) !! addr = Some b /\
       wa_storage b !! k = (if bool_decide (save_key o = Some (addr, k)) then match o with HSave _ _ v => Some v | _ => None end else wa_storage a !! k)).
    { destruct o; cbn [hook_step save_key]; try contradiction.
      2-5: cbn; destruct (decide (addr = a0)) as [->|Hne]; [rewrite lookup_alter, Ha|rewrite lookup_alter_ne, Ha by congruence]; eexists; (split; [reflexivity|reflexivity]).
      cbn. destruct (decide (addr = a0)) as [->|Hne].
      - rewrite lookup_alter, Ha. eexists. split; [reflexivity|]. cbn. destruct (bool_decide_reflect (Some (a0, k0) = Some (a0, k))) as [He|He].
        + injection He as ->. apply lookup_insert.
        + apply lookup_insert_ne. congruence.
      - rewrite lookup_alter_ne, Ha by congruence. eexists. split; [reflexivity|].
        rewrite bool_decide_eq_false_2 by congruence. reflexivity. }
    destruct Hb as (b & Hb & Hbk).
    destruct (IH (hook_step o w) addr k Hr ltac:(eauto)) as (a' & Ha' & H1 & H2).
    exists a'. split; [exact Ha'|]. split.
    + intros v (bb & t & Hl & Hk & Ht). destruct bb as [|o' bb]; cbn in Hl; injection Hl as -> ->.
      * assert (Hnone : none_with save_key t (Some (addr, k))) by exact Ht.
        specialize (H2 Hnone). rewrite Hb in H2. cbn in H2. injection H2 as H2. rewrite H2, Hbk.
        rewrite bool_decide_eq_true_2 by reflexivity. reflexivity.
      * apply H1. exists bb, t. auto.
    + intros Hz. rewrite H2 by (intros y Hy; apply Hz; right; exact Hy). rewrite Hb, Ha. cbn. rewrite Hbk.
      rewrite bool_decide_eq_false_2; [reflexivity|]. apply Hz. left.
Qed.

Lemma lookup_repeat {A} (x : A) n : forall i, (i < n)%nat -> repeat x n !! i = Some x.
Proof. induction n as [|n IH]; intros [|i] Hi; cbn; [lia|lia|reflexivity|apply IH; lia]. Qed.
Lemma hash_right ident : hash_of ident (generateTxHash ident).
Proof.
  unfold hash_of, generateTxHash. split.
  - rewrite app_length, take_length, repeat_length. lia.
  - intros i Hi. destruct (decide (i < length ident)%nat) as [Hl|Hl].
    + rewrite lookup_app_l by (rewrite take_length; lia). rewrite lookup_take by lia.
      destruct (lookup_lt_is_Some_2 ident i Hl) as [c Hc]. rewrite Hc. reflexivity.
    + rewrite lookup_app_r by (rewrite take_length; lia).
      rewrite (lookup_ge_None_2 ident i) by lia. cbn. rewrite take_length.
      apply lookup_repeat. lia.
Qed.

Lemma ready_start tx w : mw_snaps w = [] -> ready_world tx w (after_start tx w).
Proof.
  intros Hs. split.
  - replace (mkMWorld _ _ _ _ _ _) with (set_mw_snaps (mw_snaps w) (charge_world tx w)).
    + apply charge_only. reflexivity.
    + unfold after_start, charge_world, set_mw_snaps. destruct (HasSender (t_type tx)); reflexivity.
  - unfold after_start, charge_world. destruct (HasSender (t_type tx)); cbn; rewrite Hs; reflexivity.
Qed.

Lemma ran_gen (reply : mworld -> list hook_op * option vm_output) ident tx w w' o value gas :
  mw_snaps w = [] -> started tx w (after_start tx w) gas ->
  tx_output ident tx value gas (after_start tx w) = vm_run (reply (after_start tx w)) (after_start tx w) ->
  executeTx ident tx w = (w', SOk o) -> jz_value (t_value tx) = Some value ->
  (forall w2 gas2, started tx w w2 gas2 -> w2 = after_start tx w /\ gas2 = gas) ->
  ran reply tx w w' o.
Proof.
  intros Hsn _ Hrun H Hval Huniq. apply execute_inv in H as (value' & w2 & gas2 & w3 & Hv & Hst & _ & Hout & Hend).
  rewrite Hval in Hv. injection Hv as <-. destruct (Huniq w2 gas2 Hst) as [-> ->].
  rewrite Hrun in Hout. unfold vm_run in Hout. injection Hout as Hw3 Ho.
  exists (after_start tx w). split; [apply ready_start, Hsn|]. split.
  { destruct (snd (reply (after_start tx w))); [congruence|discriminate]. }
  intros Hc Hnr addr a Ha. destruct Hend as [[Hc' _]|(_ & w4 & Hu & ->)]; [contradiction|].
  destruct (state_after tx value o w3 w4 true Hu) as (Hacc & _ & _). specialize (Hacc addr).
  assert (Hstart : is_Some (mw_accts (after_start tx w) !! addr) /\
     wa_storage <$> mw_accts (after_start tx w) !! addr = Some (wa_storage a)).
  { unfold after_start. rewrite charge_storage. cbn. rewrite Ha. split; [|reflexivity].
    rewrite charge_lookup. cbn. rewrite Ha. destruct (_ && _); cbn; eauto. }
  destruct Hstart as [Hsome Hsto].
  destruct (hooks_storage (fst (reply (after_start tx w))) (after_start tx w) addr [] Hnr Hsome) as (a3 & Ha3 & _).
  rewrite <- Hw3, Ha3 in Hacc. cbn [fmap option_fmap option_map] in Hacc.
  match type of Hacc with _ = upd _ _ (Some ?x) => set (a4 := x) in Hacc end.
  assert (Hs4 : wa_storage a4 = wa_storage a3) by (unfold a4; destruct (_ && _); reflexivity). clearbody a4.
  assert (Hk : forall k,
    (forall v, last_with save_key (fst (reply (after_start tx w))) (Some (addr, k)) (HSave addr k v) -> wa_storage a3 !! k = Some v) /\
    (none_with save_key (fst (reply (after_start tx w))) (Some (addr, k)) -> wa_storage a3 !! k = wa_storage a !! k)).
  { intros k. destruct (hooks_storage (fst (reply (after_start tx w))) (after_start tx w) addr k Hnr Hsome) as (a3' & Ha3' & H1 & H2).
    rewrite Ha3 in Ha3'. injection Ha3' as <-. split; [exact H1|]. intros Hz. specialize (H2 Hz).
    destruct (mw_accts (after_start tx w) !! addr) as [b|]; [|discriminate]. cbn in H2, Hsto. injection H2 as ->. injection Hsto as ->. reflexivity. }
  unfold upd in Hacc. destruct (o_accounts o !! addr) as [oa|].
  - eexists. split; [exact Hacc|]. intros k.
    destruct (upd_fields addr oa a4) as (_ & _ & _ & _ & _ & _ & _ & _ & _ & Hst4). rewrite Hst4, Hs4.
    unfold storage_after. destruct (oa_storage oa !! k) as [v|] eqn:Hok.
    + apply lookup_union_Some_l. exact Hok.
    + rewrite (lookup_union_r _ _ _ Hok). exact (Hk k).
  - exists a4. split; [exact Hacc|]. intros k. unfold storage_after. rewrite lookup_empty, Hs4. exact (Hk k).
Qed.

Lemma started_plain tx w : t_esdt tx = None \/ HasSender (t_type tx) = false ->
  started tx w (after_start tx w) (if HasSender (t_type tx) then ju_value (t_gaslimit tx) else 0) /\
  forall w2 gas2, started tx w w2 gas2 -> w2 = after_start tx w /\ gas2 = (if HasSender (t_type tx) then ju_value (t_gaslimit tx) else 0).
Proof.
  intros H. split; [constructor; exact H|]. intros w2 gas2 Hs. inversion Hs as [|e ? ? He Ht Hd]; subst; [auto|].
  destruct H as [H|H]; congruence.
Qed.

Lemma affords_ok tx value w : HasSender (t_type tx) = true ->
  senderHasEnoughBalance tx value (after_start tx w) = true <-> affords tx value w.
Proof.
  intros Hs. unfold senderHasEnoughBalance, affords. rewrite Hs. unfold after_start. rewrite charge_lookup, Hs. cbn.
  rewrite bool_decide_eq_true_2 by reflexivity. cbn. destruct (mw_accts w !! _) as [a|]; cbn.
  - split; [intros H; exists a; split; [reflexivity|lia]|intros (a' & [= <-] & H); lia].
  - split; [discriminate|intros (a' & ? & _); discriminate].
Qed.

Lemma call_ran ident tx w w' o value : t_type tx = ScCall -> t_esdt tx = None -> mw_snaps w = [] ->
  executeTx ident tx w = (w', SOk o) -> jz_value (t_value tx) = Some value ->
  exists hash, hash_of ident hash /\
  ((affords tx value w /\
    ran (fun w1 => we_call W w1 (mkCall (declared_input hash tx (jb_value (t_from tx)) value
                                   (ju_value (t_gaslimit tx)) []) (jb_value (t_to tx)) (t_function tx) false)) tx w w' o) \/
   (~ affords tx value w /\ o_code o = RcOutOfFunds)).
Proof.
  intros Ht He Hsn H Hv. exists (generateTxHash ident). split; [apply hash_right|].
  destruct (started_plain tx w (or_introl He)) as [Hst Hu].
  assert (Hs : HasSender (t_type tx) = true) by (rewrite Ht; reflexivity).
  pose proof (affords_ok tx value w Hs) as Haff.
  destruct (senderHasEnoughBalance tx value (after_start tx w)) eqn:Hb.
  - left. split; [apply Haff; reflexivity|].
    eapply (ran_gen _ ident tx w w' o value _ Hsn Hst); [|exact H|exact Hv|exact Hu].
    pose proof H as H'. apply execute_inv in H' as (v2 & w2 & gas2 & w3 & Hv2 & Hst2 & _ & Hout & _).
    rewrite Hv in Hv2. injection Hv2 as <-. destruct (Hu w2 gas2 Hst2) as [-> ->].
    unfold tx_output in *. rewrite Hb, Ht in *. cbn [negb] in *. unfold scCall in *.
    destruct (mw_accts (after_start tx w) !! jb_value (t_to tx)) as [r|]; [|discriminate].
    destruct (wa_code r); [discriminate|]. unfold tx_input, declared_input. rewrite He. reflexivity.
  - right. split; [intros Ha; apply Haff in Ha; discriminate|].
    apply execute_inv in H as (v2 & w2 & gas2 & w3 & Hv2 & Hst2 & _ & Hout & _).
    rewrite Hv in Hv2. injection Hv2 as <-. destruct (Hu w2 gas2 Hst2) as [-> ->].
    unfold tx_output in Hout. rewrite Hb in Hout. injection Hout as _ <-. reflexivity.
Qed.

Lemma deploy_ran ident tx w w' o value : t_type tx = ScDeploy -> t_esdt tx = None -> mw_snaps w = [] ->
  executeTx ident tx w = (w', SOk o) -> jz_value (t_value tx) = Some value ->
  exists hash, hash_of ident hash /\
  ((affords tx value w /\
    ran (fun w1 => we_create W w1 (mkCreate (declared_input hash tx (jb_value (t_from tx)) value
                                   (ju_value (t_gaslimit tx)) []) (jb_value (t_code tx)) [])) tx w w' o) \/
   (~ affords tx value w /\ o_code o = RcOutOfFunds)).
Proof.
  intros Ht He Hsn H Hv. exists (generateTxHash ident). split; [apply hash_right|].
  destruct (started_plain tx w (or_introl He)) as [Hst Hu].
  assert (Hs : HasSender (t_type tx) = true) by (rewrite Ht; reflexivity).
  pose proof (affords_ok tx value w Hs) as Haff.
  destruct (senderHasEnoughBalance tx value (after_start tx w)) eqn:Hb.
  - left. split; [apply Haff; reflexivity|].
    eapply (ran_gen _ ident tx w w' o value _ Hsn Hst); [|exact H|exact Hv|exact Hu].
    unfold tx_output. rewrite Hb, Ht. cbn [negb]. unfold scCreate, tx_input, declared_input. rewrite He. reflexivity.
  - right. split; [intros Ha; apply Haff in Ha; discriminate|].
    apply execute_inv in H as (v2 & w2 & gas2 & w3 & Hv2 & Hst2 & _ & Hout & _).
    rewrite Hv in Hv2. injection Hv2 as <-. destruct (Hu w2 gas2 Hst2) as [-> ->].
    unfold tx_output in Hout. rewrite Hb in Hout. injection Hout as _ <-. reflexivity.
Qed.

Lemma query_ran ident tx w w' o value : t_type tx = ScQuery -> t_esdt tx = None -> mw_snaps w = [] ->
  executeTx ident tx w = (w', SOk o) -> jz_value (t_value tx) = Some value ->
  exists hash, hash_of ident hash /\
    ran (fun w1 => we_call W w1 (mkCall (declared_input hash tx (jb_value (t_to tx)) value (2 ^ 64 - 1) [])
                                   (jb_value (t_to tx)) (t_function tx) false)) tx w w' o.
Proof.
  intros Ht He Hsn H Hv. exists (generateTxHash ident). split; [apply hash_right|].
  destruct (started_plain tx w (or_introl He)) as [Hst Hu].
  eapply (ran_gen _ ident tx w w' o value _ Hsn Hst); [|exact H|exact Hv|exact Hu].
  apply execute_inv in H as (v2 & w2 & gas2 & w3 & Hv2 & Hst2 & _ & Hout & _).
  rewrite Hv in Hv2. injection Hv2 as <-. destruct (Hu w2 gas2 Hst2) as [-> ->].
  unfold tx_output, senderHasEnoughBalance in *. rewrite Ht in *. cbn [HasSender negb] in *. unfold scCall in *.
  destruct (mw_accts (after_start tx w) !! jb_value (t_to tx)) as [r|]; [|discriminate].
  destruct (wa_code r); [discriminate|]. unfold tx_input, declared_input. rewrite He. reflexivity.
Qed.

(** ** Between steps there is no snapshot *)
Lemma rollback_empty w : mw_snaps (RollbackChanges w) = [].
Proof.
  unfold RollbackChanges, RevertToSnapshot. destruct ((0 <? 0) || (Z.of_nat (length (mw_snaps w)) <=? 0)) eqn:Hc.
  - cbn. destruct (mw_snaps w); [reflexivity|cbn in Hc; lia].
  - destruct (mw_snaps w !! Z.to_nat 0) eqn:Hs; [destruct (LoadAccountStorageFrom _ _); reflexivity|].
    cbn. destruct (mw_snaps w); [reflexivity|discriminate].
Qed.
Lemma execute_snaps ident tx w w' r : executeTx ident tx w = (w', r) -> mw_snaps w = [] -> r <> SPanic -> mw_snaps w' = [].
Proof.
  unfold executeTx. intros H Hs Hp. destruct (jz_value (t_value tx)) as [value|]; [|congruence].
  match type of H with (let '(_, _) := ?s in _) = _ => destruct s as [w1 g] eqn:Hst end.
  assert (Hg : g = SErr -> mw_snaps w1 = []).
  { intros ->. destruct (HasSender (t_type tx)); [|discriminate].
    destruct (UpdateWorldStateBefore _ _ _ _) as [w0 [|]].
    - destruct (t_esdt tx) as [e|]; [|discriminate].
      destruct (directESDTTransferFromTx tx e w0) as [w0' r0]. injection Hst as <- ->. reflexivity.
    - injection Hst as <-. apply rollback_empty. }
  destruct g as [gas| |].
  - destruct (tx_output ident tx value gas w1) as [w2 [o| |]].
    + destruct (bool_decide (o_code o = RcOk)).
      * destruct (updateStateAfterTx tx value o w2). injection H as <- _. reflexivity.
      * injection H as <- _. apply rollback_empty.
    + injection H as <- _. apply rollback_empty.
    + congruence.
  - injection H as <- _. apply Hg. reflexivity.
  - congruence.
Qed.
Lemma step_snaps g s w w' r : ExecuteStep g s w = (w', r) -> mw_snaps w = [] -> r <> SPanic -> mw_snaps w' = [].
Proof.
  intros H Hs Hp. destruct s as [c p|c l pr cu h m|c [xs|]|c|i c tx e]; cbn [ExecuteStep] in H.
  - congruence.
  - unfold ExecuteSetStateStep in H. destruct (put_accounts l (mw_accts w)) as [m' [[]| |]].
    + destruct (forallb _ m); injection H as <- _; exact Hs.
    + injection H as <- _. exact Hs.
    + congruence.
  - congruence.
  - congruence.
  - congruence.
  - unfold ExecuteTxStep in H. destruct (executeTx i tx w) as [w1 r1] eqn:He. injection H as <- <-.
    apply (execute_snaps _ _ _ _ _ He Hs). intros ->. apply Hp. reflexivity.
Qed.
Lemma steps_snaps g l : forall w w' r, ExecuteSteps g l w = (w', r) -> mw_snaps w = [] -> r <> SPanic -> mw_snaps w' = [].
Proof.
  induction l as [|s l IH]; intros w w' r H Hs Hp; cbn [ExecuteSteps] in H; [congruence|].
  destruct (ExecuteStep g s w) as [w1 [[]| |]] eqn:He.
  - eapply IH; [exact H|eapply step_snaps; [exact He|exact Hs|discriminate]|exact Hp].
  - injection H as <- <-. eapply step_snaps; [exact He|exact Hs|discriminate].
  - congruence.
Qed.

(** ** Reverting to a snapshot *)
Lemma hooks_dom ops : forall w k, is_Some (mw_accts (hook_steps ops w) !! k) <-> is_Some (mw_accts w !! k).
Proof.
  induction ops as [|o ops IH]; intros w k; [reflexivity|].
  unfold hook_steps. cbn [fold_left]. fold (hook_steps ops (hook_step o w)). rewrite IH.
  destruct o; cbn [hook_step]; try (cbn; apply lookup_alter_is_Some).
  pose proof (revert_bare n w) as Hb.
  assert (Hk : bare <$> mw_accts (fst (RevertToSnapshot n w)) !! k = bare <$> mw_accts w !! k).
  { rewrite <- !lookup_fmap, Hb. reflexivity. }
  destruct (mw_accts (fst (RevertToSnapshot n w)) !! k), (mw_accts w !! k); try discriminate Hk; split; intros []; eauto; discriminate.
Qed.
Lemma hooks_above n ops : forall w, (Z.to_nat n < length (mw_snaps w))%nat -> 0 <= n ->
  Forall (fun o => match o with HRevert i => i < 0 \/ n < i | _ => True end) ops ->
  take (S (Z.to_nat n)) (mw_snaps (hook_steps ops w)) = take (S (Z.to_nat n)) (mw_snaps w) /\
  (Z.to_nat n < length (mw_snaps (hook_steps ops w)))%nat.
Proof.
  induction ops as [|o ops IH]; intros w Hl Hn H; [auto|].
  inversion H as [|? ? Ho Hr]; subst. unfold hook_steps. cbn [fold_left]. fold (hook_steps ops (hook_step o w)).
  assert (Hx : take (S (Z.to_nat n)) (mw_snaps (hook_step o w)) = take (S (Z.to_nat n)) (mw_snaps w) /\
               (Z.to_nat n < length (mw_snaps (hook_step o w)))%nat).
  { destruct o; cbn [hook_step]; try (split; [reflexivity|exact Hl]).
    - cbn. rewrite app_length. split; [|cbn; lia]. rewrite take_app_le by lia. reflexivity.
    - unfold RevertToSnapshot. destruct (_ || _) eqn:Hc; [auto|].
      destruct (mw_snaps w !! Z.to_nat n0) eqn:Hs; [|auto]. destruct (LoadAccountStorageFrom _ _). cbn.
      rewrite take_take, take_length. split; [f_equal; lia|lia]. }
  destruct Hx as [Hx1 Hx2]. destruct (IH (hook_step o w) Hx2 Hn Hr) as [H1 H2]. rewrite H1, Hx1. auto.
Qed.

Lemma snapshot_restores w ops l s :
  mw_snaps w = l ++ [s] -> same_storages s (mw_accts w) ->
  Forall (fun o => match o with HRevert i => i < 0 \/ GetSnapshot w < i | _ => True end) ops ->
  exists w', RevertToSnapshot (GetSnapshot w) (hook_steps ops w) = (w', true) /\
    same_storages (mw_accts w') (mw_accts w) /\ mw_snaps w' = l /\
    forall addr, is_Some (mw_accts w' !! addr) <-> is_Some (mw_accts w !! addr).
Proof.
  intros Hs Hst Hops. set (n := GetSnapshot w) in *.
  assert (Hn : n = Z.of_nat (length l)) by (unfold n, GetSnapshot; rewrite Hs, app_length; cbn; lia).
  assert (Hl : (Z.to_nat n < length (mw_snaps w))%nat) by (rewrite Hs, app_length; cbn; lia).
  destruct (hooks_above n ops w Hl ltac:(lia) Hops) as [Ht Hl'].
  assert (Hlk : mw_snaps (hook_steps ops w) !! Z.to_nat n = Some s).
  { rewrite <- (lookup_take _ (S (Z.to_nat n))) by lia. rewrite Ht, lookup_take by lia. rewrite Hs, Hn, Nat2Z.id.
    apply list_lookup_middle. reflexivity. }
  assert (Hdom : forall k, is_Some (mw_accts w !! k) -> is_Some (s !! k)).
  { intros k [a Ha]. specialize (Hst k). rewrite Ha in Hst. destruct (s !! k); [eauto|discriminate]. }
  destruct (revert_ok n (hook_steps ops w) s ltac:(lia) Hlk) as (m & Hr & Hm).
  { intros k Hk. apply Hdom. apply (hooks_dom ops). exact Hk. }
  eexists. split; [exact Hr|]. cbn.
  assert (Hk : forall k, wa_storage <$> m !! k = wa_storage <$> mw_accts w !! k).
  { intros k. rewrite Hm. pose proof (hooks_dom ops w k) as Hd. pose proof (Hst k) as Hsk.
    destruct (mw_accts (hook_steps ops w) !! k) as [b|].
    - destruct (proj1 Hd ltac:(eauto)) as [a Ha]. rewrite Ha in Hsk |- *. destruct (s !! k); [exact Hsk|discriminate].
    - destruct (mw_accts w !! k); [destruct (proj2 Hd ltac:(eauto)); discriminate|reflexivity]. }
  split; [exact Hk|]. split.
  - rewrite Hn, Nat2Z.id. replace (take (length l) (mw_snaps (hook_steps ops w))) with (take (length l) (take (S (Z.to_nat n)) (mw_snaps (hook_steps ops w)))) by (rewrite take_take; f_equal; lia).
    rewrite Ht, take_take, Hs. replace (min _ _) with (length l) by lia. apply take_app.
  - intros addr. specialize (Hk addr). destruct (m !! addr), (mw_accts w !! addr); try discriminate Hk; split; intros []; eauto; discriminate.
Qed.

(** ** Two readings *)
Lemma has_sender_iff tx : HasSender (t_type tx) = true <-> has_sender tx.
Proof. unfold has_sender. destruct (t_type tx); cbn; split; intros H; try discriminate; auto; destruct H as [H|[H|H]]; discriminate. Qed.
Lemma money_split ident tx w w' o :
  vm_always storage_only W -> executeTx ident tx w = (w', SOk o) ->
  (has_sender tx ->
     total_balance (mw_accts w') = total_balance (mw_accts w) - fee_of tx /\
     (o_code o = RcOk -> jz_value (t_value tx) = Some (total_delta (o_accounts o)))) /\
  (~ has_sender tx ->
     total_balance (mw_accts w') =
       total_balance (mw_accts w) + (if bool_decide (o_code o = RcOk) then total_delta (o_accounts o) else 0) /\
     (t_type tx = ValidatorReward -> jz_value (t_value tx) = Some (total_delta (o_accounts o)) /\ o_code o = RcOk)).
Proof.
  intros Hst H. destruct (money ident tx w w' o Hst H) as (value & Hv & Ht & Hs & Hr).
  pose proof (has_sender_iff tx) as Hi. split; intros Hh.
  - rewrite (proj2 Hi Hh) in Ht. split; [lia|]. intros Hc. rewrite (Hs Hh Hc). exact Hv.
  - destruct (HasSender (t_type tx)); [destruct Hh; apply Hi; reflexivity|]. split; [exact Ht|].
    intros Hy. destruct (Hr Hy) as [He Hc]. rewrite He. auto.
Qed.
Lemma failed_query ident tx w w' o :
  vm_always storage_only W -> vm_always keeps_first W -> mw_snaps w = [] ->
  t_type tx = ScQuery -> executeTx ident tx w = (w', SOk o) -> o_code o <> RcOk -> w' = w.
Proof.
  intros H1 H2 Hs Ht H Hc. destruct (failed_charged ident tx w w' o H1 H2 Hs H Hc) as (Ha & Hn & Hr).
  assert (Hno : ~ has_sender tx) by (rewrite <- has_sender_iff, Ht; discriminate).
  assert (Hm : mw_accts w' = mw_accts w).
  { apply map_eq. intros addr. destruct (mw_accts w !! addr) as [a|] eqn:Hl.
    - apply (proj2 (Ha addr a Hl)). tauto.
    - apply Hn, Hl. }
  destruct w, w'. cbn in *. destruct Hr as (-> & -> & -> & -> & ->). rewrite Hm. reflexivity.
Qed.
End Tx.
