(** Proofs for C60. *)
From Verif Require Import VmModel WpProofs CodecSpec CodecProofs MemSpec MemProofs BigSpec StoSpec QuerySpec QueryProofs IdentSpec MoneySpec BalSpec.
From Coq Require Import ZifyBool ZifyNat ZifyN.

Lemma alter_insert_out (m : gmap bytes out_account) a f x y : m !! a = Some x -> f x = y -> alter f a m = <[a := y]> m.
Proof.
  intros H <-. apply map_eq. intros b. destruct (decide (b = a)) as [->|Hn].
  - rewrite lookup_alter, lookup_insert, H. reflexivity.
  - rewrite lookup_alter_ne, lookup_insert_ne by congruence. reflexivity.
Qed.
Lemma balance_is a h u : covered h a -> w_accounts (h_world h) !! a = Some u ->
  GetBalanceBigInt a h = (looked_up a h, OOk (balance_now h a)).
Proof.
  intros Hc Hu. unfold GetBalanceBigInt, looked_up, balance_now, node_balance, change, acc_of. unfold covered, node_balance in Hc. rewrite Hu in *.
  unfold bind at 1, GetOutputAccount, accounts. destruct (o_accounts (h_out h) !! a) as [x|] eqn:Hx.
  - destruct (Hc x eq_refl) as [Hb _]. unfold bind, gets. cbn [negb from_option id]. destruct (oa_balance x) as [b|] eqn:Eb.
    + pose proof (Hb b eq_refl) as Hb'. clear Hb. subst b. unfold ret. f_equal.
      assert (G : set_oa_balance (Some (ua_balance u)) x = x) by (rewrite <-Eb; destruct x; reflexivity).
      rewrite G. rewrite insert_id by exact Hx.
      assert (G' : forall h, h = set_h_out (set_o_accounts (o_accounts (h_out h)) (h_out h)) h).
      { intros h0. assert (G1 : set_o_accounts (o_accounts (h_out h0)) (h_out h0) = h_out h0) by (destruct (h_out h0); reflexivity). rewrite G1. destruct h0; reflexivity. }
      apply G'.
    + rewrite Hu. unfold upd_account, modify, ret, set_accounts, accounts. f_equal.
      rewrite (alter_insert_out _ _ _ _ _ Hx eq_refl). reflexivity.
  - unfold bind, gets. cbn [negb from_option id].
    change (h_world (set_accounts (<[a:=NewVMOutputAccount]> (o_accounts (h_out h))) h)) with (h_world h). rewrite Hu.
    unfold upd_account, modify, ret, set_accounts. f_equal; [|f_equal; lia].
    unfold accounts. cbn [h_out set_h_out o_accounts set_o_accounts].
    assert (G : forall o : gmap bytes out_account, alter (set_oa_balance (Some (ua_balance u))) a (<[a:=NewVMOutputAccount]> o) = <[a := set_oa_balance (Some (ua_balance u)) NewVMOutputAccount]> o).
    { intros o. rewrite (alter_insert_out _ _ _ NewVMOutputAccount _ (lookup_insert _ _ _) eq_refl). apply insert_insert. }
    rewrite G. reflexivity.
Qed.

Lemma c60 `{E : env} fuel c o a ws hs h m m' : counting h -> cur_mem h = ROk m -> blen (m_data m) <= max_i32 ->
  address_at (m_data m) o a -> is_Some (w_accounts (h_world h) !! a) -> 0 <= node_balance (h_world h) a -> covered h a ->
  shows c o (balance_now h a) ws hs -> all_stored m ws m' ->
  exists h', vmApi fuel c h = (h', OOk 0) /\ cur_mem h' = ROk m' /\
    (forall y, bval (h_big h') y = assigned hs (bval (h_big h)) y) /\ only_own (looked_up a h) h' /\ balance_now h' a = balance_now h a.
Proof.
  intros (i & x & Hc & Hi & _) Hm Hb Ha [u Hu] Hpos Hcov Hs Hst. assert (H : running_as h i x) by (split; assumption).
  rewrite (cur_mem_run _ _ _ H) in Hm. injection Hm as Hm. unfold address_at in Ha.
  assert (Hnow : 0 <= balance_now h a).
  { unfold balance_now, change. unfold covered in Hcov. destruct (o_accounts (h_out h) !! a) as [y|] eqn:Hy; [|lia]. destruct (Hcov y eq_refl) as [_ Hd]. destruct (Z_lt_le_dec (oa_delta y) 0) as [Hl|Hl]; [apply Hd, Hl|lia]. }
  assert (Hch : forall h', h_world h' = h_world h -> o_accounts (h_out h') = o_accounts (h_out (looked_up a h)) -> balance_now h' a = balance_now h a).
  { intros h' Hw Ho. unfold balance_now. rewrite Hw, Ho. unfold looked_up. cbn [h_out set_h_out o_accounts set_o_accounts]. f_equal.
    unfold change. rewrite lookup_insert. unfold acc_of. destruct (o_accounts (h_out h) !! a); reflexivity. }
  assert (Hq : forall g, GetBalanceBigInt a (St h i x g m (h_big h) (h_out h)) = (St h i x g m (h_big h) (h_out (looked_up a h)), OOk (balance_now h a))).
  { intros g. exact (balance_is a (St h i x g m (h_big h) (h_out h)) u Hcov Hu). }
  assert (Hown : forall g b, only_own (looked_up a h) (St h i x g m' b (h_out (looked_up a h)))).
  { intros g b. exists i, x, m', g, b. split; [exact Hc|]. split; [exact Hi|]. unfold St, with_inst, looked_up. destruct h. reflexivity. }
  destruct c; try contradiction Hs; cbn [shows] in Hs.
  - destruct Hs as (-> & d & Hd & -> & ->). cbn [all_stored] in Hst. destruct Hst as (m1 & Hst & ->). apply unsigned_bytes_is in Hd.
    eexists (St h i x _ m1 (h_big h) (h_out (looked_up a h))). split.
    + unfold vmApi. cbn [api]. unfold getExternalBalance, charge. rewrite (St_start _ _ _ H) at 1. rewrite Hm.
      rewrite (s_use _ _ _ _ _ H). rewrite (s_load _ _ _ _ _ H _ _ _ _ _ _ _ _ a); [|exact Ha|apply i32_range|vm_compute; split; discriminate|exact Hb].
      erewrite run_act; [|cbn [interp]; apply Hq]. rewrite (s_store _ _ _ _ _ H _ _ _ _ _ _ _ _ m1); [reflexivity|]. subst d. exact Hst.
    + split; [rewrite (cur_mem_run _ _ _ (St_running _ _ _ H _ m1 _ _)); reflexivity|]. split; [intros y; reflexivity|]. split; [apply Hown|]. apply Hch; reflexivity.
  - destruct Hs as (-> & -> & ->). cbn [all_stored] in Hst. subst m'.
    eexists (St h i x _ m (<[i32 resultHandle := balance_now h a]> (h_big h)) (h_out (looked_up a h))). split.
    + unfold vmApi. cbn [api]. unfold bigIntGetExternalBalance, charge. rewrite (St_start _ _ _ H) at 1. rewrite Hm.
      rewrite (s_use _ _ _ _ _ H). rewrite (s_load _ _ _ _ _ H _ _ _ _ _ _ _ _ a); [|exact Ha|apply i32_range|vm_compute; split; discriminate|exact Hb].
      erewrite run_act; [|cbn [interp]; apply Hq]. rewrite s_big_set. rewrite be_decode_encode, Z.abs_eq by exact Hnow. reflexivity.
    + split; [rewrite (cur_mem_run _ _ _ (St_running _ _ _ H _ m _ _)); reflexivity|].
      split; [intros y; cbn [h_big]; change (h_big (St _ _ _ _ _ ?b _)) with b; rewrite bval_set; reflexivity|]. split; [apply Hown|]. apply Hch; reflexivity.
Qed.
