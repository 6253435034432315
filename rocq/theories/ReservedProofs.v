(** Proofs for C96. *)
From Verif Require Import VmModel StoSpec StoProofs CodecSpec CodecProofs WpProofs GasSpec NftProofs ReservedSpec.
From Coq Require Import ZifyBool ZifyNat ZifyN.

Section reserved.
Context `{E : env}.

Lemma c96_from fuel ao ko kl dO k a h m m' : env_ok E -> calling h ->
  mem_load h (i32 ko) (i32 kl) = ROk k -> mem_load h (i32 ao) 32 = ROk a -> may_read_from h a -> reserved_key k ->
  go_len (node_value (h_world h) a k) -> cur_mem h = ROk m -> MemStore m (i32 dO) (node_value (h_world h) a k) = (m', ROk tt) ->
  exists h', vmApi fuel (A_storageLoadFromAddress ao ko kl dO) h = (h', OOk (zlen (node_value (h_world h) a k))) /\
    cur_mem h' = ROk m' /\ h_out h' = h_out h /\ h_world h' = h_world h.
Proof.
  intros HE (i & x & Hc & Hi & Hp & Hr) Hk Ha Hd Hres Hlen Hm Hs.
  assert (H : running_as h i x) by (split; assumption).
  rewrite (cur_mem_run _ _ _ H) in Hm. injection Hm as Hm.
  apply may_read_spec in Hd. apply reserved_spec in Hres.
  unfold vmApi. cbn [api]. unfold storageLoadFromAddress.
  rewrite (run_charge _ _ HE _ _ _ _ _ H Hp). pose proof (cost_nonneg E CStorageLoad HE) as C1.
  set (x1 := pay _ x). assert (Hp1 : pts_ok x1) by (apply pay_ok; assumption).
  pose proof (running_with_inst _ _ _ x1 H) as H1.
  rewrite (run_load _ _ _ _ _ _ _ k) by (erewrite mem_load_with_inst; [exact Hk|exact H|reflexivity]).
  rewrite (mem_load_run _ _ _ _ _ H) in Hk. apply memload_len_ok in Hk.
  rewrite (run_load _ _ _ _ _ _ _ a) by (erewrite mem_load_with_inst; [exact Ha|exact H|reflexivity]).
  destruct (from_reserved a k (with_inst i x1 h) i x1 HE H1 Hp1 Hk Hd Hres Hlen) as (x2 & Hg & Hx2).
  erewrite run_act; [|cbn [interp]; exact Hg]. rewrite with_inst_with_inst.
  change (h_world (with_inst i x1 h)) with (h_world h).
  set (v := node_value (h_world h) a k) in *.
  pose proof (running_with_inst _ _ _ x2 H) as H2.
  unfold store. erewrite run_or_fault_ok; [|cbn [interp]; eapply (mem_store_run _ i x2 _ _ m'); [exact H2|]].
  2:{ rewrite Hx2. change (in_mem x1) with (in_mem x). rewrite Hm. exact Hs. }
  set (x3 := set_in_mem m' x2). pose proof (running_with_inst _ _ _ x3 H2) as H3.
  eexists. split; [reflexivity|]. split; [rewrite (cur_mem_run _ _ _ H3); reflexivity|]. split; reflexivity.
Qed.

Lemma c96_own fuel ko kl dO k h m m' : env_ok E -> calling h ->
  mem_load h (i32 ko) (i32 kl) = ROk k -> not_recorded h (h_stoaddr h) k ->
  go_len (node_value (h_world h) (h_stoaddr h) k) ->
  cur_mem h = ROk m -> MemStore m (i32 dO) (node_value (h_world h) (h_stoaddr h) k) = (m', ROk tt) ->
  exists h', vmApi fuel (A_storageLoad ko kl dO) h = (h', OOk (zlen (node_value (h_world h) (h_stoaddr h) k))) /\
    cur_mem h' = ROk m'.
Proof.
  intros HE Hc Hk Hn Hl Hm Hs.
  assert (Hv : cell h (h_stoaddr h) k = node_value (h_world h) (h_stoaddr h) k).
  { unfold cell, not_recorded in *. destruct (o_accounts (h_out h) !! h_stoaddr h) as [x|]; [rewrite Hn|]; reflexivity. }
  rewrite <- Hv in Hl, Hs |- *. destruct (c12_load fuel ko kl dO k h m m' HE Hc Hk Hl Hm Hs) as (h' & E1 & E2 & _).
  exists h'. split; assumption.
Qed.
End reserved.
