(** The last nonce of a token, as asked for by a contract. *)
From Verif Require Import VmModel StoSpec StoProofs CodecSpec CodecProofs WpProofs GasSpec.
From Coq Require Import ZifyBool ZifyNat ZifyN.

Section nft.
Context `{E : env}.

Lemma from_reserved a k h i x : env_ok E -> running_as h i x -> pts_ok x -> len_ok k -> may_read h a ->
  isElrondReservedKey k = true -> go_len (node_value (h_world h) a k) ->
  exists x', GetStorageFromAddress a k h = (with_inst i x' h, OOk (node_value (h_world h) a k)) /\ in_mem x' = in_mem x.
Proof.
  intros HE H Hp Hk Hd Hpre Hlen. unfold GetStorageFromAddress.
  rewrite (bind_ok _ _ _ _ _ (extra_key_run _ _ _ _ HE H Hp Hk)). rewrite !bind_gets.
  set (x2 := pay _ x). pose proof (running_with_inst _ _ _ x2 H) as H2.
  change (h_stoaddr (with_inst i x2 h)) with (h_stoaddr h).
  change (h_world (with_inst i x2 h)) with (h_world h).
  assert (Hok : (beq a (h_stoaddr h) || match w_accounts (h_world h) !! a with
          | Some u => meta_readable (ua_meta u) | None => false end) = true).
  { destruct Hd as [->|(u & Hu & Hmr)].
    - unfold beq. rewrite bool_decide_true by reflexivity. reflexivity.
    - rewrite Hu, Hmr. apply orb_true_r. }
  rewrite Hok, Hpre. cbn [negb].
  assert (Hp2 : pts_ok x2) by (apply pay_ok; [exact Hp|apply key_price_nonneg; exact HE]).
  pose proof (cost_nonneg E DataCopyPerByte HE) as C2.
  cbv iota. rewrite bind_ret. change (GetStorageData (h_world h) a k) with (node_value (h_world h) a k).
  set (v := node_value (h_world h) a k) in *. pose proof (blen_nonneg v).
  rewrite (mul_price (e_cost E DataCopyPerByte) (blen v)); [|apply HE|unfold go_len in Hlen; lia].
  rewrite (bind_ok _ _ _ _ _ (UseGas_pay (e_cost E DataCopyPerByte * blen v) _ _ _ H2 Hp2 ltac:(nia))). rewrite with_inst_with_inst.
  eexists. split; reflexivity.
Qed.

Lemma nft_start fuel ao to tl a t h i x : env_ok E -> running_as h i x -> pts_ok x ->
  mem_load h (i32 ao) 32 = ROk a -> mem_load h (i32 to) (i32 tl) = ROk t ->
  exists x1, pts_ok x1 /\ in_mem x1 = in_mem x /\ len_ok t /\
    vmApi fuel (A_getCurrentESDTNFTNonce ao to tl) h =
    run_cmd (vmDest fuel) (vmSame fuel) (act (QGetStorageFrom a (e_nftNonceKey E ++ t)) (fun data => CRet (i64 (u64 (be_decode data))))) (with_inst i x1 h).
Proof.
  intros HE H Hp Ha Ht. exists (pay (e_cost E CStorageLoad) x). pose proof (cost_nonneg E CStorageLoad HE) as C1.
  split; [apply pay_ok; assumption|]. split; [reflexivity|].
  split; [rewrite (mem_load_run _ _ _ _ _ H) in Ht; apply memload_len_ok in Ht; exact Ht|].
  unfold vmApi. cbn [api]. unfold getCurrentESDTNFTNonce. rewrite (run_charge _ _ HE _ _ _ _ _ H Hp).
  set (x1 := pay _ x). rewrite run_get. unfold AddressLen.
  assert (L : forall o n, mem_load (with_inst i x1 h) o n = mem_load h o n) by (intros; eapply mem_load_with_inst; [exact H|reflexivity]).
  rewrite L, Ha. cbn match. rewrite run_get, L, Ht. reflexivity.
Qed.

Lemma nft_nonce fuel ao to tl a t h : env_ok E -> calling h ->
  mem_load h (i32 ao) 32 = ROk a -> mem_load h (i32 to) (i32 tl) = ROk t ->
  reserved_key (e_nftNonceKey E) -> go_len (e_nftNonceKey E ++ t) ->
  let v := node_value (h_world h) a (e_nftNonceKey E ++ t) in
  go_len v -> may_read_from h a ->
  exists h', vmApi fuel (A_getCurrentESDTNFTNonce ao to tl) h = (h', OOk (i64 (be_value v mod 2 ^ 64))) /\
    cur_mem h' = cur_mem h /\ h_out h' = h_out h /\ sto_frame h h'.
Proof.
  intros HE (i & x & Hc & Hi & Hp & Hr) Ha Ht Hres Hkl v Hlen Hm. assert (H : running_as h i x) by (split; assumption).
  destruct (nft_start fuel ao to tl a t h i x HE H Hp Ha Ht) as (x1 & Hp1 & Hx1 & _ & ->).
  pose proof (running_with_inst _ _ _ x1 H) as H1. apply may_read_spec in Hm.
  assert (Hre : isElrondReservedKey (e_nftNonceKey E ++ t) = true).
  { apply reserved_spec. destruct Hres as [z Hz]. exists (z ++ t). rewrite Hz, app_assoc. reflexivity. }
  destruct (from_reserved a (e_nftNonceKey E ++ t) (with_inst i x1 h) i x1 HE H1 Hp1 Hkl Hm Hre Hlen) as (x2 & Hg & Hx2).
  erewrite run_act; [|cbn [interp]; exact Hg]. rewrite with_inst_with_inst.
  pose proof (running_with_inst _ _ _ x2 H) as H2. eexists. split; [cbn [run_cmd]; unfold ret; rewrite be_decode_value; reflexivity|].
  split; [rewrite (cur_mem_run _ _ _ H2), (cur_mem_run _ _ _ H), Hx2, Hx1; reflexivity|].
  split; [reflexivity|]. split; [apply sbs_refl|]. repeat split.
Qed.
Lemma nft_denied fuel ao to tl a t h : env_ok E -> calling h ->
  mem_load h (i32 ao) 32 = ROk a -> mem_load h (i32 to) (i32 tl) = ROk t -> go_len (e_nftNonceKey E ++ t) -> ~ may_read_from h a ->
  exists h', vmApi fuel (A_getCurrentESDTNFTNonce ao to tl) h = (h', OOk 0) /\
    cur_mem h' = cur_mem h /\ h_out h' = h_out h /\ sto_frame h h'.
Proof.
  intros HE (i & x & Hc & Hi & Hp & Hr) Ha Ht Hkl Hm. assert (H : running_as h i x) by (split; assumption).
  destruct (nft_start fuel ao to tl a t h i x HE H Hp Ha Ht) as (x1 & Hp1 & Hx1 & _ & ->).
  pose proof (running_with_inst _ _ _ x1 H) as H1. rewrite may_read_spec in Hm.
  erewrite run_act; [|cbn [interp]; apply (from_denied _ _ _ i x1 HE H1 Hp1 Hkl Hm)]. rewrite with_inst_with_inst.
  set (x2 := pay _ x1). pose proof (running_with_inst _ _ _ x2 H) as H2. eexists. split; [reflexivity|].
  split; [rewrite (cur_mem_run _ _ _ H2), (cur_mem_run _ _ _ H); cbn [in_mem x2 pay set_in_points]; rewrite <- Hx1; reflexivity|].
  split; [reflexivity|]. split; [apply sbs_refl|]. repeat split.
Qed.
End nft.
