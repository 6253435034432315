(** The world a setState step leaves. *)
From Verif Require Import Base ScenModel WorldModel WorldSpec SetSpec PlacedSpec CheckProofs CodecProofs SetProofs.
From stdpp Require Import gmap.
From Coq Require Import ZifyBool ZifyNat ZifyN.
Local Open Scope Z_scope.

Section Placed.
Context (W : wenv).

Definition all_fields (a b : waccount) : Prop :=
  wa_address a = wa_address b /\ wa_nonce a = wa_nonce b /\ wa_balance a = wa_balance b /\
  wa_username a = wa_username b /\ wa_code a = wa_code b /\ wa_async a = wa_async b /\
  wa_owner a = wa_owner b /\ wa_shard a = wa_shard b /\ wa_delta a = wa_delta b /\
  wa_reward a = wa_reward b /\ wa_is_sc a = wa_is_sc b.
Lemma all_insts d l : forall a, all_fields (fold_left (put_instance d) l a) a.
Proof.
  induction l as [|i l IH]; intros a; cbn [fold_left]; [repeat split|].
  unfold all_fields. destruct (IH (put_instance d a i)) as (-> & -> & -> & -> & -> & -> & -> & -> & -> & -> & ->).
  repeat split.
Qed.
Lemma all_tokens l : forall a, all_fields (fold_left put_token l a) a.
Proof.
  induction l as [|d l IH]; intros a; cbn [fold_left]; [repeat split|].
  unfold all_fields. destruct (IH (put_token a d)) as (-> & -> & -> & -> & -> & -> & -> & -> & -> & -> & ->).
  exact (all_insts d (ed_instances d) a).
Qed.

Lemma convert_placed t a : convertAccount (W := W) t = SOk a -> placed t a.
Proof.
  intros H. unfold convertAccount in H. destruct (length _ =? 32)%nat; [|discriminate].
  destruct (jz_value (a_balance t)) as [z|] eqn:Hz; [|discriminate]. apply (f_equal (fun r => match r with SOk x => x | _ => a end)) in H.
  cbv beta iota in H. subst a.
  match goal with |- placed _ (fold_left _ _ ?x) => set (a0 := x) end.
  assert (Ha0 : wa_storage a0 = storage_of (a_storage t)) by reflexivity.
  assert (Hk : forall k, ~ reserved k -> wa_storage (fold_left put_token (a_esdt t) a0) !! k =
                 storage_of (a_storage t) !! k).
  { intros k Hr. rewrite (plain_key W t a0) by exact Hr. rewrite Ha0. reflexivity. }
  destruct (all_tokens (a_esdt t) a0) as (H1 & H2 & H3 & H4 & H5 & H6 & H7 & H8 & H9 & H10 & H11).
  unfold placed. rewrite H1, H2, H3, H4, H5, H6, H7, H8, H9, H10, H11, Hz.
  repeat (split; [reflexivity|]). split.
  - cbn. destruct (bool_decide_reflect (jb_value (a_code t) = [])); cbn; split; congruence.
  - intros k Hr. rewrite (Hk k Hr). unfold storage_of. split.
    + intros d Hd. apply (last_map_some (fun d : jbytes * jtree => jb_value (fst d)) (fun d => jt_value (snd d))).
      exists d. auto.
    + apply (last_map_none (fun d : jbytes * jtree => jb_value (fst d)) (fun d => jt_value (snd d))).
Qed.
Lemma convert_tokens t a : codec_keeps W -> sound_account t -> convertAccount (W := W) t = SOk a ->
  forall name n v m, holds W a name n v m <->
    exists d i, d ∈ a_esdt t /\ jb_value (ed_token d) = name /\
      last_with (fun i => ju_value (ei_nonce i)) (ed_instances d) n i /\
      jz_value (ei_balance i) = Some v /\ m = declared_meta d i.
Proof.
  intros HK HS H. unfold convertAccount in H. destruct (length _ =? 32)%nat; [|discriminate].
  destruct (jz_value (a_balance t)) as [z|] eqn:Hz; [|discriminate]. apply (f_equal (fun r => match r with SOk x => x | _ => a end)) in H.
  cbv beta iota in H. subst a.
  match goal with |- forall name n v m, holds _ (fold_left _ _ ?x) _ _ _ _ <-> _ => set (a0 := x) end.
  assert (Ha0 : wa_storage a0 = storage_of (a_storage t)) by reflexivity.
  assert (Hinv : forall nm n v m, holds W (fold_left put_token (a_esdt t) a0) nm n v m ->
    exists d i, d ∈ a_esdt t /\ jb_value (ed_token d) = nm /\
      last_with (fun i => ju_value (ei_nonce i)) (ed_instances d) n i /\
      jz_value (ei_balance i) = Some v /\ m = declared_meta d i).
  { intros nm n v m Hh.
    destruct (holds_inv W HK t HS a0 Ha0 nm n v m Hh) as (d & i & Hd & Hl & Hn & Hv & H0 & H1).
    exists d, i. split; [exact Hd|]. split; [exact Hn|]. split; [exact Hl|]. split; [exact Hv|].
    assert (En : ju_value (ei_nonce i) = n) by (destruct Hl as (? & ? & ? & ? & ?); assumption).
    assert (Hi : i ∈ ed_instances d) by (destruct Hl as (b & l & -> & _); apply elem_of_app; right; left).
    destruct (nonce_of t HS d i Hd Hi) as (_ & _ & Hroy & _).
    unfold declared_meta. rewrite En. destruct (Z.eqb_spec n 0) as [E|E].
    - rewrite (H0 E), <- Hn. reflexivity.
    - specialize (H1 E). cbn in H1. apply (inj Some) in H1. rewrite <- H1, En. f_equal. apply Z.mod_small, Hroy. }
  intros nm n v m. split; [apply Hinv|]. intros (d & i & Hd & Hn & Hl & Hv & ->).
  destruct (holds_there W HK t HS a0 d i n Hd Hl) as (v' & m' & Hh). rewrite Hn in Hh.
  destruct (Hinv _ _ _ _ Hh) as (d' & i' & Hd' & Hn' & Hl' & Hv' & Hm').
  assert (d' = d) as -> by (apply (token_of_name t HS); [assumption..|congruence]).
  assert (i' = i) as ->.
  { assert (H1 := proj2 (last_map_some (fun i => ju_value (ei_nonce i)) (fun i => i) (ed_instances d) n i)).
    assert (H2 := proj2 (last_map_some (fun i => ju_value (ei_nonce i)) (fun i => i) (ed_instances d) n i')).
    specialize (H1 (ex_intro _ i (conj Hl eq_refl))). specialize (H2 (ex_intro _ i' (conj Hl' eq_refl))). congruence. }
  assert (v' = v) as -> by congruence. rewrite <- Hm'. exact Hh.
Qed.

Definition addr_of (t : account) : bytes := jb_value (a_address t).
Lemma put_all l : forall m m', put_accounts (W := W) l m = (m', SOk tt) ->
  (forall addr t, last_with addr_of l addr t ->
     exists a, m' !! addr = Some a /\ convertAccount (W := W) t = SOk a /\ Validate a = true) /\
  (forall addr, none_with addr_of l addr -> m' !! addr = m !! addr).
Proof.
  induction l as [|t l IH]; intros m m' H; cbn [put_accounts] in H.
  - injection H as <-. split; [|reflexivity]. intros addr t (b & p & He & _). destruct b; discriminate He.
  - destruct (convertAccount t) as [a| |] eqn:Hc; [|discriminate..]. destruct (Validate a) eqn:Hv; [|discriminate].
    destruct (IH _ _ H) as [H1 H2]. destruct (convert_placed t a Hc) as [Ha _]. split.
    + intros addr u (b & p & He & Hk & Hn). destruct b as [|t' b].
      * cbn in He. injection He as <- <-. exists a. split; [|auto]. rewrite H2 by exact Hn.
        rewrite Ha. unfold addr_of in Hk. rewrite Hk. apply lookup_insert.
      * cbn in He. injection He as <- He. apply H1. exists b, p. auto.
    + intros addr Hn. rewrite H2 by (intros y Hy; apply Hn; right; exact Hy).
      apply lookup_insert_ne. rewrite Ha. apply Hn. left.
Qed.

Lemma block_ok b : block_placed b (convertBlockInfo b).
Proof.
  unfold block_placed, convertBlockInfo. cbn. repeat (split; [reflexivity|]). destruct (bi_seed b) as [s|].
  - split; [|split].
    + rewrite app_length, take_length, repeat_length. lia.
    + intros s' [= <-] Hl. rewrite take_ge by lia. rewrite Hl. cbn. apply app_nil_r.
    + discriminate.
  - split; [reflexivity|]. split; [discriminate|reflexivity].
Qed.
Lemma header_ok b : header_placed b (convertBlockInfo <$> b).
Proof. destruct b as [b|]; cbn; [apply block_ok|exact I]. Qed.

Lemma set_state_placed c l prev cur hashes mocks g w w' :
  ExecuteStep (W := W) g (SetState c l prev cur hashes mocks) w = (w', SOk tt) ->
  (forall addr t, last_with addr_of l addr t ->
     exists a, mw_accts w' !! addr = Some a /\ placed t a /\
       (codec_keeps W -> sound_account t ->
        forall name n v m, holds W a name n v m <->
          exists d i, d ∈ a_esdt t /\ jb_value (ed_token d) = name /\
            last_with (fun i => ju_value (ei_nonce i)) (ed_instances d) n i /\
            jz_value (ei_balance i) = Some v /\ m = declared_meta d i)) /\
  (forall addr, none_with addr_of l addr -> mw_accts w' !! addr = mw_accts w !! addr) /\
  header_placed prev (mw_previous w') /\ header_placed cur (mw_current w') /\
  mw_hashes w' = map jb_value hashes /\
  (exists more, mw_mocks w' = mw_mocks w ++ more /\ Forall2 mock_placed mocks more) /\
  mw_snaps w' = mw_snaps w.
Proof.
  cbn [ExecuteStep]. unfold ExecuteSetStateStep. destruct (put_accounts l (mw_accts w)) as [m [[]| |]] eqn:Hp; [|discriminate..].
  destruct (put_all _ _ _ Hp) as [H1 H2]. destruct (forallb _ _); [|discriminate]. intros H.
  apply (f_equal fst) in H. cbn [fst] in H. subst w'. cbn [mw_accts mw_previous mw_current mw_hashes mw_mocks mw_snaps].
  split; [|split; [exact H2|]].
  - intros addr t Ht. destruct (H1 addr t Ht) as (a & Ha & Hc & _). exists a. split; [exact Ha|].
    split; [exact (convert_placed t a Hc)|]. intros HK HS. exact (convert_tokens t a HK HS Hc).
  - split; [apply header_ok|]. split; [apply header_ok|]. split; [reflexivity|]. split; [|reflexivity].
    eexists. split; [reflexivity|]. induction mocks as [|n r IH]; cbn; constructor; [reflexivity|exact IH].
Qed.
End Placed.
