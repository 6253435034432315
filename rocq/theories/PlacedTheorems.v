(** C77: what a setState step leaves. *)
From Verif Require Import Base ScenModel WorldModel WorldSpec SetSpec PlacedSpec PlacedProofs CheckProofs ExWorld ExSet.
From stdpp Require Import gmap.
Local Open Scope Z_scope.

(** C77: an account that the step lists is in the world with exactly what the
    step declares for it (the last time it lists it), every other account is as
    before; blocks, hashes and the list of new addresses are those declared. *)
Theorem C77_set_state :
  forall (W : wenv) c l prev cur hashes mocks checkGas w w',
  ExecuteStep checkGas (SetState c l prev cur hashes mocks) w = (w', SOk tt) ->
  (forall addr t, last_with (fun t => jb_value (a_address t)) l addr t ->
     exists a, mw_accts w' !! addr = Some a /\ placed t a) /\
  (forall addr, none_with (fun t => jb_value (a_address t)) l addr ->
     mw_accts w' !! addr = mw_accts w !! addr) /\
  header_placed prev (mw_previous w') /\ header_placed cur (mw_current w') /\
  mw_hashes w' = map jb_value hashes /\
  (exists more, mw_mocks w' = mw_mocks w ++ more /\ Forall2 mock_placed mocks more) /\
  mw_snaps w' = mw_snaps w.
Proof.
  intros W c l prev cur hashes mocks g w w' H.
  destruct (set_state_placed W c l prev cur hashes mocks g w w' H) as (H1 & H2). split; [|exact H2].
  intros addr t Ht. destruct (H1 addr t Ht) as (a & Ha & Hp & _). exists a. auto.
Qed.
Print Assumptions C77_set_state.

Example C77_set_state_ex :
  snd (ExecuteStep (W := silent) false
    (SetState [] the_accounts None (Some (mkBlockInfo (ju 1) (ju 2) (ju 3) (ju 4) None)) [jb (str "h")]
       [mkNewAddress (jb alice) (ju 4) (jb shop)]) empty_world) = SOk tt /\
  last_with (fun t => jb_value (a_address t)) the_accounts shop (List.nth 2 the_accounts (with_tokens [])) /\
  none_with (fun t => jb_value (a_address t)) the_accounts (padded "carol").
Proof.
  split; [vm_compute; reflexivity|]. split.
  - exists (take 2 the_accounts), []. split; [reflexivity|]. split; [reflexivity|]. intros y Hy. inversion Hy.
  - intros y Hy. repeat (apply elem_of_cons in Hy as [->|Hy]; [discriminate|]). inversion Hy.
Qed.

(** C77: the tokens of the account are exactly those declared, for accounts as
    in C75. *)
Theorem C77_tokens_partial :
  forall (W : wenv) c l prev cur hashes mocks checkGas w w' addr t a,
  codec_keeps W -> sound_account t ->
  ExecuteStep checkGas (SetState c l prev cur hashes mocks) w = (w', SOk tt) ->
  last_with (fun t => jb_value (a_address t)) l addr t -> mw_accts w' !! addr = Some a ->
  forall name n v m, holds W a name n v m <->
    exists d i, d ∈ a_esdt t /\ jb_value (ed_token d) = name /\
      last_with (fun i => ju_value (ei_nonce i)) (ed_instances d) n i /\
      jz_value (ei_balance i) = Some v /\ m = declared_meta d i.
Proof.
  intros W c l prev cur hashes mocks g w w' addr t a HK HS H Hl Ha.
  destruct (set_state_placed W c l prev cur hashes mocks g w w' H) as (H1 & _).
  destruct (H1 addr t Hl) as (a' & Ha' & _ & Ht). rewrite Ha in Ha'. injection Ha' as <-. exact (Ht HK HS).
Qed.
Print Assumptions C77_tokens_partial.

Example C77_tokens_partial_ex :
  codec_keeps silent /\ Forall sound_account the_accounts /\
  snd (ExecuteStep (W := silent) false (SetState [] the_accounts None None [] []) empty_world) = SOk tt /\
  last_with (fun t => jb_value (a_address t)) the_accounts alice (List.nth 0 the_accounts (with_tokens [])) /\
  a_esdt (List.nth 0 the_accounts (with_tokens [])) = [gems] /\ length (ed_instances gems) = 2%nat.
Proof.
  split; [apply machine_keeps|]. split; [apply accounts_sound|]. split; [vm_compute; reflexivity|].
  split; [|split; reflexivity].
  exists [], (drop 1 the_accounts). split; [reflexivity|]. split; [reflexivity|].
  intros y Hy. cbn in Hy. repeat (apply elem_of_cons in Hy as [->|Hy]; [discriminate|]). inversion Hy.
Qed.
