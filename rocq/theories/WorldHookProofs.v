(** What the machine is told about a world set by a setState step. *)
From Verif Require Import Base CodecModel CodecProofs ScenModel WorldModel WorldSpec SetSpec PlacedSpec SetProofs PlacedProofs CheckProofs CtxModel WorldHookModel.
From stdpp Require Import gmap.
From Coq Require Import ZifyBool ZifyNat ZifyN Lia.
Local Open Scope Z_scope.

Section Hook.
Context (W : wenv).

Lemma put_token_meta l : forall a, wa_meta (fold_left (put_token (W := W)) l a) = wa_meta a.
Proof.
  assert (Hi : forall d l a, wa_meta (fold_left (put_instance (W := W) d) l a) = wa_meta a).
  { intros d l0. induction l0 as [|i l0 IH]; intros a; [reflexivity|]. cbn [fold_left]. rewrite IH. reflexivity. }
  induction l as [|d l IH]; intros a; [reflexivity|]. cbn [fold_left]. rewrite IH. unfold put_token.
  cbn. apply Hi.
Qed.
Lemma convert_meta t a : convertAccount (W := W) t = SOk a -> wa_meta a = we_meta W.
Proof.
  intros H. unfold convertAccount in H. destruct (length _ =? 32)%nat; [|discriminate].
  destruct (jz_value (a_balance t)) as [z|]; [|discriminate].
  apply (f_equal (fun r => match r with SOk x => x | _ => a end)) in H.
  cbv beta iota in H. subst a. rewrite put_token_meta. reflexivity.
Qed.

Lemma set_account c l prev cur hashes mocks g w w' addr t :
  ExecuteStep (W := W) g (SetState c l prev cur hashes mocks) w = (w', SOk tt) ->
  last_with (fun t => jb_value (a_address t)) l addr t ->
  exists a, mw_accts w' !! addr = Some a /\ placed t a /\ wa_meta a = we_meta W.
Proof.
  cbn [ExecuteStep]. unfold ExecuteSetStateStep. destruct (put_accounts l (mw_accts w)) as [m [[]| |]] eqn:Hp; [|discriminate..].
  destruct (PlacedProofs.put_all W _ _ _ Hp) as [H1 _]. destruct (forallb _ _); [|discriminate]. intros H Ht.
  apply (f_equal fst) in H. cbn [fst] in H. subst w'. cbn [mw_accts].
  destruct (H1 addr t Ht) as (a & Ha & Hc & _). exists a. split; [exact Ha|].
  split; [exact (convert_placed W t a Hc)|exact (convert_meta t a Hc)].
Qed.

Lemma told_account c l prev cur hashes mocks g w w' addr t like :
  ExecuteStep (W := W) g (SetState c l prev cur hashes mocks) w = (w', SOk tt) ->
  last_with (fun t => jb_value (a_address t)) l addr t ->
  meta_payable (we_meta W) = true ->
  exists a, hook_GetUserAccount addr w' = SOk a /\ placed t a /\
    hook_GetAllState addr w' = SOk (wa_storage a) /\
    hook_GetCode addr w' = jb_value (a_code t) /\
    hook_GetShardOfAddress addr w' = ju_value (a_shard t) mod 2 ^ 32 /\
    (hook_IsSmartContract like addr w' = true <-> jb_value (a_code t) <> []) /\
    hook_IsPayable addr w' = true /\
    forall k, ~ reserved k ->
      (forall d, last_with (fun d : jbytes * jtree => jb_value (fst d)) (a_storage t) k d ->
         hook_GetStorageData addr k w' = jt_value (snd d)) /\
      (none_with (fun d : jbytes * jtree => jb_value (fst d)) (a_storage t) k ->
         hook_GetStorageData addr k w' = []).
Proof.
  intros H Ht Hm. destruct (set_account _ _ _ _ _ _ _ _ _ _ _ H Ht) as (a & Ha & Hp & Hme).
  exists a. unfold hook_GetUserAccount, hook_GetAllState, hook_GetCode, hook_GetShardOfAddress, hook_IsSmartContract,
    hook_IsPayable, hook_GetStorageData, StorageValue. rewrite Ha.
  pose proof Hp as (_ & _ & _ & _ & P5 & _ & _ & P8 & _ & _ & P11 & P12).
  split; [reflexivity|]. split; [exact Hp|]. split; [reflexivity|]. split; [exact P5|]. split; [exact P8|].
  split; [exact P11|]. split.
  - rewrite Hme, Hm. destruct (wa_is_sc a); reflexivity.
  - intros k Hk. destruct (P12 k Hk) as [Q1 Q2]. split.
    + intros d Hd. rewrite (Q1 d Hd). reflexivity.
    + intros Hn. rewrite (Q2 Hn). reflexivity.
Qed.

Lemma told_others c l prev cur hashes mocks g w w' addr like :
  ExecuteStep (W := W) g (SetState c l prev cur hashes mocks) w = (w', SOk tt) ->
  none_with (fun t => jb_value (a_address t)) l addr ->
  hook_GetUserAccount addr w' = hook_GetUserAccount addr w /\
  hook_GetAllState addr w' = hook_GetAllState addr w /\
  hook_GetCode addr w' = hook_GetCode addr w /\
  hook_GetShardOfAddress addr w' = hook_GetShardOfAddress addr w /\
  hook_IsSmartContract like addr w' = hook_IsSmartContract like addr w /\
  hook_IsPayable addr w' = hook_IsPayable addr w /\
  (forall k, hook_GetStorageData addr k w' = hook_GetStorageData addr k w) /\
  (forall name n, hook_GetESDTToken (W := W) addr name n w' = hook_GetESDTToken (W := W) addr name n w).
Proof.
  intros H Hn. destruct (set_state_placed W _ _ _ _ _ _ _ _ _ H) as (_ & H2 & _). specialize (H2 addr Hn).
  unfold hook_GetUserAccount, hook_GetAllState, hook_GetCode, hook_GetShardOfAddress, hook_IsSmartContract,
    hook_IsPayable, hook_GetStorageData, hook_GetESDTToken. rewrite H2. repeat (split; [reflexivity|]). reflexivity.
Qed.

Lemma told_unknown addr w like : mw_accts w !! addr = None ->
  hook_GetUserAccount addr w = SErr /\ hook_GetAllState addr w = SErr /\
  hook_GetCode addr w = [] /\ hook_GetShardOfAddress addr w = 0 /\
  hook_IsSmartContract like addr w = like addr /\ hook_IsPayable addr w = true /\
  (forall k, hook_GetStorageData addr k w = []).
Proof.
  intros H. unfold hook_GetUserAccount, hook_GetAllState, hook_GetCode, hook_GetShardOfAddress, hook_IsSmartContract,
    hook_IsPayable, hook_GetStorageData. rewrite H. repeat (split; [reflexivity|]). reflexivity.
Qed.

Lemma told_blocks c l prev cur hashes mocks g w w' :
  ExecuteStep (W := W) g (SetState c l prev cur hashes mocks) w = (w', SOk tt) ->
  (forall b, prev = Some b -> block_placed b (hook_Last w')) /\
  (forall b, cur = Some b -> block_placed b (hook_Current w')) /\
  (prev = None -> hook_Last w' = mkWBlock 0 0 0 0 []) /\
  (cur = None -> hook_Current w' = mkWBlock 0 0 0 0 []) /\
  (forall n h, 0 <= n ->
     (hook_GetBlockhash n w' = SOk h <->
      exists i, h = jb_value i /\ exists k, hashes !! k = Some i /\
        n + Z.of_nat k = match cur with Some b => ju_value (bi_nonce b) | None => 0 end)).
Proof.
  intros H. destruct (set_state_placed W _ _ _ _ _ _ _ _ _ H) as (_ & _ & H3 & H4 & H5 & _).
  unfold hook_Last, hook_Current, hook_GetBlockhash, hook_Current. rewrite H5. unfold header_placed in H3, H4.
  assert (Hcur : wb_nonce (block_of (mw_current w')) = match cur with Some b => ju_value (bi_nonce b) | None => 0 end).
  { destruct cur as [b|], (mw_current w') as [x|]; try contradiction; [|reflexivity].
    destruct H4 as (_ & H4 & _). exact H4. }
  split_and!.
  - intros b ->. destruct (mw_previous w'); [exact H3|contradiction].
  - intros b ->. destruct (mw_current w'); [exact H4|contradiction].
  - intros ->. destruct (mw_previous w'); [contradiction|reflexivity].
  - intros ->. destruct (mw_current w'); [contradiction|reflexivity].
  - intros n h Hn. rewrite Hcur. set (now := match cur with Some b => _ | None => _ end).
    destruct (now <? n) eqn:Hlt.
    + split; [discriminate|]. intros (i & _ & k & _ & Hk). exfalso. lia.
    + rewrite list_lookup_fmap. split.
      * destruct (hashes !! Z.to_nat (now - n)) as [i|] eqn:Hi; cbn; [|discriminate].
        intros [= <-]. exists i. split; [reflexivity|]. exists (Z.to_nat (now - n)). split; [exact Hi|lia].
      * intros (i & -> & k & Hk & He). assert (Z.to_nat (now - n) = k) as -> by lia. rewrite Hk. reflexivity.
Qed.

Lemma told_token c l prev cur hashes mocks g w w' addr t d i v :
  codec_keeps W -> sound_account t ->
  ExecuteStep (W := W) g (SetState c l prev cur hashes mocks) w = (w', SOk tt) ->
  last_with (fun t => jb_value (a_address t)) l addr t ->
  d ∈ a_esdt t ->
  last_with (fun i => ju_value (ei_nonce i)) (ed_instances d) (ju_value (ei_nonce i)) i ->
  jz_value (ei_balance i) = Some v ->
  exists tk, hook_GetESDTToken (W := W) addr (jb_value (ed_token d)) (ju_value (ei_nonce i)) w' = SOk tk /\
    tk_value tk = Some v /\
    (ju_value (ei_nonce i) <> 0 -> tk_meta tk = Some (declared_meta d i)).
Proof.
  intros HK HS H Ht Hd Hi Hv. destruct (set_state_placed W _ _ _ _ _ _ _ _ _ H) as (H1 & _).
  destruct (H1 addr t Ht) as (a & Ha & _ & Htok).
  assert (Hh : holds W a (jb_value (ed_token d)) (ju_value (ei_nonce i)) v (declared_meta d i)).
  { apply (Htok HK HS). exists d, i. auto. }
  destruct Hh as (raw & tk & nb & Hnb & Hs & Hr & Hu & Hval & _ & Hm).
  apply nonce_bytes_iff in Hnb as [Hn0 ->].
  exists tk. unfold hook_GetESDTToken. rewrite Ha. split.
  - unfold GetTokenData, MakeTokenKey, StorageValue. change ESDTTokenKeyPrefix with (str "ELRONDesdt") at 1.
    rewrite Hs. cbn [default id]. destruct raw; [congruence|]. rewrite Hu. reflexivity.
  - split; [exact Hval|]. intros Hne. destruct (ju_value (ei_nonce i) =? 0) eqn:E; [lia|]. exact (proj1 Hm).
Qed.
End Hook.

(** * New addresses *)
Lemma find_mock_first : forall l creator nonce a,
  find_mock creator nonce l = Some a <->
  exists before later, l = before ++ mkWMock creator nonce a :: later /\
    forall m, In m before -> wm_creator m <> creator \/ wm_cnonce m <> nonce.
Proof.
  induction l as [|m l IH]; intros creator nonce a; cbn [find_mock].
  - split; [discriminate|]. intros (b & p & H & _). destruct b; discriminate H.
  - destruct (bool_decide_reflect (creator = wm_creator m)) as [Hc | Hc]; cbn [andb].
    + destruct (Z.eqb_spec nonce (wm_cnonce m)) as [Hn | Hn].
      * split.
        -- intros [= <-]. exists [], l. split; [subst; destruct m; reflexivity|intros ? []].
        -- intros (b & p & H & Hb). destruct b as [|m' b].
           ++ injection H as -> _. reflexivity.
           ++ injection H as <- _. destruct (Hb m (or_introl eq_refl)); congruence.
      * rewrite IH. split.
        -- intros (b & p & -> & Hb). exists (m :: b), p. split; [reflexivity|]. intros x [<- | Hx]; [right; congruence|auto].
        -- intros (b & p & H & Hb). destruct b as [|m' b].
           ++ injection H as -> _. cbn in Hn. congruence.
           ++ injection H as <- ->. exists b, p. split; [reflexivity|]. intros x Hx. apply Hb. right. exact Hx.
    + rewrite IH. split.
      * intros (b & p & -> & Hb). exists (m :: b), p. split; [reflexivity|]. intros x [<- | Hx]; [left; congruence|auto].
      * intros (b & p & H & Hb). destruct b as [|m' b].
        -- injection H as -> _. cbn in Hc. congruence.
        -- injection H as <- ->. exists b, p. split; [reflexivity|]. intros x Hx. apply Hb. right. exact Hx.
Qed.
Lemma find_mock_none : forall l creator nonce,
  (forall m, In m l -> wm_creator m <> creator \/ wm_cnonce m <> nonce) -> find_mock creator nonce l = None.
Proof.
  intros l creator nonce H. destruct (find_mock creator nonce l) as [a|] eqn:E; [|reflexivity].
  apply find_mock_first in E as (b & p & -> & _).
  destruct (H (mkWMock creator nonce a)) as [F | F]; [apply in_or_app; right; left; reflexivity|cbn in F; congruence..].
Qed.

Lemma mocked_address w creator nonce before a later :
  mw_mocks w = before ++ mkWMock creator nonce a :: later ->
  (forall m, In m before -> wm_creator m <> creator \/ wm_cnonce m <> nonce) ->
  hook_NewAddress creator nonce w = SOk a.
Proof.
  intros H Hb. unfold hook_NewAddress.
  assert (find_mock creator nonce (mw_mocks w) = Some a) as -> by (apply find_mock_first; eauto). reflexivity.
Qed.

Definition generated (creator : bytes) (nonce : Z) : bytes :=
  repeat Byte.x00 10 ++ repeat Byte.x11 4 ++ take 15 creator ++ [zb nonce] ++ drop 30 creator.
Lemma generate32 creator nonce : length creator = 32%nat -> GenerateMockAddress creator nonce = SOk (generated creator nonce).
Proof.
  intros H. unfold GenerateMockAddress, generated. rewrite H. change (32 <? 30)%nat with false. cbv iota.
  rewrite take_app_alt by (rewrite drop_length; lia). reflexivity.
Qed.

Lemma fresh_address w creator nonce :
  (forall m, In m (mw_mocks w) -> wm_creator m <> creator \/ wm_cnonce m <> nonce) ->
  length creator = 32%nat ->
  exists a, hook_NewAddress creator nonce w = SOk a /\ length a = 32%nat /\ take 8 a = repeat Byte.x00 8.
Proof.
  intros Hm Hl. unfold hook_NewAddress. rewrite (find_mock_none _ _ _ Hm), (generate32 _ _ Hl).
  eexists. split; [reflexivity|]. split; [|reflexivity].
  unfold generated. rewrite !app_length, !repeat_length, take_length, drop_length, Hl. reflexivity.
Qed.

Lemma zb_iff n m : zb n = zb m <-> n mod 256 = m mod 256.
Proof.
  rewrite <- !bz_zb. split; [intros ->; reflexivity|apply bz_inj].
Qed.

Lemma generated_iff c n c' n' : length c = 32%nat -> length c' = 32%nat ->
  GenerateMockAddress c n = GenerateMockAddress c' n' <->
  take 15 c = take 15 c' /\ drop 30 c = drop 30 c' /\ n mod 256 = n' mod 256.
Proof.
  intros H H'. rewrite !generate32 by assumption. rewrite <- zb_iff. split.
  - intros [= E].
    apply app_inj_1 in E as [E1 E2]; [|rewrite !take_length, H, H'; reflexivity].
    injection E2 as E2 E3. auto.
  - intros (E1 & E2 & E3). unfold generated. rewrite E1, E2, E3. reflexivity.
Qed.
Lemma same_creator c n n' : length c = 32%nat -> n <> n' -> Z.abs (n - n') < 256 ->
  GenerateMockAddress c n <> GenerateMockAddress c n'.
Proof.
  intros H Hne Hab E. apply generated_iff in E as (_ & _ & E); [|assumption..].
  assert ((n - n') mod 256 = 0) by (rewrite Zminus_mod, E, Z.sub_diag; reflexivity).
  apply Z.mod_divide in H0 as [q Hq]; [|discriminate]. nia.
Qed.
Lemma nonce_wraps c n : GenerateMockAddress c (n + 256) = GenerateMockAddress c n.
Proof.
  unfold GenerateMockAddress. assert (zb (n + 256) = zb n) as ->; [|reflexivity].
  apply zb_iff. replace (n + 256) with (n + 1 * 256) by lia. apply Z_mod_plus_full.
Qed.
Lemma short_creator c n w : (length c < 30)%nat ->
  (forall m, In m (mw_mocks w) -> wm_creator m <> c \/ wm_cnonce m <> n) -> hook_NewAddress c n w = SPanic.
Proof.
  intros Hl Hm. unfold hook_NewAddress. rewrite (find_mock_none _ _ _ Hm). unfold GenerateMockAddress.
  destruct (Nat.ltb_spec (length c) 30); [reflexivity|lia].
Qed.

(** a new address declared again, in this step or a later one, is not used *)
Lemma declared_again (W : wenv) c l prev cur hashes mocks g w w' creator nonce a :
  ExecuteStep (W := W) g (SetState c l prev cur hashes mocks) w = (w', SOk tt) ->
  find_mock creator nonce (mw_mocks w) = Some a ->
  hook_NewAddress creator nonce w' = SOk a.
Proof.
  intros H Hf. destruct (set_state_placed W _ _ _ _ _ _ _ _ _ H) as (_ & _ & _ & _ & _ & (more & Hm & _) & _).
  apply find_mock_first in Hf as (b & p & Hb & Hn).
  apply (mocked_address w' creator nonce b a (p ++ more)); [|exact Hn].
  rewrite Hm, Hb, <- app_assoc. reflexivity.
Qed.

Lemma new_addresses w c n c' n' :
  (forall m, In m (mw_mocks w) -> wm_creator m <> c \/ wm_cnonce m <> n) ->
  (forall m, In m (mw_mocks w) -> wm_creator m <> c' \/ wm_cnonce m <> n') ->
  length c = 32%nat -> length c' = 32%nat ->
  (hook_NewAddress c n w = hook_NewAddress c' n' w <->
   take 15 c = take 15 c' /\ drop 30 c = drop 30 c' /\ n mod 256 = n' mod 256).
Proof.
  intros H H' Hl Hl'. unfold hook_NewAddress. rewrite (find_mock_none _ _ _ H), (find_mock_none _ _ _ H').
  apply generated_iff; assumption.
Qed.
Lemma new_addresses_differ w c n n' :
  (forall m, In m (mw_mocks w) -> wm_creator m <> c \/ (wm_cnonce m <> n /\ wm_cnonce m <> n')) ->
  length c = 32%nat -> n <> n' -> Z.abs (n - n') < 256 ->
  hook_NewAddress c n w <> hook_NewAddress c n' w.
Proof.
  intros H Hl Hne Hab. unfold hook_NewAddress. rewrite !find_mock_none.
  - apply same_creator; assumption.
  - intros m Hm. destruct (H m Hm) as [F | [_ F]]; auto.
  - intros m Hm. destruct (H m Hm) as [F | [F _]]; auto.
Qed.
Lemma two_creators : exists c c', c <> c' /\ length c = 32%nat /\ length c' = 32%nat /\
  forall w n, mw_mocks w = [] -> hook_NewAddress c n w = hook_NewAddress c' n w.
Proof.
  exists (repeat Byte.x61 32), (repeat Byte.x61 15 ++ repeat Byte.x62 15 ++ repeat Byte.x61 2).
  split; [discriminate|]. split; [reflexivity|]. split; [reflexivity|].
  intros w n H. unfold hook_NewAddress. rewrite H. reflexivity.
Qed.

Lemma payable_bit m : meta_payable m = true <-> exists b0 b1, m = [b0; b1] /\ Z.testbit (bz b1) 1 = true.
Proof.
  unfold meta_payable, meta_bit. split.
  - destruct m as [|b0 [|b1 [|b2 m]]]; try discriminate. cbn. intros H. exists b0, b1. auto.
  - intros (b0 & b1 & -> & H). exact H.
Qed.
Lemma told_payable addr w a : hook_GetUserAccount addr w = SOk a ->
  (hook_IsPayable addr w = false <->
   wa_is_sc a = true /\ ~ exists b0 b1, wa_meta a = [b0; b1] /\ Z.testbit (bz b1) 1 = true).
Proof.
  unfold hook_GetUserAccount, hook_IsPayable. destruct (mw_accts w !! addr) as [x|]; [|discriminate]. intros [= ->].
  rewrite <- payable_bit. destruct (wa_is_sc a).
  - rewrite not_true_iff_false. tauto.
  - split; [discriminate|]. intros [H _]. discriminate H.
Qed.
