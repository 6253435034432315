(** C88, C89: what the world behind a scenario answers to the machine. *)
From Verif Require Import Base ScenModel WorldModel WorldSpec SetSpec PlacedSpec CheckProofs CtxModel WorldHookModel WorldHookProofs ExWorld ExSet ExWorldHook.
From stdpp Require Import gmap.
From Coq Require Import Lia.
Local Open Scope Z_scope.

(** C88: after a setState step, the machine that asks about an account which
    the step lists gets what the step declares for it. *)
Theorem C88_account :
  forall (W : wenv) c l prev cur hashes mocks checkGas w w' addr t like,
  ExecuteStep checkGas (SetState c l prev cur hashes mocks) w = (w', SOk tt) ->
  last_with (fun t => jb_value (a_address t)) l addr t ->
  meta_payable (we_meta W) = true ->
  exists a, hook_GetUserAccount addr w' = SOk a /\ placed t a /\
    hook_GetAllState addr w' = SOk (wa_storage a) /\
    hook_GetCode addr w' = jb_value (a_code t) /\
    hook_GetShardOfAddress addr w' = ju_value (a_shard t) mod 2 ^ 32 /\
    (hook_IsSmartContract like addr w' = true <-> jb_value (a_code t) <> []) /\
    hook_IsPayable addr w' = true /\
    forall k, ~ reserved k ->
      (forall d, last_with (fun d : jbytes * jtree => jb_value (fst d)) (a_storage t) k d ->
         hook_GetStorageData addr k w' = jt_value (snd d)) /\
      (none_with (fun d : jbytes * jtree => jb_value (fst d)) (a_storage t) k ->
         hook_GetStorageData addr k w' = []).
Proof. intros W c l prev cur hashes mocks g w w' addr t like. apply (told_account W). Qed.
Print Assumptions C88_account.

Example C88_account_ex :
  snd (ExecuteStep (W := open_machine) false (SetState [] the_accounts None None [] []) empty_world) = SOk tt /\
  last_with (fun t => jb_value (a_address t)) the_accounts shop (List.nth 2 the_accounts (with_tokens [])) /\
  meta_payable (we_meta open_machine) = true /\ ~ reserved (str "sum") /\
  hook_GetStorageData shop (str "sum")
    (fst (ExecuteStep (W := open_machine) false (SetState [] the_accounts None None [] []) empty_world)) = str "5".
Proof.
  split; [vm_compute; reflexivity|]. split.
  - exists (take 2 the_accounts), []. split; [reflexivity|]. split; [reflexivity|]. intros y Hy. inversion Hy.
  - split; [reflexivity|]. split; [|vm_compute; reflexivity]. intros [rest H]. discriminate H.
Qed.

(** C88: in any world, an account takes payments unless it is a contract whose
    metadata do not have the second bit of the second byte. *)
Theorem C88_payable :
  forall addr w a, hook_GetUserAccount addr w = SOk a ->
  (hook_IsPayable addr w = false <->
   wa_is_sc a = true /\ ~ exists b0 b1, wa_meta a = [b0; b1] /\ Z.testbit (bz b1) 1 = true).
Proof. exact told_payable. Qed.
Print Assumptions C88_payable.

Example C88_payable_ex :
  exists a, hook_GetUserAccount shop setup = SOk a /\ wa_is_sc a = true /\ wa_meta a = str "meta".
Proof. eexists. split; [vm_compute; reflexivity|]. split; reflexivity. Qed.

(** C88: about any other account it hears what it would have heard before. *)
Theorem C88_others :
  forall (W : wenv) c l prev cur hashes mocks checkGas w w' addr like,
  ExecuteStep checkGas (SetState c l prev cur hashes mocks) w = (w', SOk tt) ->
  none_with (fun t => jb_value (a_address t)) l addr ->
  hook_GetUserAccount addr w' = hook_GetUserAccount addr w /\
  hook_GetAllState addr w' = hook_GetAllState addr w /\
  hook_GetCode addr w' = hook_GetCode addr w /\
  hook_GetShardOfAddress addr w' = hook_GetShardOfAddress addr w /\
  hook_IsSmartContract like addr w' = hook_IsSmartContract like addr w /\
  hook_IsPayable addr w' = hook_IsPayable addr w /\
  (forall k, hook_GetStorageData addr k w' = hook_GetStorageData addr k w) /\
  (forall name n, hook_GetESDTToken addr name n w' = hook_GetESDTToken addr name n w).
Proof. intros W c l prev cur hashes mocks g w w' addr like. apply (told_others W). Qed.
Print Assumptions C88_others.

Example C88_others_ex :
  snd (ExecuteStep (W := open_machine) false (SetState [] (take 1 the_accounts) None None [] []) setup) = SOk tt /\
  none_with (fun t => jb_value (a_address t)) (take 1 the_accounts) shop /\
  hook_GetCode shop setup = str "wasm".
Proof.
  split; [vm_compute; reflexivity|]. split; [|vm_compute; reflexivity].
  intros y Hy. repeat (apply elem_of_cons in Hy as [->|Hy]; [discriminate|]). inversion Hy.
Qed.

(** C88: an address without account is empty, takes payments, and is a contract
    if it looks like one. *)
Theorem C88_unknown :
  forall addr w like, mw_accts w !! addr = None ->
  hook_GetUserAccount addr w = SErr /\ hook_GetAllState addr w = SErr /\
  hook_GetCode addr w = [] /\ hook_GetShardOfAddress addr w = 0 /\
  hook_IsSmartContract like addr w = like addr /\ hook_IsPayable addr w = true /\
  (forall k, hook_GetStorageData addr k w = []).
Proof. exact told_unknown. Qed.
Print Assumptions C88_unknown.

Example C88_unknown_ex : mw_accts setup !! padded "carol" = None.
Proof. vm_compute. reflexivity. Qed.

(** C88: the blocks are those of the step, all zero if it has none; the hash
    asked for by nonce is the one as many places down the list as the block is
    behind the current one, and there is no other. *)
Theorem C88_blocks :
  forall (W : wenv) c l prev cur hashes mocks checkGas w w',
  ExecuteStep checkGas (SetState c l prev cur hashes mocks) w = (w', SOk tt) ->
  (forall b, prev = Some b -> block_placed b (hook_Last w')) /\
  (forall b, cur = Some b -> block_placed b (hook_Current w')) /\
  (prev = None -> hook_Last w' = mkWBlock 0 0 0 0 []) /\
  (cur = None -> hook_Current w' = mkWBlock 0 0 0 0 []) /\
  (forall n h, 0 <= n ->
     (hook_GetBlockhash n w' = SOk h <->
      exists i, h = jb_value i /\ exists k, hashes !! k = Some i /\
        n + Z.of_nat k = match cur with Some b => ju_value (bi_nonce b) | None => 0 end)).
Proof. intros W c l prev cur hashes mocks g w w'. apply (told_blocks W). Qed.
Print Assumptions C88_blocks.

Example C88_blocks_ex :
  snd (ExecuteStep (W := open_machine) false five_blocks empty_world) = SOk tt /\
  hook_GetBlockhash 4 (fst (ExecuteStep (W := open_machine) false five_blocks empty_world)) = SOk (str "four") /\
  hook_GetBlockhash 3 (fst (ExecuteStep (W := open_machine) false five_blocks empty_world)) = SErr /\
  hook_GetBlockhash 6 (fst (ExecuteStep (W := open_machine) false five_blocks empty_world)) = SErr.
Proof. split_and!; vm_compute; reflexivity. Qed.

(** C88: a token that the step gives to the account is there, with its amount
    and, if it has a nonce, all that is declared with it; for accounts as in
    C75. *)
Theorem C88_tokens_partial :
  forall (W : wenv) c l prev cur hashes mocks checkGas w w' addr t d i v,
  codec_keeps W -> sound_account t ->
  ExecuteStep checkGas (SetState c l prev cur hashes mocks) w = (w', SOk tt) ->
  last_with (fun t => jb_value (a_address t)) l addr t ->
  d ∈ a_esdt t ->
  last_with (fun i => ju_value (ei_nonce i)) (ed_instances d) (ju_value (ei_nonce i)) i ->
  jz_value (ei_balance i) = Some v ->
  exists tk, hook_GetESDTToken addr (jb_value (ed_token d)) (ju_value (ei_nonce i)) w' = SOk tk /\
    tk_value tk = Some v /\
    (ju_value (ei_nonce i) <> 0 -> tk_meta tk = Some (declared_meta d i)).
Proof. exact told_token. Qed.
Print Assumptions C88_tokens_partial.

Example C88_tokens_partial_ex :
  codec_keeps open_machine /\ Forall sound_account the_accounts /\
  snd (ExecuteStep (W := open_machine) false (SetState [] the_accounts None None [] []) empty_world) = SOk tt /\
  last_with (fun t => jb_value (a_address t)) the_accounts alice (List.nth 0 the_accounts (with_tokens [])) /\
  gems ∈ a_esdt (List.nth 0 the_accounts (with_tokens [])) /\
  match hook_GetESDTToken (W := open_machine) alice (str "GEM") 7
          (fst (ExecuteStep (W := open_machine) false (SetState [] the_accounts None None [] []) empty_world)) with
  | SOk tk => tk_value tk | _ => None end = Some 2.
Proof.
  split; [apply open_keeps|]. split; [apply accounts_sound|]. split; [vm_compute; reflexivity|]. split; [|split].
  - exists [], (drop 1 the_accounts). split; [reflexivity|]. split; [reflexivity|].
    intros y Hy. cbn in Hy. repeat (apply elem_of_cons in Hy as [->|Hy]; [discriminate|]). inversion Hy.
  - apply elem_of_list_singleton. reflexivity.
  - vm_compute. reflexivity.
Qed.

(** C88: no answer at all on the tokens of an address without account. *)
Theorem C88_unknown_token_refuted :
  forall (W : wenv) addr name n w, mw_accts w !! addr = None -> hook_GetESDTToken addr name n w = SPanic.
Proof. intros W addr name n w H. unfold hook_GetESDTToken. rewrite H. reflexivity. Qed.
Print Assumptions C88_unknown_token_refuted.

Example C88_unknown_token_refuted_ex : mw_accts setup !! padded "carol" = None.
Proof. vm_compute. reflexivity. Qed.

(** C89: a new address that the scenario declares is used; the first, if it is
    declared more than once. *)
Theorem C89_declared :
  forall w creator nonce before a later,
  mw_mocks w = before ++ mkWMock creator nonce a :: later ->
  (forall m, In m before -> wm_creator m <> creator \/ wm_cnonce m <> nonce) ->
  hook_NewAddress creator nonce w = SOk a.
Proof. exact mocked_address. Qed.
Print Assumptions C89_declared.

Example C89_declared_ex :
  mw_mocks two_new = [mkWMock alice 4 bob] ++ mkWMock alice 5 shop :: [] /\
  forall m, In m [mkWMock alice 4 bob] -> wm_creator m <> alice \/ wm_cnonce m <> 5.
Proof. split; [reflexivity|]. intros m [<- | []]. right. discriminate. Qed.

(** C89: otherwise the address has 32 bytes and looks like that of a contract. *)
Theorem C89_generated :
  forall w creator nonce,
  (forall m, In m (mw_mocks w) -> wm_creator m <> creator \/ wm_cnonce m <> nonce) ->
  length creator = 32%nat ->
  exists a, hook_NewAddress creator nonce w = SOk a /\ length a = 32%nat /\ take 8 a = repeat Byte.x00 8.
Proof. exact fresh_address. Qed.
Print Assumptions C89_generated.

Example C89_generated_ex :
  (forall m, In m (mw_mocks two_new) -> wm_creator m <> alice \/ wm_cnonce m <> 6) /\ length alice = 32%nat.
Proof. split; [|reflexivity]. intros m [<- | [<- | []]]; right; discriminate. Qed.

(** C89: two such addresses are the same exactly if the creators agree in the
    first 15 and the last 2 bytes, and the nonces modulo 256. *)
Theorem C89_exact :
  forall w c n c' n',
  (forall m, In m (mw_mocks w) -> wm_creator m <> c \/ wm_cnonce m <> n) ->
  (forall m, In m (mw_mocks w) -> wm_creator m <> c' \/ wm_cnonce m <> n') ->
  length c = 32%nat -> length c' = 32%nat ->
  (hook_NewAddress c n w = hook_NewAddress c' n' w <->
   take 15 c = take 15 c' /\ drop 30 c = drop 30 c' /\ n mod 256 = n' mod 256).
Proof. exact new_addresses. Qed.
Print Assumptions C89_exact.

Example C89_exact_ex :
  (forall m, In m (mw_mocks two_new) -> wm_creator m <> alice \/ wm_cnonce m <> 6) /\
  (forall m, In m (mw_mocks two_new) -> wm_creator m <> bob \/ wm_cnonce m <> 7) /\
  length alice = 32%nat /\ length bob = 32%nat /\
  ~ (take 15 alice = take 15 bob /\ drop 30 alice = drop 30 bob /\ 6 mod 256 = 7 mod 256).
Proof.
  split; [intros m [<- | [<- | []]]; right; discriminate|].
  split; [intros m [<- | [<- | []]]; right; discriminate|].
  split; [reflexivity|]. split; [reflexivity|]. intros (_ & _ & H). discriminate H.
Qed.

(** C89: so 256 deployments in a row of one creator get different addresses. *)
Theorem C89_same_creator_partial :
  forall w c n n',
  (forall m, In m (mw_mocks w) -> wm_creator m <> c \/ (wm_cnonce m <> n /\ wm_cnonce m <> n')) ->
  length c = 32%nat -> n <> n' -> Z.abs (n - n') < 256 ->
  hook_NewAddress c n w <> hook_NewAddress c n' w.
Proof. exact new_addresses_differ. Qed.
Print Assumptions C89_same_creator_partial.

Example C89_same_creator_partial_ex :
  (forall m, In m (mw_mocks two_new) -> wm_creator m <> alice \/ (wm_cnonce m <> 6 /\ wm_cnonce m <> 261)) /\
  Z.abs (6 - 261) < 256.
Proof. split; [|lia]. intros m [<- | [<- | []]]; right; split; discriminate. Qed.

(** C89: the 257th gets the address of the first. *)
Theorem C89_nonce_refuted :
  forall c n w, mw_mocks w = [] -> hook_NewAddress c (n + 256) w = hook_NewAddress c n w.
Proof. intros c n w H. unfold hook_NewAddress. rewrite H. exact (nonce_wraps c n). Qed.
Print Assumptions C89_nonce_refuted.

Example C89_nonce_refuted_ex :
  mw_mocks setup = [] /\ exists a, hook_NewAddress alice 3 setup = SOk a /\ hook_NewAddress alice 259 setup = SOk a.
Proof. split; [vm_compute; reflexivity|]. eexists. split; vm_compute; reflexivity. Qed.

(** C89: two creators whose names agree in the first 15 bytes get the same
    address. *)
Theorem C89_creators_refuted :
  exists c c', c <> c' /\ length c = 32%nat /\ length c' = 32%nat /\
    forall w n, mw_mocks w = [] -> hook_NewAddress c n w = hook_NewAddress c' n w.
Proof. exact two_creators. Qed.
Print Assumptions C89_creators_refuted.

Example C89_creators_refuted_ex :
  padded "market-place-of-alice" <> padded "market-place-of-bob" /\
  hook_NewAddress (padded "market-place-of-alice") 0 empty_world =
  hook_NewAddress (padded "market-place-of-bob") 0 empty_world.
Proof. split; [discriminate|vm_compute; reflexivity]. Qed.

(** C89: a new address declared again in a later step is not used. *)
Theorem C89_again_refuted :
  forall (W : wenv) c l prev cur hashes mocks checkGas w w' creator nonce before a later,
  ExecuteStep checkGas (SetState c l prev cur hashes mocks) w = (w', SOk tt) ->
  mw_mocks w = before ++ mkWMock creator nonce a :: later ->
  (forall m, In m before -> wm_creator m <> creator \/ wm_cnonce m <> nonce) ->
  hook_NewAddress creator nonce w' = SOk a.
Proof.
  intros W c l prev cur hashes mocks g w w' creator nonce before a later H Hm Hb.
  apply (declared_again W c l prev cur hashes mocks g w w' creator nonce a H).
  apply find_mock_first. eauto.
Qed.
Print Assumptions C89_again_refuted.

Example C89_again_refuted_ex :
  let again := SetState [] [] None None [] [mkNewAddress (jb alice) (ju 4) (jb shop)] in
  snd (ExecuteStep (W := open_machine) false again two_new) = SOk tt /\
  hook_NewAddress alice 4 (fst (ExecuteStep (W := open_machine) false again two_new)) = SOk bob.
Proof. split; vm_compute; reflexivity. Qed.

(** C89: an address that is too short has no new one. *)
Theorem C89_short_refuted :
  forall c n w, (length c < 30)%nat ->
  (forall m, In m (mw_mocks w) -> wm_creator m <> c \/ wm_cnonce m <> n) -> hook_NewAddress c n w = SPanic.
Proof. exact short_creator. Qed.
Print Assumptions C89_short_refuted.

Example C89_short_refuted_ex :
  (length (str "alice") < 30)%nat /\
  forall m, In m (mw_mocks two_new) -> wm_creator m <> str "alice" \/ wm_cnonce m <> 4.
Proof. split; [cbn; lia|]. intros m [<- | [<- | []]]; left; discriminate. Qed.
