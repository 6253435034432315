(** The property theorems about the checks of a scenario: checkState steps and
    the expected results of transactions. *)
From Verif Require Import Base ScenModel WorldModel WorldSpec CheckProofs ExWorld.
From stdpp Require Import gmap.
Local Open Scope Z_scope.

(** C68: a checkState step changes nothing, and passes exactly when each listed
    account has the nonce, balance, username, code, pending call data, storage
    and tokens declared for it and, unless "+" stands in the list, there is no
    other account. *)
Theorem C68_check_state_exact :
  forall (W : wenv) (checkGas : bool) (comment : bytes) (xs : check_accounts) (w : mworld),
  codec_ok W ->
  fst (ExecuteStep checkGas (CheckState comment (Some xs)) w) = w /\
  (snd (ExecuteStep checkGas (CheckState comment (Some xs)) w) = SOk tt <->
   world_as_declared W xs (mw_accts w)).
Proof.
  intros W g c xs w HW. split; [reflexivity|]. exact (accounts_ok W HW xs w).
Qed.
Print Assumptions C68_check_state_exact.

Example C68_check_state_exact_ex :
  codec_ok silent /\
  (* two accounts as they are, the third left to "+" *)
  snd (ExecuteStep (W := silent) false (CheckState [] (Some (mkCheckAccounts [want_alice; want_shop "5" no_bytes] true))) setup) = SOk tt /\
  (* another value in storage; another nonce of a token; the third account *)
  snd (ExecuteStep (W := silent) false (CheckState [] (Some (mkCheckAccounts [want_alice; want_shop "6" no_bytes] true))) setup) = SErr /\
  snd (ExecuteStep (W := silent) false (CheckState [] (Some (mkCheckAccounts [want_alice; want_shop "5" no_bytes] false))) setup) = SErr /\
  size (mw_accts setup) = 3%nat.
Proof. split; [apply machine_codec|]. repeat split; vm_compute; reflexivity. Qed.

(** C69: not all that a checkState step can declare is compared.  The owner is
    not: the step passes with any. *)
Theorem C69_owner_refuted :
  exists (W : wenv) xs w x a, codec_ok W /\ x ∈ xs_accounts xs /\
  mw_accts w !! jb_value (x_address x) = Some a /\
  cb_unspec (x_owner x) = false /\ ~ allows_bytes (x_owner x) (wa_owner a) /\
  ExecuteStep false (CheckState [] (Some xs)) w = (w, SOk tt).
Proof.
  exists silent, (mkCheckAccounts [want_shop "5" (cb bob)] true), setup, (want_shop "5" (cb bob)).
  destruct (mw_accts setup !! shop) as [a|] eqn:Ha; [|vm_compute in Ha; discriminate].
  exists a. split; [apply machine_codec|]. split; [left|]. split; [exact Ha|]. split; [reflexivity|].
  assert (Ho : wa_owner <$> mw_accts setup !! shop = Some alice) by (vm_compute; reflexivity).
  rewrite Ha in Ho. cbn in Ho. apply (inj Some) in Ho. split.
  - rewrite Ho. intros [H|H]; discriminate H.
  - rewrite check_step. f_equal; vm_compute; reflexivity.
Qed.
Print Assumptions C69_owner_refuted.

(** C69: "+" among the tokens of an account is read, and has no effect. *)
Theorem C69_more_tokens_refuted :
  exists (W : wenv) xs w x, codec_ok W /\ xs_accounts xs = [x] /\
  x_more_esdt x = true /\ x_esdt x = [] /\
  (forall a, mw_accts w !! jb_value (x_address x) = Some a ->
     exists name v m, holds W a name 0 v m) /\
  is_Some (mw_accts w !! jb_value (x_address x)) /\
  ExecuteStep false (CheckState [] (Some xs)) w = (w, SErr) /\
  (* it is the tokens that are not accepted *)
  ExecuteStep false (CheckState [] (Some (mkCheckAccounts
    [mkCheckAccount (x_address x) (x_comment x) (x_nonce x) (x_balance x) (x_username x)
       (x_storage x) (x_ignore_storage x) (x_more_storage x) (x_code x) (x_owner x) (x_async x)
       (x_esdt x) true (x_more_esdt x)] (xs_more xs)))) w = (w, SOk tt).
Proof.
  exists silent, (mkCheckAccounts [plus_tokens true] true), setup, (plus_tokens true).
  split; [apply machine_codec|]. do 3 (split; [reflexivity|]). split.
  - intros a Ha. change (jb_value (x_address (plus_tokens true))) with alice in Ha.
    exists (str "GEM"), 50, (mkTokMeta 0 (str "GEM") [] 0 [] [] []).
    assert (Hs : (fun a => wa_storage a !! (str "ELRONDesdt" ++ str "GEM" ++ [])) <$> mw_accts setup !! alice
                 = Some (Some (put_token_bytes (mkTok 0 (Some 50) [] (Some (mkTokMeta 0 (str "GEM") [] 0 [] [[]] [])))))).
    { vm_compute. reflexivity. }
    rewrite Ha in Hs. cbn [fmap option_fmap option_map] in Hs. apply (inj Some) in Hs.
    eexists _, (mkTok 0 (Some 50) [] (Some (mkTokMeta 0 (str "GEM") [] 0 [] [[]] []))), [].
    split; [split; [reflexivity|discriminate]|]. split; [exact Hs|]. split; [vm_compute; discriminate|].
    split; [apply token_back; intros m [= <-]; cbn; lia|]. split; [reflexivity|]. split; [lia|].
    cbn. split; [intros m' [= <-]; reflexivity|reflexivity].
  - split; [vm_compute; eauto|]. split; rewrite check_step; (f_equal; vm_compute; reflexivity).
Qed.
Print Assumptions C69_more_tokens_refuted.

(** C69: whether a token is frozen is not compared either. *)
Theorem C69_frozen_refuted :
  exists (W : wenv) xs w x d a raw t, codec_ok W /\ xs_accounts xs = [x] /\ d ∈ x_esdt x /\
  xe_frozen d = mkCUint 1 false [] false /\
  mw_accts w !! jb_value (x_address x) = Some a /\
  wa_storage a !! (str "ELRONDesdt" ++ jb_value (xe_token d)) = Some raw /\
  we_unmarshal W raw = Some t /\ tk_properties t = we_frozen W false /\
  we_frozen W false <> we_frozen W true /\
  ExecuteStep false (CheckState [] (Some xs)) w = (w, SOk tt).
Proof.
  destruct (mw_accts setup !! alice) as [a|] eqn:Ha; [|vm_compute in Ha; discriminate].
  exists silent, (mkCheckAccounts [mkCheckAccount (jb alice) [] (cu 3) (cz 1000) (cb (str "al")) [] false false (cb []) no_bytes no_bytes
    [frozen_gems] false false] true), setup.
  eexists _, frozen_gems, a, (put_token_bytes (mkTok 0 (Some 50) [] (Some (mkTokMeta 0 (str "GEM") [] 0 [] [[]] [])))), _.
  split; [apply machine_codec|]. split; [reflexivity|]. split; [left|]. split; [reflexivity|]. split; [exact Ha|].
  split.
  { assert (Hs : (fun a => wa_storage a !! (str "ELRONDesdt" ++ str "GEM")) <$> mw_accts setup !! alice
                 = Some (Some (put_token_bytes (mkTok 0 (Some 50) [] (Some (mkTokMeta 0 (str "GEM") [] 0 [] [[]] [])))))).
    { vm_compute. reflexivity. }
    rewrite Ha in Hs. cbn [fmap option_fmap option_map] in Hs. apply (inj Some) in Hs. exact Hs. }
  split; [apply token_back; intros m [= <-]; cbn; lia|]. split; [reflexivity|]. split; [discriminate|].
  rewrite check_step. f_equal; vm_compute; reflexivity.
Qed.
Print Assumptions C69_frozen_refuted.

(** C69: a checkState step without accounts does not fail: it panics. *)
Theorem C69_nothing_to_check_refuted :
  exists (W : wenv) w, ExecuteStep false (CheckState [] None) w = (w, SPanic).
Proof. exists silent, setup. reflexivity. Qed.
Print Assumptions C69_nothing_to_check_refuted.

(** C70: the expected result of a transaction is accepted exactly when status,
    message, results, refund, logs and, if the scenario checks it, the gas left
    are as declared. *)
Theorem C70_result_exact :
  forall (W : wenv) checkGas ident comment tx expected w w' o,
  executeTx ident tx w = (w', SOk o) ->
  fst (ExecuteStep checkGas (TxStep ident comment tx (Some expected)) w) = w' /\
  (snd (ExecuteStep checkGas (TxStep ident comment tx (Some expected)) w) = SOk tt <->
   result_as_expected checkGas expected o).
Proof.
  intros W g i c tx e w w' o H. cbn [ExecuteStep]. unfold ExecuteTxStep. rewrite H. cbn [fst snd sbind].
  split; [reflexivity|]. exact (results_ok e g o).
Qed.
Print Assumptions C70_result_exact.

Example C70_result_exact_ex :
  status (executeTx (W := silent) (str "pay") (pay 100) setup) = Some RcOk /\
  snd (ExecuteStep (W := silent) true (TxStep (str "pay") [] (pay 100) (Some (want_result 0 (cu 0)))) setup) = SOk tt /\
  snd (ExecuteStep (W := silent) true (TxStep (str "pay") [] (pay 100) (Some (want_result 0 (cu 1)))) setup) = SErr /\
  snd (ExecuteStep (W := silent) false (TxStep (str "pay") [] (pay 100) (Some (want_result 0 (cu 1)))) setup) = SOk tt /\
  snd (ExecuteStep (W := silent) false (TxStep (str "pay") [] (pay 981) (Some (want_result 0 (cu 0)))) setup) = SErr.
Proof. repeat split; vm_compute; reflexivity. Qed.

(** C70: the hash of the logs can be declared, but any hash is accepted when
    there are no logs. *)
Theorem C70_log_hash_refuted :
  exists (W : wenv) ident tx w, forall hash,
  snd (ExecuteStep false (TxStep ident [] tx (Some (mkTxResult [] (cz 0) (cb []) (cu 0) (cz 0)
         false false hash []))) w) = SOk tt.
Proof. exists silent, (str "pay"), (pay 100), setup. intros hash. vm_compute. reflexivity. Qed.
Print Assumptions C70_log_hash_refuted.
