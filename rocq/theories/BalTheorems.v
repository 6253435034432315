(** C60: the balances shown to contracts. *)
From Verif Require Import VmModel CodecSpec BigSpec StoSpec MoneySpec IdentSpec QuerySpec QueryProofs BalSpec BalProofs ExEnv.

(** C60: asking for the balance of an account on the chain gives what the node
    has plus what the transaction has moved so far, and does not change it. *)
Theorem C60_balance_shown_partial : forall `{E : env} fuel c o a ws hs h m m',
  counting h -> cur_mem h = ROk m -> blen (m_data m) <= max_i32 ->
  address_at (m_data m) o a -> is_Some (w_accounts (h_world h) !! a) ->
  0 <= node_balance (h_world h) a -> covered h a ->
  shows c o (balance_now h a) ws hs -> all_stored m ws m' ->
  exists h', vmApi fuel c h = (h', OOk 0) /\ cur_mem h' = ROk m' /\
    (forall y, bval (h_big h') y = assigned hs (bval (h_big h)) y) /\
    only_own (looked_up a h) h' /\ balance_now h' a = balance_now h a.
Proof. intros E fuel c o a ws hs h m m'. apply c60. Qed.
Print Assumptions C60_balance_shown_partial.

(** a contract with 10, next to an address the node does not know *)
Definition bal_world : world :=
  mkWorld {[ addr "s" := sc_user (str "code") 10 ∅; addr "r" := sc_user (str "code") 7 ∅ ]} ∅.
Definition bal_host : host :=
  ex_running (addr "s" ++ addr "r" ++ addr "n" ++ replicate 31 Byte.x00 ++ [zb 4] ++ replicate 32 Byte.x00) bal_world.

(** C60: a contract gives 4 to an address without an account and asks for its
    balance: it is shown 0, although 4 are recorded for it. *)
Theorem C60_unknown_account_refuted :
  let s1 := vmApi (E := exEnv []) 3 (A_transferValue 64 96 0 0) bal_host in
  let s2 := vmApi (E := exEnv []) 3 (A_bigIntGetExternalBalance 64 5) (fst s1) in
  snd s1 = OOk 0 /\ balance_now (fst s1) (addr "n") = 4 /\ covered (fst s1) (addr "n") /\
  snd s2 = OOk 0 /\ bval (h_big (fst s2)) 5 = 0.
Proof.
  split; [vm_compute; reflexivity|]. split; [vm_compute; reflexivity|]. split; [|vm_compute; tauto].
  unfold covered. match goal with |- forall x, ?l = Some x -> _ => let v := eval vm_compute in l in assert (H : l = v) by (vm_compute; reflexivity); rewrite H end.
  intros x [= <-]. split; [discriminate|]. cbn. discriminate.
Qed.
Print Assumptions C60_unknown_account_refuted.

(** The contract sends 4 to "r", which has 7, and asks for both balances. *)
Example C60_ex :
  counting bal_host /\ (exists m, cur_mem bal_host = ROk m /\ address_at (m_data m) 32 (addr "r")) /\ covered bal_host (addr "r") /\
  shows (A_bigIntGetExternalBalance 32 5) 32 7 [] [(5, 7)] /\ balance_now bal_host (addr "r") = 7 /\
  let s1 := vmApi (E := exEnv []) 3 (A_transferValue 32 96 0 0) bal_host in
  let s2 := vmApi (E := exEnv []) 3 (A_bigIntGetExternalBalance 32 5) (fst s1) in
  let s3 := vmApi (E := exEnv []) 3 (A_bigIntGetExternalBalance 0 6) (fst s2) in
  snd s3 = OOk 0 /\ bval (h_big (fst s3)) 5 = 11 /\ bval (h_big (fst s3)) 6 = 6.
Proof.
  split. { eexists _, _. split; [reflexivity|]. split; [reflexivity|]. vm_compute. split; discriminate. }
  split. { eexists. split; [reflexivity|]. right. repeat split; vm_compute; intuition discriminate. }
  split. { intros x Hx. vm_compute in Hx. discriminate. }
  vm_compute. tauto.
Qed.
