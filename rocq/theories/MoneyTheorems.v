(** Value over whole executions: C21-C24. *)
From Verif Require Import VmModel CallSpec StoSpec InvSpec MoneySpec EffProofs TxProofs CallProofs MoneyProofs ExCalls.

(** "s" passes money on in several ways; "t" takes it, sends some back, or
    spends its own; the init of "v" makes a transfer and then traps; everybody
    has 100, the user "u" 1000 *)
Definition ex_m : list (string * list (string * prog)) :=
  [("s", [("pay", transfer "t" 5 (call_dest 1000 "t" 7 "back" (deploy 1000 "v" 9 PRet)));
          ("over", transfer "t" 90 (transfer "t" 90 PRet));
          ("ro", call_ro 1000 "t" "spend" PRet);
          ("rotake", call_ro 1000 "t" "take" PRet);
          ("lost", transfer_next "s" 5 (deploy 1000 "v" 0 PRet));
          ("deploy", deploy 1000 "t" 3 PRet)]);
   ("t", [("take", finish_with "ok" PRet); ("back", transfer "s" 2 PRet); ("spend", transfer "u" 50 PRet); ("init", PRet)]);
   ("v", [("init", transfer "t" 1 PTrap)])]%string.
(** the return code and the balance changes of "s", "t", "u", "v" *)
Definition changes (r : host * outc vm_output) : option (return_code * list Z) :=
  match snd r with
  | OOk o => Some (o_code o, map (fun c => change (o_accounts o) (addr c)) ["s"; "t"; "u"; "v"]%string)
  | _ => None
  end.
Definition total (r : host * outc vm_output) : option Z :=
  match snd r with OOk o => Some (total_change (o_accounts o)) | _ => None end.
Lemma ex_conserve l : builtins_conserve (E := cEnv l).
Proof. intros w i w' o [= <- <-]. reflexivity. Qed.
Lemma ex_take_nothing l a : builtins_take_nothing (E := cEnv l) a.
Proof. intros w i w' r [= <- <-]. split; [reflexivity|]. intros o x [= <-]. cbn. rewrite lookup_empty. discriminate. Qed.
Ltac never := intros ? ? Hin; cbn in Hin; repeat (destruct Hin as [[= <- <-]|Hin]); [..|destruct Hin]; cbn; repeat split; intros; try tauto.
Lemma ex_no_bycaller : nobody_calls (E := cEnv ex_m) is_bycaller (host0 (cWorld ex_m)).
Proof.
  split; [|intros i x; cbn; rewrite lookup_empty; discriminate]. intros code m Hm. cbn -[addr beq] in Hm.
  repeat (destruct (beq _ code); [injection Hm as <-; never|]). discriminate.
Qed.

(** * C22 *)
(** Whatever a running contract does, nested calls and deployments included,
    failing or not, the sum of the balance changes stays the same, as long as no
    failed deployment removed an account that had been given value. *)
Theorem C22_run_partial : forall `{E : env} n p h h' r,
  host_ok h -> vmRun n p h = (h', r) -> r <> OFuel -> builtins_conserve -> no_funds_deleted h h' ->
  total_change (o_accounts (h_out h')) = total_change (o_accounts (h_out h)).
Proof. intros. eapply run_total; eassumption. Qed.
Print Assumptions C22_run_partial.

Theorem C22_api_partial : forall `{E : env} n c h h' r,
  host_ok h -> vmApi n c h = (h', r) -> r <> OFuel -> builtins_conserve -> no_funds_deleted h h' ->
  total_change (o_accounts (h_out h')) = total_change (o_accounts (h_out h)).
Proof. intros. eapply api_total; eassumption. Qed.
Print Assumptions C22_api_partial.

(** In the output of a transaction the changes add up to the value of the
    transaction, which the node takes from the sender; in an error output there
    are none. *)
Theorem C22_call_partial : forall `{E : env} n i h h' o,
  h_stoprot h = true -> no_stacks h -> RunSmartContractCall n i h = (h', OOk o) ->
  builtins_conserve -> no_funds_deleted h h' ->
  total_change (o_accounts o) = vi_value (ci_vm i) \/ (o_accounts o = ∅ /\ total_change (o_accounts o) = 0).
Proof.
  intros E n i h h' o Hs N H Hb Hd. destruct (ends_total any_opts h h' o _ _ Hb Hd (call_ends any_opts any_codes n i h h' o (any_good h Hs) N H)) as [T|[T1 T2]].
  - left. exact T.
  - right. split; [exact (error_accounts o T1)|exact T2].
Qed.
Print Assumptions C22_call_partial.

Theorem C22_create_partial : forall `{E : env} n i h h' o,
  h_stoprot h = true -> no_stacks h -> RunSmartContractCreate n i h = (h', OOk o) ->
  builtins_conserve -> no_funds_deleted h h' ->
  total_change (o_accounts o) = vi_value (cc_vm i) \/ (o_accounts o = ∅ /\ total_change (o_accounts o) = 0).
Proof.
  intros E n i h h' o Hs N H Hb Hd.
  destruct (create_ends any_opts any_codes n i h h' o (any_good h Hs) N H) as [He|[a He]].
  - right. rewrite (error_accounts o He). auto.
  - destruct (ends_total any_opts h h' o _ _ Hb Hd He) as [T|[T1 T2]]; [left; exact T|right; split; [exact (error_accounts o T1)|exact T2]].
Qed.
Print Assumptions C22_create_partial.

(** "s" gets 11, pays 5 and 7, gets 2 back, and a deployment with 9 fails, in
    which an account without changes is removed *)
Example C22_ex :
  builtins_conserve (E := cEnv ex_m) /\ no_stacks (host0 (cWorld ex_m)) /\
  changes (cTx ex_m "pay" 11 50000) = Some (RcOk, [1; 10; 0; 0]) /\ total (cTx ex_m "pay" 11 50000) = Some 11 /\
  (exists a, In (EvDelete a [0]) (h_trace (fst (cTx ex_m "pay" 11 50000)))).
Proof.
  split; [apply ex_conserve|]. split; [split; reflexivity|]. vm_compute. split; [reflexivity|]. split; [reflexivity|].
  eexists. left. reflexivity.
Qed.

(** Without the condition value is destroyed: "s" sends 5 to the address its
    next contract will have, then a deployment fails; the receiver's credit is
    removed with its account, the sender's debit stays. *)
Theorem C22_call_refuted : exists l f,
  builtins_conserve (E := cEnv l) /\ no_stacks (host0 (cWorld l)) /\
  changes (cTx l f 11 50000) = Some (RcOk, [6; 0; 0; 0]) /\ total (cTx l f 11 50000) = Some 6.
Proof. exists ex_m, "lost"%string. split; [apply ex_conserve|]. split; [split; reflexivity|]. vm_compute. tauto. Qed.
Print Assumptions C22_call_refuted.

(** * C23 *)
(** A transfer goes through only if it is not negative and the balance of the
    sender covers it. *)
Theorem C23_transfer : forall `{E : env} dest sender v checkPayable h h',
  covered h sender -> TransferValueOnly dest sender v checkPayable h = (h', OOk tt) ->
  0 <= v /\ (v = 0 \/ v <= node_balance (h_world h) sender + change (o_accounts (h_out h)) sender).
Proof. intros. eapply transfer_enough; eassumption. Qed.
Print Assumptions C23_transfer.
Theorem C23_negative : forall `{E : env} dest sender v checkPayable h,
  v < 0 -> TransferValueOnly dest sender v checkPayable h = (h, OErr ErrTransferNegativeValue).
Proof. intros. apply transfer_negative. assumption. Qed.
Print Assumptions C23_negative.

(** Whatever a running contract does, no account spends more than it has. *)
Theorem C23_run : forall `{E : env} n p h h' r a,
  host_ok h -> vmRun n p h = (h', r) -> r <> OFuel -> builtins_take_nothing a -> covered h a -> covered h' a.
Proof. intros. eapply run_covered; eassumption. Qed.
Print Assumptions C23_run.

Theorem C23_call : forall `{E : env} n i h h' o a,
  h_stoprot h = true -> no_stacks h -> RunSmartContractCall n i h = (h', OOk o) ->
  0 <= vi_value (ci_vm i) -> builtins_take_nothing a -> change (o_accounts o) a < 0 ->
  0 <= node_balance (h_world h) a + change (o_accounts o) a.
Proof.
  intros E n i h h' o a Hs N H Hv Hb Hlt.
  destruct (ends_covered any_opts h h' o _ _ a Hb Hv (call_ends any_opts any_codes n i h h' o (any_good h Hs) N H)); lia.
Qed.
Print Assumptions C23_call.
Theorem C23_create : forall `{E : env} n i h h' o a,
  h_stoprot h = true -> no_stacks h -> RunSmartContractCreate n i h = (h', OOk o) ->
  0 <= vi_value (cc_vm i) -> builtins_take_nothing a -> change (o_accounts o) a < 0 ->
  0 <= node_balance (h_world h) a + change (o_accounts o) a.
Proof.
  intros E n i h h' o a Hs N H Hv Hb Hlt.
  destruct (create_ends any_opts any_codes n i h h' o (any_good h Hs) N H) as [He|[b He]].
  - rewrite (error_accounts o He) in Hlt. unfold change in Hlt. rewrite lookup_empty in Hlt. lia.
  - destruct (ends_covered any_opts h h' o _ _ a Hb Hv He); lia.
Qed.
Print Assumptions C23_create.

(** two transfers of 90, with 100: the second one is refused and the
    transaction fails; with 100 more it does not *)
Example C23_ex :
  builtins_take_nothing (E := cEnv ex_m) (addr "s") /\ covered (cHost ex_m) (addr "s") /\
  changes (cTx ex_m "over" 11 50000) = Some (RcExecutionFailed, [0; 0; 0; 0]) /\
  changes (cTx ex_m "over" 100 50000) = Some (RcOk, [-80; 180; 0; 0]).
Proof.
  split; [apply ex_take_nothing|]. split; [intros x; cbn; rewrite lookup_empty; discriminate|]. vm_compute. tauto.
Qed.

(** * C24 *)
(** As long as nobody calls executeOnDestContextByCaller, every movement of value
    is from the running contract, or to it from the contract that calls it. *)
Theorem C24_run_partial : forall `{E : env} n p h h' r sc parent sender dest v,
  host_ok h -> nobody_calls is_bycaller h -> never_calls is_bycaller p -> vmRun n p h = (h', r) -> r <> OFuel ->
  moved h h' sc parent sender dest v -> own_money sc parent sender dest v.
Proof. intros. eapply own_moves; eassumption. Qed.
Print Assumptions C24_run_partial.

(** And an account has less afterwards only if it was itself the running
    contract, or the contract making the call, at such a movement. *)
Theorem C24_debit_partial : forall `{E : env} n p h h' r a,
  host_ok h -> nobody_calls is_bycaller h -> never_calls is_bycaller p -> vmRun n p h = (h', r) -> r <> OFuel ->
  builtins_take_nothing a -> change (o_accounts (h_out h)) a <= 0 \/ ~ fresh_address a ->
  change (o_accounts (h_out h')) a < change (o_accounts (h_out h)) a ->
  exists sc parent dest v, moved h h' sc parent a dest v /\ v <> 0 /\ (sc = a \/ (dest = sc /\ parent = Some a)).
Proof. intros. eapply own_debit; eassumption. Qed.
Print Assumptions C24_debit_partial.

Theorem C24_call_partial : forall `{E : env} n i h h' o a,
  h_stoprot h = true -> no_stacks h -> nobody_calls is_bycaller h -> RunSmartContractCall n i h = (h', OOk o) ->
  0 <= vi_value (ci_vm i) -> builtins_take_nothing a ->
  (forall sc parent sender dest v, moved h h' sc parent sender dest v -> own_money sc parent sender dest v) /\
  (change (o_accounts o) a < 0 ->
   exists sc parent dest v, moved h h' sc parent a dest v /\ v <> 0 /\ (sc = a \/ (dest = sc /\ parent = Some a))).
Proof.
  intros E n i h h' o a Hs N Hn H Hv Hb. pose proof (own_call n i h h' o Hs N Hn H) as He. split.
  - intros. eapply ends_own; eassumption.
  - exact (ends_debit own_opts h h' o _ _ a eq_refl eq_refl Hb Hv He).
Qed.
Print Assumptions C24_call_partial.
Theorem C24_create_partial : forall `{E : env} n i h h' o a,
  h_stoprot h = true -> no_stacks h -> nobody_calls is_bycaller h -> RunSmartContractCreate n i h = (h', OOk o) ->
  0 <= vi_value (cc_vm i) -> builtins_take_nothing a -> change (o_accounts o) a < 0 ->
  exists sc parent dest v, moved h h' sc parent a dest v /\ v <> 0 /\ (sc = a \/ (dest = sc /\ parent = Some a)).
Proof.
  intros E n i h h' o a Hs N Hn H Hv Hb Hlt. destruct (own_create n i h h' o Hs N Hn H) as [He|[b He]].
  - rewrite (error_accounts o He) in Hlt. unfold change in Hlt. rewrite lookup_empty in Hlt. lia.
  - exact (ends_debit own_opts h h' o _ _ a eq_refl eq_refl Hb Hv He Hlt).
Qed.
Print Assumptions C24_create_partial.

(** "s" has less after a transfer of its own *)
Example C24_ex :
  nobody_calls (E := cEnv ex_m) is_bycaller (host0 (cWorld ex_m)) /\ builtins_take_nothing (E := cEnv ex_m) (addr "s") /\
  changes (cTx ex_m "over" 100 50000) = Some (RcOk, [-80; 180; 0; 0]) /\
  In (EvMove (addr "s") None (addr "s") (addr "t") 90) (h_trace (fst (cTx ex_m "over" 100 50000))).
Proof. split; [exact ex_no_bycaller|]. split; [apply ex_take_nothing|]. vm_compute. tauto. Qed.

(** With executeOnDestContextByCaller a contract spends the money of whoever
    called it: the user "u" sends a transaction without value, and "s" gives 5
    of the user's to "t". *)
Theorem C24_call_refuted : exists l f,
  builtins_take_nothing (E := cEnv l) (addr "u") /\ no_stacks (host0 (cWorld l)) /\
  changes (cTx l f 0 50000) = Some (RcOk, [0; 5; -5; 0]) /\
  In (EvMove (addr "t") (Some (addr "s")) (addr "u") (addr "t") 5) (h_trace (fst (cTx l f 0 50000))).
Proof.
  exists [("s", [("caller", call_caller 1000 "t" 5 "take" PRet)]); ("t", [("take", PRet)])]%string, "caller"%string.
  split; [apply ex_take_nothing|]. split; [split; reflexivity|]. vm_compute. tauto.
Qed.
Print Assumptions C24_call_refuted.

(** * C21 *)
(** What is left: no API call, executeReadOnly or another, changes the balance of
    an account except by the transfers it records. *)
Theorem C21_api_partial : forall `{E : env} n c h h' r a,
  host_ok h -> vmApi n c h = (h', r) -> r <> OFuel -> builtins_pay_nothing a ->
  change (o_accounts (h_out h)) a = 0 \/ ~ fresh_address a ->
  change (o_accounts (h_out h')) a <> change (o_accounts (h_out h)) a ->
  exists sc parent sender dest v, moved h h' sc parent sender dest v /\ v <> 0 /\ (sender = a \/ dest = a).
Proof. intros. eapply api_moved; eassumption. Qed.
Print Assumptions C21_api_partial.
Example C21_api_ex :
  let r := vmApi (E := cEnv ex_m) 12 (A_executeReadOnly 1000 0 64 5 0 0 0)
             (set_h_insts {[0%nat := mkInst 0 100000 BreakpointNone (mkMem (addr "t" ++ val32 0 ++ str "spend" ++ replicate 64 Byte.x00) 1) (mod_of [])]}
               (cHost ex_m)) in
  builtins_pay_nothing (E := cEnv ex_m) (addr "u") /\ r.2 = OOk 0 /\ change (o_accounts (h_out r.1)) (addr "u") = 50.
Proof. split; [intros w i w' o [= <- <-]; reflexivity|]. vm_compute. tauto. Qed.

(** An executeReadOnly call moves funds: the callee's transfer goes through, and
    the value of the caller's own call, 11, is sent on to the callee. *)
Theorem C21_transfer_refuted : exists l f,
  changes (cTx l f 11 50000) = Some (RcOk, [0; -39; 50; 0]) /\
  existsb (fun e => match e with EvReadOnly true => true | _ => false end) (h_trace (fst (cTx l f 11 50000))) = true.
Proof. exists ex_m, "ro"%string. vm_compute. tauto. Qed.
Print Assumptions C21_transfer_refuted.
Theorem C21_value_refuted : exists l f,
  changes (cTx l f 11 50000) = Some (RcOk, [0; 11; 0; 0]) /\
  existsb (fun e => match e with EvReadOnly true => true | _ => false end) (h_trace (fst (cTx l f 11 50000))) = true.
Proof. exists ex_m, "rotake"%string. vm_compute. tauto. Qed.
Print Assumptions C21_value_refuted.
