(** What a caller's output holds after a nested call: C25, C26, C27. *)
From Verif Require Import VmModel CallSpec InvSpec OutSpec OutProofs ExCalls.

(** "t" pays back, stores, logs its result, and then works or fails *)
Definition ex_o : list (string * list (string * prog)) :=
  [("s", [("ok", store_kv "a" "1" (transfer "u" 1 (finish_with "x" (call_dest 1000 "t" 2 "work" PRet))))]);
   ("t", [("work", store_kv "k" "v" (transfer "u" 1 (finish_with "hi" PRet)));
          ("fail", store_kv "k" "v" (transfer "u" 1 (finish_with "hi" PTrap)))])]%string.
Definition out_of (r : host * outc bool) (c : string) : option (list (bytes * bytes) * list Z) :=
  (fun x => (map_to_list (oa_storage x), map ot_value (oa_transfers x))) <$> o_accounts (h_out r.1) !! addr c.

(** C25, for a name that is not a built-in function's: the failed call leaves the
    caller's output, the node's state (ESDT balances), the caller's frame with
    its asynchronous calls, its big integers and its metering as they were.
    What is missing: the set of accounts whose code was updated, which only
    matters for the code of accounts that are in the output (see C26), and
    built-in functions (see C25_builtin_refuted). *)
Theorem C25_dest_partial : forall `{E : env} n i h h' o info e,
  host_ok h -> e_isBuiltin E (ci_fn i) = false ->
  vmDest n i h = (h', OOk (o, info, Some e)) ->
  same_output (h_out h) (h_out h') /\ h_world h' = h_world h /\ h_met h' = h_met h /\
  h_rt h' = h_rt h /\ h_big h' = h_big h /\ frame_restored h h'.
Proof. exact @dest_failed_all. Qed.
Print Assumptions C25_dest_partial.

Example C25_ex :
  let run f := cRun ex_o (store_kv "a" "1" (transfer "u" 1 (finish_with "x" (call_dest 1000 "t" 2 f PRet)))) in
  host_ok (cHost ex_o) /\ e_isBuiltin (cEnv ex_o) (str "fail") = false /\
  (* t's storage and the transfer of the failed call are gone, s's are there *)
  snd (run "fail"%string) = OOk false /\ out_of (run "fail"%string) "t" = None /\
  out_of (run "fail"%string) "u" = Some ([], [1]) /\
  o_retdata (h_out (fst (run "fail"%string))) = [str "x"] /\
  snd (run "work"%string) = OOk true /\ out_of (run "work"%string) "t" = Some ([(str "k", str "v")], []) /\
  out_of (run "work"%string) "u" = Some ([], [1; 1]) /\
  o_retdata (h_out (fst (run "work"%string))) = [str "x"; str "hi"].
Proof. split; [split; [reflexivity|intros i [= <-]; vm_compute; lia]|]. vm_compute. tauto. Qed.

(** C27: after a successful call (not of a built-in function) the output of the
    caller is what it was followed by the callee's output: return data and logs
    one after the other, the accounts field by field, the callee's transfers
    being the caller's with new ones added (for addresses at which no contract
    can be deployed). *)
Theorem C27_dest : forall `{E : env} n i h h' o info,
  host_ok h -> e_isBuiltin E (ci_fn i) = false ->
  vmDest n i h = (h', OOk (o, info, None)) ->
  exists o1, o = Some o1 /\ o_code o1 = RcOk /\
    o_retdata (h_out h') = o_retdata (h_out h) ++ o_retdata o1 /\
    o_logs (h_out h') = o_logs (h_out h) ++ o_logs o1 /\
    later_accounts (o_accounts (h_out h)) (o_accounts o1) (o_accounts (h_out h')) /\
    forall a, ~ fresh_address a ->
      (exists t, transfers_to (o_accounts o1) a = transfers_to (o_accounts (h_out h)) a ++ t) /\
      transfers_to (o_accounts (h_out h')) a = transfers_to (o_accounts o1) a.
Proof. exact @dest_success. Qed.
Print Assumptions C27_dest.

Example C27_ex :
  let r := vmDest (E := cEnv ex_o) 12 (call_of (addr "s") (addr "t") "work" [] 2 1000)
             (fst (cRun ex_o (store_kv "a" "1" (transfer "u" 1 (finish_with "x" PRet))))) in
  match snd r with OOk (Some o, _, None) => o_retdata o | _ => [] end = [str "hi"] /\
  o_retdata (h_out (fst r)) = [str "x"; str "hi"] /\
  (map ot_value ∘ oa_transfers) <$> o_accounts (h_out (fst r)) !! addr "u" = Some [1; 1].
Proof. vm_compute. tauto. Qed.

(** C25 fails for built-in functions: when the contract that a transfer function
    calls afterwards fails, the node's state is restored but the output of the
    built-in function (here a log entry) stays in the caller's output. *)
Definition ex_b : list (string * list (string * prog)) := [("s", []); ("t", [("fail", PTrap)])]%string.
Definition bEnv : env := exEnvWith (fun w i =>
  (mkWorld (w_accounts w) {[str "paid" := 1]}, ROk (mkOut [] RcOk [] 500 (Some 0)
     {[addr "t" := set_oa_transfers [mkTransfer 0 300 0 (str "fail@") DirectCall (addr "s")] NewVMOutputAccount]}
     [mkLog (addr "s") (str "paid") [] []]))) (contracts ex_b).
Theorem C25_builtin_refuted :
  exists (E : env) i h, env_ok E /\ host_ok h /\
    let r := vmDest 12 i h in
    match snd r with OOk (_, _, e) => e | _ => None end = Some ErrExecutionFailed /\
    w_esdt (h_world (fst r)) = w_esdt (h_world h) /\
    o_logs (h_out h) = [] /\ o_logs (h_out (fst r)) <> [].
Proof.
  exists bEnv, (call_of (addr "s") (addr "t") "builtin" [] 0 1000), (cHost ex_b).
  split; [apply exEnvWith_ok|]. split; [split; [reflexivity|intros i [= <-]; vm_compute; lia]|].
  set (r := vmDest 12 _ _).
  assert (H : match snd r with OOk (_, _, e) => e | _ => None end = Some ErrExecutionFailed /\
    map_to_list (w_esdt (h_world (fst r))) = [] /\ length (o_logs (h_out (fst r))) = 1%nat) by (vm_compute; tauto).
  destruct H as (H1 & H2 & H3). split; [exact H1|]. split; [apply map_to_list_empty_iff, H2|]. split; [reflexivity|].
  intros H. rewrite H in H3. discriminate H3.
Qed.
Print Assumptions C25_builtin_refuted.

(** C26, the part about one call: a failed nested call, for instance of
    upgradeContract, changes no account's code, metadata or deployer in the
    caller's output.  What is missing: the accounts noted as updated during the
    failed call stay noted, see C26_refuted. *)
Theorem C26_dest_partial : forall `{E : env} n i h h' o info e,
  host_ok h -> e_isBuiltin E (ci_fn i) = false ->
  vmDest n i h = (h', OOk (o, info, Some e)) ->
  forall a, let code_of (m : gmap bytes out_account) := (fun x => (oa_code x, oa_meta x, oa_deployer x)) <$> m !! a in
    code_of (o_accounts (h_out h')) = code_of (o_accounts (h_out h)).
Proof. exact @dest_failed_code. Qed.
Print Assumptions C26_dest_partial.

(** C26 fails over a whole transaction: contract "o" upgrades "t" within the
    construction of a contract by "s" that then fails; afterwards "s" calls "t".
    The output reports code for "t" (the code it already had, which was loaded
    for the call) with empty metadata although no upgrade succeeded. *)
Definition ex_u : list (string * list (string * prog)) :=
  [("s", [("f", deploy 9000 "c" 0 (call_dest 1000 "t" 0 "g" PRet));
          ("only", call_dest 1000 "t" 0 "g" PRet)]);
   ("c", [("init", call_dest 5000 "o" 0 "f" PTrap)]);
   ("o", [("f", call_args 3000 "t" 0 "upgradeContract" [addr "n"; [Byte.x01; Byte.x00]] PRet)]);
   ("t", [("g", PRet)]); ("n", [("init", PRet)])]%string.
Definition code_in (c : string) (r : host * outc vm_output) : option (return_code * option (bytes * bytes)) :=
  match snd r with OOk o => Some (o_code o, (fun x => (oa_code x, oa_meta x)) <$> o_accounts o !! addr c) | _ => None end.
Theorem C26_refuted :
  exists (E : env) i h, env_ok E /\ no_stacks h /\ h_stoprot h = true /\
    let r := RunSmartContractCall 12 i h in
    code_in "t" r = Some (RcOk, Some (addr "t", [])) /\
    (* the account in the node's state: the same code, with metadata *)
    (fun u => (ua_code u, ua_meta u)) <$> w_accounts (h_world h) !! addr "t" = Some (addr "t", map zb [5; 2]).
Proof.
  exists (cEnv ex_u), (txS "f" 0 100000), (host0 (cWorld ex_u)). split; [apply exEnv_ok|]. split; [constructor; reflexivity|].
  split; [reflexivity|]. vm_compute. tauto.
Qed.
Print Assumptions C26_refuted.
(** the same call of "t" without the failed construction reports no code; a
    successful upgrade reports the new code and metadata *)
Example C26_ex :
  code_in "t" (cTx ex_u "only" 0 100000) = Some (RcOk, Some ([], [])) /\
  code_in "t" (RunSmartContractCall (E := cEnv ex_u) 12 (call_of (addr "u") (addr "o") "f" [] 0 100000) (host0 (cWorld ex_u)))
    = Some (RcOk, Some (addr "n", [Byte.x01; Byte.x00])).
Proof. vm_compute. tauto. Qed.
