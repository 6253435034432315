(** Contracts and states for the examples about asynchronous calls. *)
From Verif Require Export ExGas StoSpec GasSpec DeploySpec AsyncSpec.

(** return every argument *)
Definition echo (k : prog) : prog :=
  PApi A_getNumArguments (fun n =>
    (fix go (m : nat) (i : Z) : prog :=
       match m with
       | O => k
       | S m => if i <? n then PApi (A_getArgument i 128) (fun l => api1 (A_finish 128 l) (go m (i + 1))) else k
       end) 5%nat 0).
(** "t" answers "yes" or fails with "no"; "s" calls it, a contract elsewhere, or
    itself; its callback returns what it is given, "c" has one that fails *)
Definition ex_t : list (string * list (string * prog)) :=
  [("s", [("good", call_async "t" 3 "yes" PRet); ("bad", call_async "t" 3 "no" PRet); ("far", call_async "x" 3 "yes@05" PRet);
          ("self", call_async "s" 0 "yes" PRet); ("yes", finish_with "self" PRet); ("callBack", echo PRet);
          ("again", PApi A_getNumArguments (fun n => if (n =? 0)%Z then call_async "t" 0 "yes" PRet else echo PRet))]);
   ("c", [("good", call_async "t" 3 "yes" PRet);
          ("callBack", PApi A_getNumArguments (fun n => if (n =? 0)%Z then call_async "t" 0 "yes" PRet else PTrap))]);
   ("t", [("yes", finish_with "yes" PRet); ("no", PWrite 0 (str "why") (api1 (A_signalError 0 3) PRet))])]%string.
(** contract "s" has just asked for [c] *)
Definition asking (c : async_call) : host :=
  set_h_rt (set_r_async (Some c) (h_rt (cHost ex_t))) (cHost ex_t).
Definition call_t (data : string) : async_call := mkAsync (addr "t") (str data) 5000 100 [zb 3].
Definition call_x (data : string) : async_call := mkAsync (addr "x") (str data) 5000 100 [zb 3].
Definition handled (c : async_call) : host * outc unit :=
  handleAsyncCallBreakpoint (E := cEnv ex_t) (vmDest (E := cEnv ex_t) 12) (asking c).
(** the outgoing transfers to [d] *)
Definition sent_to (d : bytes) (r : host * outc vm_output) : list out_transfer :=
  match snd r with OOk o => default [] (oa_transfers <$> o_accounts o !! d) | _ => [] end.
Definition seen (r : host * outc vm_output) : option (return_code * list bytes * bytes) :=
  match snd r with OOk o => Some (o_code o, o_retdata o, o_msg o) | _ => None end.
Definition tx_type (t : call_type) (by_ c f : string) (args : list bytes) : call_input :=
  mkCall (set_vi_ctype t (input_of (addr by_) args 0 50000)) (addr c) (str f) false.
Definition tRun (i : call_input) : host * outc vm_output := RunSmartContractCall (E := cEnv ex_t) 12 i (host0 (cWorld ex_t)).

(** pending calls of contract "s" to "x" (and "z") *)
Definition waiting (d : string) : gen_call := mkGenCall AsPending (addr d) (str "yes") 0 [] (str "s") (str "e") 0.
Definition pending (far : string) (l : list string) : async_info :=
  mkAinfo (addr far) (str "done") {[str "ctx" := mkActx (str "cb") (map waiting l)]}.
Definition pEnv (i : async_info) : env := exEnvFull (fun l => l) (fun _ => ROk i) false exBuiltin (contracts ex_t).
Definition pWorld : world :=
  mkWorld (<[addr "s" := sc_user (addr "s") 100 {[str "tx0ARWEN@ASYNC" := str "async"]}]> (w_accounts (cWorld ex_t))) ∅.
(** contract "s" running, called back by [by_] *)
Definition answered (by_ : string) : host :=
  set_h_world pWorld (set_h_rt (mkFrame (set_vi_ctype AsynchronousCallBack (input_of (addr by_) [] 0 1000)) (addr "s") (str "s") false None (mkAinfo (addr "u") [] ∅)) (cHost ex_t)).
Definition pRun (i : async_info) (by_ : string) : host * outc unit := processCallbackStack (E := pEnv i) (answered by_).

(** contract "s", called asynchronously by "t", sends tokens back to it *)
Definition tokenEnv : env :=
  let E := cEnv ex_t in
  mkEnv (e_v2 E) (e_v3 E) (e_aot E) (e_dyn E) (e_esdt E) (e_cost E) (e_protected E) (fun f => beq f (str "ESDTTransfer")) (e_builtin E) (e_shard E) (e_isSC E)
    (e_isPayable E) (e_newAddress E) (e_missing_err E) (e_compile E) (e_sha256 E) (e_apiname E) (e_errmsg E) (e_codestr E) (e_order E)
    (e_marshal E) (e_unmarshal E) (e_esdtToken E) (e_blockhash E) (e_blockinfo E) (e_blockseed E) (e_stateroot E) (e_nftNonceKey E)
    (e_hash E) (e_verifySig E).
Definition token_host : host :=
  set_h_rt (mkFrame (set_vi_ctype AsynchronousCall (input_of (addr "t") [] 0 1000)) (addr "s") (str "f") false (Some (call_t "ESDTTransfer@05@06")) (mkAinfo (addr "t") [] ∅)) (cHost ex_t).

Lemma metered_frame f h : metered h -> metered (set_h_rt f h).
Proof. intros H. exact H. Qed.
Lemma metered_world w h : metered h -> metered (set_h_world w h).
Proof. intros H. exact H. Qed.
Lemma asking_metered c : metered (asking c).
Proof. apply metered_frame, cHost_metered. Qed.
Lemma answered_metered b : metered (answered b).
Proof. apply metered_world, metered_frame, cHost_metered. Qed.
