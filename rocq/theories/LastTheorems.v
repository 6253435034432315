(** C67: what has been reported stays. *)
From Verif Require Import VmModel CallSpec LastSpec LastProofs ExCalls.

(** C67: results and events reported before an API call are still there after
    it, whatever it calls and however that ends ... *)
Theorem C67_api : forall `{E : env} n c h h' r,
  host_ok h -> vmApi n c h = (h', r) -> r <> OFuel -> still_reported (h_out h) (h_out h').
Proof. intros E n c h h' r. apply last_api. Qed.
Print Assumptions C67_api.

(** ... those reported before any piece of a contract runs are there after it ... *)
Theorem C67_run : forall `{E : env} n p h h' r,
  host_ok h -> vmRun n p h = (h', r) -> r <> OFuel -> still_reported (h_out h) (h_out h').
Proof. intros E n p h h' r. apply last_run. Qed.
Print Assumptions C67_run.

(** ... and a successful transaction gives out all that the called function
    reported. *)
Theorem C67_transaction : forall `{E : env} n i h h' o,
  h_stoprot h = true -> no_stacks h ->
  vi_ctype (ci_vm i) <> AsynchronousCallBack -> ci_fn i <> UpgradeFunctionName ->
  RunSmartContractCall n i h = (h', OOk o) -> o_code o = RcOk ->
  exists p h1 h2 b, runs_once (fun run => RunSmartContractCallIn run (vmDest n) i) h p h1 /\
    vmRun n p h1 = (h2, OOk b) /\ still_reported (h_out h2) o.
Proof. intros E n i h h' o. apply last_tx. Qed.
Print Assumptions C67_transaction.

(** Contract "s" reports "x", calls "t", which reports "hi", and calls a failing
    function of "t", which reports "lost". *)
Definition last_contracts : list (string * list (string * prog)) :=
  [("s", [("go", finish_with "x" (call_dest 1000 "t" 0 "work" (with_call "t" 0 (str "fail") (api1 (A_transferValueExecute 0 32 1000 64 4 0 0 0) (finish_with "y" PRet)))))]);
   ("t", [("work", finish_with "hi" PRet); ("fail", finish_with "lost" PTrap)])]%string.
Example C67_ex :
  host_ok (cHost last_contracts) /\ h_stoprot (host0 (cWorld last_contracts)) = true /\
  no_stacks (host0 (cWorld last_contracts)) /\
  (let r := cRun last_contracts (finish_with "x" (call_dest 1000 "t" 0 "work" PRet)) in
   snd r = OOk true /\ o_retdata (h_out (fst r)) = [str "x"; str "hi"]) /\
  match snd (cTx last_contracts "go" 0 50000) with
  | OOk o => o_code o = RcOk /\ o_retdata o = [str "x"; str "hi"; str "y"]
  | _ => False
  end.
Proof.
  split; [split; [reflexivity|intros i [= <-]; vm_compute; lia]|]. split; [reflexivity|]. split; [constructor; reflexivity|].
  vm_compute. tauto.
Qed.
