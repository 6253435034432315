(** C57: what a contract learns about the call it serves is genuine. *)
From Verif Require Import VmModel CallSpec StoSpec InvSpec CodecSpec CodecProofs IdentSpec IdentProofs ExCalls.

(** Contract code is started with the caller, value, tokens and arguments of
    the call: a transaction's, or those handed to a nested call. *)
Theorem C57_transaction_frame : forall `{E : env} rd h,
  (forall i, starts_only_in (serves i) (fun run => RunSmartContractCallIn run rd i) h) /\
  (forall i, starts_only_in (fun hs => vi_caller (r_input (h_rt hs)) = vi_caller (cc_vm i) /\
                               vi_value (r_input (h_rt hs)) = vi_value (cc_vm i) /\
                               vi_args (r_input (h_rt hs)) = vi_args (cc_vm i))
               (fun run => doRunSmartContractCreate run rd i) h).
Proof. intros E rd h. split; intros i; [apply serves_call|apply serves_create]. Qed.
Print Assumptions C57_transaction_frame.

Theorem C57_nested_frame : forall `{E : env} rd i h,
  (e_isBuiltin E (ci_fn i) = false -> starts_only_in (serves i) (fun run => ExecuteOnDestContext run rd i) h) /\
  starts_only_in (serves i) (fun run => ExecuteOnSameContext run rd i) h.
Proof. intros E rd i h. split; [apply serves_dest|apply serves_same]. Qed.
Print Assumptions C57_nested_frame.

(** A nested call is made only with the running contract as its caller, except
    through executeOnDestContextByCaller, which may hand on the caller. *)
Theorem C57_nested_caller : forall `{E : env} c ed1 ed2 es1 es2 h,
  let genuine (i : call_input) (hs : host) :=
    vi_caller (ci_vm i) = r_addr (h_rt hs) \/
    is_bycaller c /\ vi_caller (ci_vm i) = vi_caller (r_input (h_rt hs)) in
  (forall i hs, genuine i hs -> ed1 i hs = ed2 i hs) ->
  (forall i hs, genuine i hs -> es1 i hs = es2 i hs) ->
  run_cmd ed1 es1 (api c) h = run_cmd ed2 es2 (api c) h.
Proof. intros E c ed1 ed2 es1 es2 h genuine Hd Hs. apply agree_api; assumption. Qed.
Print Assumptions C57_nested_caller.

(** While code runs, all its API calls are made with the frame it was started
    with, whatever other API calls (nested calls included) came before. *)
Theorem C57_frame_kept : forall `{E : env} n p api2 h,
  host_ok h ->
  (forall c hs, r_input (h_rt hs) = r_input (h_rt h) /\ r_addr (h_rt hs) = r_addr (h_rt h) /\ host_ok hs ->
     vmApi n c hs = api2 c hs) ->
  vmRun n p h = run_prog api2 p h.
Proof.
  intros E n p api2 h Hok Ha. refine (run_prog_same n api2 h Ha p h _). split; [reflexivity|]. split; [reflexivity|exact Hok].
Qed.
Print Assumptions C57_frame_kept.

(** And the API functions answer with the frame's values. *)
Theorem C57_memory_readers : forall `{E : env} fuel c h,
  env_ok E -> calling h -> memory_question c (r_input (h_rt h)) ->
  0 <= vi_value (r_input (h_rt h)) -> go_len (be_encode (vi_value (r_input (h_rt h)))) ->
  0 <= et_value (first_token (r_input (h_rt h))) -> go_len (be_encode (et_value (first_token (r_input (h_rt h))))) ->
  exists o d r, memory_answer c (r_input (h_rt h)) o d r /\
    forall m m', cur_mem h = ROk m -> MemStore m (i32 o) d = (m', ROk tt) ->
    exists h', vmApi fuel c h = (h', OOk r) /\ cur_mem h' = ROk m' /\ only_own h h'.
Proof. intros. apply memory_reader; assumption. Qed.
Print Assumptions C57_memory_readers.

Theorem C57_number_readers : forall `{E : env} fuel c h r,
  env_ok E -> counting h -> number_answer c (r_input (h_rt h)) = Some r ->
  exists h', vmApi fuel c h = (h', OOk r) /\ only_own h h' /\ cur_mem h' = cur_mem h /\ h_big h' = h_big h.
Proof. intros. apply number_reader; assumption. Qed.
Print Assumptions C57_number_readers.

Theorem C57_handle_readers : forall `{E : env} fuel c h d v,
  env_ok E -> counting h -> Z.of_nat (length (vi_args (r_input (h_rt h)))) <= max_i32 ->
  handle_answer c (r_input (h_rt h)) = Some (d, v) ->
  exists h', vmApi fuel c h = (h', OOk 0) /\ only_own h h' /\ cur_mem h' = cur_mem h /\
    h_big h' !! d = Some v /\ forall y, y <> d -> h_big h' !! y = h_big h !! y.
Proof. intros. apply handle_reader; assumption. Qed.
Print Assumptions C57_handle_readers.

(** "s", called by "u" with value 5 and arguments "x", "yz", reports its caller,
    first argument and value, calls "t" with value 3 and argument "q", which
    reports what it sees, and reports again *)
Definition report : prog -> prog := fun k =>
  PApi (A_getCaller 200) (fun _ => PApi (A_finish 200 32) (fun _ => PApi (A_getArgument 0 200) (fun n =>
  PApi (A_finish 200 n) (fun _ => PApi (A_getCallValue 200) (fun n => PApi (A_finish 200 n) (fun _ => k)))))).
Definition ex_r : list (string * list (string * prog)) :=
  [("s", [("g", report (call_args 5000 "t" 3 "g" [str "q"] (report PRet)))]); ("t", [("g", report PRet)])]%string.
Definition tx_r : call_input := call_of (addr "u") (addr "s") "g" [str "x"; str "yz"] 5 50000.
Example C57_ex :
  match snd (RunSmartContractCall (E := cEnv ex_r) 12 tx_r (host0 (cWorld ex_r))) with
  | OOk o => (o_code o, o_retdata o)
  | _ => (RcUserError, [])
  end = (RcOk, [addr "u"; str "x"; val32 5; addr "s"; str "q"; val32 3; addr "u"; str "x"; val32 5]).
Proof. vm_compute. reflexivity. Qed.
(** the hypotheses of the theorems on readers hold in a running contract *)
Example C57_ex_readers :
  calling (cHost ex_r) /\ counting (cHost ex_r) /\ host_ok (cHost ex_r) /\
  memory_question (A_getCaller 0) (r_input (h_rt (cHost ex_r))) /\
  number_answer A_getNumArguments (r_input (h_rt (cHost ex_r))) = Some 0 /\
  handle_answer (A_bigIntGetCallValue 4) (r_input (h_rt (cHost ex_r))) = Some (4, 0).
Proof.
  split; [|split; [|split; [|split; [exact I|split; reflexivity]]]].
  - exists 0%nat. eexists. split; [reflexivity|]. split; [reflexivity|]. split; [vm_compute; split; discriminate|]. eexists. reflexivity.
  - exists 0%nat. eexists. split; [reflexivity|]. split; [reflexivity|]. vm_compute; split; discriminate.
  - split; [reflexivity|]. intros i [= <-]. vm_compute. lia.
Qed.

(** C57 fails for getCallValueTokenName: a contract called with 7 of the token
    "TOK" is given an empty token name (length 0, nothing written). *)
Definition ex_k : list (string * list (string * prog)) :=
  [("s", [("g", PWrite 200 (str "???") (PApi (A_getCallValueTokenName 0 200) (fun n =>
          PApi (A_int64finish n) (fun _ => PApi (A_finish 200 3) (fun _ => PRet)))))])]%string.
Definition tx_k : call_input :=
  set_ci_vm (set_vi_esdt [mkEsdt 7 (str "TOK") 0 0] (ci_vm (txS "g" 0 50000))) (txS "g" 0 50000).
Theorem C57_token_name_refuted :
  exists (E : env) i h, env_ok E /\ et_name (first_token (ci_vm i)) = str "TOK" /\
    match snd (RunSmartContractCall 12 i h) with
    | OOk o => (o_code o, o_retdata o)
    | _ => (RcUserError, [])
    end = (RcOk, [[]; str "???"]).
Proof.
  exists (cEnv ex_k), tx_k, (host0 (cWorld ex_k)). split; [apply exEnv_ok|]. split; [reflexivity|]. vm_compute. reflexivity.
Qed.
Print Assumptions C57_token_name_refuted.
