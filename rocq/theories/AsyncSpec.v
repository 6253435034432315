(** Vocabulary for asynchronous calls.  Only fields of the state are named here. *)
From Verif Require Import VmTypes CtxModel StoSpec GasSpec DeploySpec.

(** * Call data: "function@hex@hex..." *)
Definition at_sign : byte := Byte.x40.
Definition digit (b : byte) (v : Z) : Prop :=
  (48 <= bz b <= 57 /\ v = bz b - 48) \/ (97 <= bz b <= 102 /\ v = bz b - 87) \/ (65 <= bz b <= 70 /\ v = bz b - 55).
Inductive hex_of : bytes -> bytes -> Prop :=
| hex_nil : hex_of [] []
| hex_byte a b x y z h l : digit a x -> digit b y -> bz z = 16 * x + y -> hex_of h l -> hex_of (a :: b :: h) (z :: l).
Definition call_data (data f : bytes) (args : list bytes) : Prop :=
  f <> [] /\ Forall (fun b => b <> at_sign) f /\
  exists hs, Forall2 hex_of hs args /\ data = f ++ concat (map (cons at_sign) hs).

(** the values [vals] after one another, "@hex@hex..." *)
Definition answer_data (data : bytes) (vals : list bytes) : Prop :=
  exists hs, Forall2 hex_of hs vals /\ data = concat (map (cons at_sign) hs).

(** * Effects on the output *)

(** the account [a] of the output under construction *)
Definition account_of (h : host) (a : bytes) : out_account :=
  default (mkAcc 0 None 0 ∅ [] [] None [] 0) (o_accounts (h_out h) !! a).
(** the output changed by the balance changes [paid] and the outgoing transfers
    [sent] only; no contract code was started *)
Record outcome_of (h h' : host) (paid : bytes -> Z) (sent : bytes -> list out_transfer) : Prop := mkOutcome {
  oc_paid : forall a, oa_delta (account_of h' a) = oa_delta (account_of h a) + paid a;
  oc_sent : forall a, oa_transfers (account_of h' a) = oa_transfers (account_of h a) ++ sent a;
  oc_nonce : forall a, oa_nonce (account_of h' a) = oa_nonce (account_of h a);
  oc_meta : forall a, oa_meta (account_of h' a) = oa_meta (account_of h a);
  oc_deployer : forall a, oa_deployer (account_of h' a) = oa_deployer (account_of h a);
  oc_gasused : forall a, oa_gasused (account_of h' a) = oa_gasused (account_of h a);
  oc_cell : forall a k, cell h' a k = cell h a k;
  oc_code : forall a, code_now h' a = code_now h a;
  oc_logs : o_logs (h_out h') = o_logs (h_out h);
  oc_world : h_world h' = h_world h;
  oc_frame : h_rt h' = h_rt h;
  oc_ran : nothing_ran h h';
  oc_stacks : h_bcst h' = h_bcst h /\ h_outst h' = h_outst h /\ h_rtst h' = h_rtst h /\ h_metst h' = h_metst h /\ h_ist h' = h_ist h
}.
Definition no_pay : bytes -> Z := fun _ => 0.
Definition none_sent : bytes -> list out_transfer := fun _ => [].
(** [v] moved from [s] to [d] *)
Definition pays (s d : bytes) (v : Z) : bytes -> Z :=
  fun a => (if bool_decide (a = d) then v else 0) - (if bool_decide (a = s) then v else 0).
Definition sends (d : bytes) (t : out_transfer) : bytes -> list out_transfer :=
  fun a => if bool_decide (a = d) then [t] else [].
(** the result to return is unchanged *)
Definition result_kept (h h' : host) : Prop :=
  o_retdata (h_out h') = o_retdata (h_out h) /\ o_code (h_out h') = o_code (h_out h) /\ o_msg (h_out h') = o_msg (h_out h).

(** * Routing of the asynchronous call [c] made by the contract running in [h] *)

(** it calls [f] of its destination with [args] *)
Definition asks (c : async_call) (f : bytes) (args : list bytes) : Prop := call_data (ac_data c) f args.
Definition same_shard `{E : env} (h : host) (c : async_call) : Prop := e_shard E (r_addr (h_rt h)) = e_shard E (ac_dest c).
(** a token transfer back to the contract that called asynchronously *)
Definition token_answer (h : host) (c : async_call) (f : bytes) (args : list bytes) : Prop :=
  (f = str "ESDTTransfer" /\ length args = 2%nat \/ f = str "ESDTNFTTransfer" /\ length args = 4%nat) /\
  vi_ctype (r_input (h_rt h)) = AsynchronousCall /\ vi_caller (r_input (h_rt h)) = ac_dest c.
(** executed at once: calls to contracts whose code is here, and built-in
    functions for the same shard *)
Definition runs_here `{E : env} (h : host) (c : async_call) (f : bytes) (args : list bytes) : Prop :=
  e_isBuiltin E f = false /\ code_now h (ac_dest c) <> [] \/
  e_isBuiltin E f = true /\ same_shard h c /\ ~ token_answer h c f args.
(** the call of the destination: in the name of the contract, with all the gas it
    has left *)
Definition dest_call (h : host) (c : async_call) (f : bytes) (args : list bytes) : call_input :=
  let v := r_input (h_rt h) in
  mkCall (mkInput (r_addr (h_rt h)) args (be_decode (ac_value c)) AsynchronousCall (vi_gasprice v) (left_of h) (ac_locked c) []
            (vi_origtx v) (vi_curtx v) false) (ac_dest c) f false.

(** * Callbacks *)

(** the number of a return code, as bytes *)
Definition code_bytes (c : return_code) : bytes := be_encode (rc_num c).
(** the destination failed *)
Definition call_failed (o : vm_output) (e : option err) : bool := negb (bool_decide (e = None) && bool_decide (o_code o = RcOk)).
Definition callback_args (o : vm_output) (e : option err) : list bytes :=
  if call_failed o e then [code_bytes (o_code o); o_msg o] else code_bytes (o_code o) :: o_retdata o.
(** the number of bytes of "name@arg@arg..." with every argument as it is *)
Definition data_length (name : bytes) (args : list bytes) : Z :=
  blen name + fold_right (fun a n => 1 + blen a + n) 0 args.
Definition callback_price `{E : env} (name : bytes) (o : vm_output) (e : option err) : Z :=
  e_cost E CAsyncCallStep + e_cost E DataCopyPerByte * data_length name (callback_args o e).
(** the destination returned a token transfer as its first data *)
Definition returns_tokens (o : vm_output) (e : option err) (f : bytes) (args : list bytes) : Prop :=
  call_failed o e = false /\ exists d ds, o_retdata o = d :: ds /\ call_data d f args /\
    (f = str "ESDTTransfer" /\ length args = 2%nat \/ f = str "ESDTNFTTransfer" /\ length args = 4%nat).
(** value sent along: what the last transfer without data to the contract
    carried, when nothing else was returned *)
Definition returned_value `{E : env} (a : bytes) (o : vm_output) : Z :=
  if negb (e_v3 E) || negb (bool_decide (o_retdata o = [])) then 0 else
  match last (default [] (oa_transfers <$> o_accounts o !! a)) with
  | Some t => if bool_decide (ot_data t = []) then ot_value t else 0
  | None => 0
  end.
(** the call of the callback, in the name of [by_] *)
Definition callback_call `{E : env} (h : host) (by_ name : bytes) (locked : Z) (o : vm_output) (e : option err) : call_input :=
  let v := r_input (h_rt h) in
  mkCall (mkInput by_ (callback_args o e) (returned_value (r_addr (h_rt h)) o) AsynchronousCallBack (vi_gasprice v)
            (o_gasrem o + locked - callback_price name o e) 0 [] (vi_origtx v) (vi_curtx v) (call_failed o e)) (r_addr (h_rt h)) name false.
(** when tokens are returned: the call of their transfer, which then calls [name] *)
Definition tokens_call `{E : env} (h : host) (by_ name : bytes) (locked : Z) (o : vm_output) (e : option err) (f : bytes) (args : list bytes) : call_input :=
  let i := callback_call h by_ name locked o e in
  mkCall (set_vi_args (args ++ [name; code_bytes (o_code o)] ++ tail (o_retdata o)) (ci_vm i)) (ci_rcpt i) f false.
(** sizes as Go's int holds them *)
Definition sendable (name : bytes) (o : vm_output) (e : option err) : Prop := data_length name (callback_args o e) < 2 ^ 63.

(** * Pending calls *)

(** the cell with the pending calls of the transaction, and its content *)
Definition async_key (h : host) : bytes := vi_origtx (r_input (h_rt h)) ++ str "ARWEN@ASYNC".
Definition async_cell (h : host) : bytes := cell h (h_stoaddr h) (async_key h).
(** a pending call of the context [id] to [dest] *)
Definition waits (m : gmap bytes async_ctx) (id dest : bytes) : Prop :=
  exists ctx c, m !! id = Some ctx /\ In c (ax_calls ctx) /\ gc_dest c = dest.
(** the number of pending calls *)
Definition pending_count (m : gmap bytes async_ctx) : nat := map_fold (fun _ ctx n => (length (ax_calls ctx) + n)%nat) 0%nat m.

(** a callback that failed with [code] and [msg] is reported in the result, and
    has no other effect on it than the gas of the running contract *)
Record reports_failure `{E : env} (h h' : host) (code : return_code) (msg : bytes) : Prop := mkReports {
  rf_retdata : o_retdata (h_out h') = o_retdata (h_out h) ++ [e_codestr E code; vi_curtx (r_input (h_rt h))];
  rf_message : o_msg (h_out h') = msg;
  rf_code : o_code (h_out h') = o_code (h_out h);
  rf_paid : forall a, oa_delta (account_of h' a) = oa_delta (account_of h a);
  rf_sent : forall a, oa_transfers (account_of h' a) = oa_transfers (account_of h a);
  rf_cell : forall a k, cell h' a k = cell h a k;
  rf_codes : forall a, code_now h' a = code_now h a;
  rf_world : h_world h' = h_world h;
  rf_trace : h_trace h' = h_trace h
}.
(** [h'] is [h] with up to [g] units of gas given back to the running contract *)
Definition gives_back (h h' : host) (g : Z) : Prop :=
  outcome_of h h' no_pay none_sent /\ h_out h' = h_out h /\ budget h' = budget h /\
  spent h' = (if g <=? spent h then spent h - g else spent h).
(** [h'] is [h] but for the reason why the running contract stopped *)
Definition resumed (h h' : host) : Prop :=
  outcome_of h h' no_pay none_sent /\ result_kept h h' /\ spent h' = spent h /\ budget h' = budget h.
(** the call that answers: the callback [name], or the transfer of the returned
    tokens that goes on with it *)
Definition answers `{E : env} (h : host) (by_ name : bytes) (locked : Z) (o : vm_output) (e : option err) (i : call_input) : Prop :=
  (forall f args, ~ returns_tokens o e f args) /\ i = callback_call h by_ name locked o e \/
  exists f args, returns_tokens o e f args /\ i = tokens_call h by_ name locked o e f args.
(** gas amounts as Go's uint64 holds them, without overflow of their sum *)
Definition answer_gas (o : vm_output) (locked : Z) : Prop := 0 <= o_gasrem o /\ 0 <= locked /\ o_gasrem o + locked < 2 ^ 64.
