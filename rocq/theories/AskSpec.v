(** Vocabulary for C66: what a contract asks the host to do through the API, as
    its memory has it, and what the host is to do then.  [h] is the host, [m] the
    bytes of the asking contract's memory. *)
From Verif Require Import VmTypes CtxModel HostModel ApiModel CallDataModel CodecSpec MemSpec ApiArgsSpec QuerySpec.

(** the vector of arguments described by a count and two offsets *)
Definition arguments_at (m : bytes) (n lens data : Z) (args : list bytes) : Prop :=
  4 * n <= max_i32 /\ vector_readable m n lens data /\
  args = arg_windows m data (arg_lens m lens (Z.to_nat n)).

Inductive request :=
| RDest (caller dest function : bytes) (args : list bytes) (value limit : Z)  (* call in the callee's context *)
| RSame (dest function : bytes) (args : list bytes) (value limit : Z)         (* call in the caller's context *)
| RReadOnly (dest function : bytes) (args : list bytes) (value limit : Z)     (* the same without writing *)
| RCreate (code meta : bytes) (args : list bytes) (value limit : Z)           (* deployment *)
| RTransfer (dest data : bytes) (value gas : Z)                               (* transfer *)
| RAsync (dest data value : bytes)                                            (* asynchronous call *)
| RPending (id : bytes) (call : gen_call)                                     (* ... for later *)
| RCallback (id name : bytes).                                                (* callback of an async context *)

Section asks.
Context `{E : env} (h : host) (m : bytes).

Definition me : bytes := r_addr (h_rt h).
Definition my_value : Z := vi_value (r_input (h_rt h)).
Definition number_at (o v : Z) : Prop := exists d, bytes_at m (i32 o) 32 d /\ v = be_value d.
Definition here (dest : bytes) : Prop := e_shard E me = e_shard E dest.
(** the data does not name a built-in function of the node *)
Definition no_builtin (data : bytes) : Prop := isBuiltInCall data = false.
(** destination, function and arguments of a call *)
Definition call_at (ao fo fl n lo d : Z) (dest f : bytes) (args : list bytes) : Prop :=
  bytes_at m (i32 ao) 32 dest /\ bytes_at m (i32 fo) (i32 fl) f /\ arguments_at m (i32 n) (i32 lo) (i32 d) args.

Definition asks (c : api_call) (rq : request) : Prop :=
  match c with
  | A_executeOnDestContext g ao vo fo fl n lo d =>
      exists dest f args v, call_at ao fo fl n lo d dest f args /\ number_at vo v /\ here dest /\
        rq = RDest me dest f args v g
  | A_executeOnDestContextByCaller g ao vo fo fl n lo d =>
      exists dest f args v, call_at ao fo fl n lo d dest f args /\ number_at vo v /\ here dest /\ no_builtin f /\
        rq = RDest (vi_caller (r_input (h_rt h))) dest f args v g
  | A_executeOnSameContext g ao vo fo fl n lo d =>
      exists dest f args v, call_at ao fo fl n lo d dest f args /\ number_at vo v /\ here dest /\ no_builtin f /\
        rq = RSame dest f args v g
  | A_delegateExecution g ao fo fl n lo d =>
      exists dest f args, call_at ao fo fl n lo d dest f args /\ here dest /\ no_builtin f /\
        rq = RSame dest f args my_value g
  | A_executeReadOnly g ao fo fl n lo d =>
      exists dest f args, call_at ao fo fl n lo d dest f args /\ here dest /\ no_builtin f /\
        rq = RReadOnly dest f args my_value g
  | A_transferValueExecute ao vo g fo fl n lo d =>
      exists dest f args v, call_at ao fo fl n lo d dest f args /\ number_at vo v /\ e_isBuiltin E f = false /\
        (here dest /\ e_isSC E dest = true /\ rq = RDest me dest f args v g \/
         ~ (here dest /\ e_isSC E dest = true) /\ rq = RTransfer dest (makeCallData f args) v (u64 (i64 g)))
  | A_transferValue ao vo d l =>
      exists dest data v, bytes_at m (i32 ao) 32 dest /\ number_at vo v /\ bytes_at m (i32 d) (i32 l) data /\
        no_builtin data /\ rq = RTransfer dest data v 0
  | A_createContract g vo co mo l ro n lo d =>
      exists v code meta args, number_at vo v /\ bytes_at m (i32 co) (i32 l) code /\ bytes_at m (i32 mo) 2 meta /\
        arguments_at m (i32 n) (i32 lo) (i32 d) args /\ rq = RCreate code meta args v g
  | A_asyncCall ao vo d l =>
      exists dest v data, bytes_at m (i32 ao) 32 dest /\ bytes_at m (i32 vo) 32 v /\
        bytes_at m (i32 d) (i32 l) data /\ rq = RAsync dest data v
  | A_upgradeContract ao g vo co mo l n lo d =>
      exists dest v code meta args, bytes_at m (i32 ao) 32 dest /\ bytes_at m (i32 vo) 32 v /\
        bytes_at m (i32 co) (i32 l) code /\ bytes_at m (i32 mo) 2 meta /\
        arguments_at m (i32 n) (i32 lo) (i32 d) args /\
        2 * e_cost E CAsyncCallStep + e_cost E CAsyncCallbackGasLock <= u64 (i64 g) /\
        rq = RAsync dest (makeCallData (str "upgradeContract") (code :: meta :: args)) v
  | A_createAsyncCall io il ao vo d l so sl eo el g =>
      exists id dest v data success error, bytes_at m (i32 io) (i32 il) id /\ bytes_at m (i32 ao) 32 dest /\
        bytes_at m (i32 vo) 32 v /\ bytes_at m (i32 d) (i32 l) data /\
        bytes_at m (i32 so) (i32 sl) success /\ bytes_at m (i32 eo) (i32 el) error /\
        rq = RPending id (mkGenCall AsPending dest data 0 v success error (u64 (i64 g)))
  | A_setAsyncContextCallback io il co cl =>
      exists id name, bytes_at m (i32 io) (i32 il) id /\ bytes_at m (i32 co) (i32 cl) name /\
        is_Some (ai_map (r_actx (h_rt h)) !! id) /\ rq = RCallback id name
  | _ => False
  end.
End asks.

(** the gas handed on: what is asked for, but no more than is left *)
Definition granted (h : host) (limit : Z) : Z := Z.min (gas_left h) (u64 (i64 limit)).

(** the host does what was asked; [ed], [es]: calls in the callee's and in the
    caller's context.  The bytes are the address of a new contract. *)
Definition carry_out `{E : env} (ed : edf) (es : call_input -> M unit) (rq : request) : M bytes := fun h =>
  let input caller args value limit := mkInput caller args value DirectCall 0 (granted h limit) 0 [] [] [] false in
  let nothing (x : M unit) : M bytes := x ;;; ret [] in
  match rq with
  | RDest caller dest f args v g => nothing (exec_dest ed (mkCall (input caller args v g) dest f false)) h
  | RSame dest f args v g => nothing (es (mkCall (input (r_addr (h_rt h)) args v g) dest f false)) h
  | RReadOnly dest f args v g =>
      (SetReadOnly true ;;;
       x <- try (es (mkCall (input (r_addr (h_rt h)) args v g) dest f false)) ;;
       SetReadOnly false ;;;
       match x with inl _ => ret [] | inr e => fail e end) h
  | RCreate code meta args v g => CreateNewContract ed (mkCreate (input (r_addr (h_rt h)) args v g) code meta) h
  | RTransfer dest data v gas => nothing (Transfer dest (r_addr (h_rt h)) gas 0 v data DirectCall) h
  | RAsync dest data v => nothing (ExecuteAsyncCall dest data v) h
  | RPending id c => nothing (AddAsyncContextCall id c) h
  | RCallback id name => nothing (SetAsyncContextCallback id name) h
  end.

(** what the contract is told when the request fails: a number, and whether its
    execution is failed as well *)
Definition refusal (c : api_call) (rq : request) : Z * bool :=
  match c, rq with
  | A_transferValueExecute _ _ _ _ _ _ _ _, RDest _ _ _ _ _ _ => (1, false)
  | A_createContract _ _ _ _ _ _ _ _ _, _ => (1, false)
  | A_upgradeContract _ _ _ _ _ _ _ _ _, _ => (0, false)
  | A_asyncCall _ _ _ _, _ => (0, true)
  | A_setAsyncContextCallback _ _ _ _, _ => (-1, true)
  | _, _ => (1, true)
  end.

(** the execution is failed with an error *)
Definition halted `{E : env} (e : err) (h h' : host) : Prop :=
  exists i x p, h_cur h = Some i /\ h_insts h !! i = Some x /\
    h' = set_h_insts (<[i := set_in_bp BreakpointExecutionFailed (set_in_points p x)]> (h_insts h))
           (set_h_out (set_o_msg (e_errmsg E e) (set_o_code RcExecutionFailed (h_out h))) h).
(** ... or stopped for lack of gas *)
Definition starved (h h' : host) : Prop :=
  exists i x, h_cur h = Some i /\ h_insts h !! i = Some x /\
    h' = set_h_insts (<[i := set_in_bp BreakpointOutOfGas x]> (h_insts h)) h.
Definition stopped `{E : env} (c : api_call) (e : err) (h h' : host) : Prop :=
  match c with
  | A_asyncCall _ _ _ _ => if err_is e ErrNotEnoughGas then starved h h' else halted e h h'
  | _ => halted e h h'
  end.

(** the end [y] of an API call whose request ended as [x] *)
Definition concluded `{E : env} (c : api_call) (rq : request) (x : host * outc bytes) (y : host * outc Z) : Prop :=
  match x with
  | (h2, OOk a) =>
      match c with
      | A_createContract _ _ _ _ _ ro _ _ _ =>
          forall i z m', h_cur h2 = Some i -> h_insts h2 !! i = Some z ->
            MemStore (in_mem z) (i32 ro) a = (m', ROk tt) ->
            y = (set_h_insts (<[i := set_in_mem m' z]> (h_insts h2)) h2, OOk 0)
      | _ => y = (h2, OOk 0)
      end
  | (h2, OErr e) =>
      if snd (refusal c rq)
      then (exists i z, h_cur h2 = Some i /\ h_insts h2 !! i = Some z) ->
           exists h3, stopped c e h2 h3 /\ y = (h3, OOk (fst (refusal c rq)))
      else y = (h2, OOk (fst (refusal c rq)))
  | (h2, OPanic) => y = (h2, OPanic)
  | (h2, OFuel) => y = (h2, OFuel)
  end.

(** nothing but the running contract's gas counter changed *)
Definition only_gas (h h' : host) : Prop :=
  exists i x g, h_cur h = Some i /\ h_insts h !! i = Some x /\
    h' = set_h_insts (<[i := set_in_points g x]> (h_insts h)) h.

(** * Tokens *)

(** what a contract asks to send with transferESDTExecute and transferESDTNFTExecute *)
Record token_request := mkTokens {
  tr_dest : bytes; tr_token : bytes; tr_nonce : Z; tr_amount : Z; tr_limit : Z;
  tr_function : bytes; tr_args : list bytes }.

Definition asks_tokens (m : bytes) (c : api_call) (t : token_request) : Prop :=
  match c with
  | A_transferESDTExecute ao to tl vo g fo fl n lo d =>
      exists dest token f args v, call_at m ao fo fl n lo d dest f args /\ number_at m vo v /\
        bytes_at m (i32 to) (i32 tl) token /\ t = mkTokens dest token 0 v g f args
  | A_transferESDTNFTExecute ao to tl vo nonce g fo fl n lo d =>
      exists dest token f args v, call_at m ao fo fl n lo d dest f args /\ number_at m vo v /\
        bytes_at m (i32 to) (i32 tl) token /\ t = mkTokens dest token (i64 nonce) v g f args
  | _ => False
  end.

(** the call that goes with the tokens: no value, one token transfer (type 1 for
    tokens with a nonce), the gas asked for *)
Definition token_call (h : host) (t : token_request) (gas : Z) : call_input :=
  mkCall (mkInput (r_addr (h_rt h)) (tr_args t) 0 DirectCall 0 gas 0
            [mkEsdt (tr_amount t) (tr_token t) (if 0 <? tr_nonce t then 1 else 0) (u64 (tr_nonce t))]
            [] [] false) (tr_dest t) (tr_function t) false.

(** the end [y] of an API call of [h] moving tokens, [h1] being the host when its
    own gas has been used: the tokens are moved; a contract here is called with
    the gas the transfer leaves, and if that fails the world is put back *)
Definition tokens_end `{E : env} (ed : edf) (h h1 : host) (t : token_request) (y : host * outc Z) : Prop :=
  let local := e_shard E (r_addr (h_rt h)) = e_shard E (tr_dest t) /\ e_isSC E (tr_dest t) = true in
  match TransferESDT (tr_dest t) (r_addr (h_rt h)) (tr_token t) (u64 (tr_nonce t)) (tr_amount t)
          (Some (token_call h1 t (granted h1 (tr_limit t)))) h1 with
  | (h2, OErr e) =>
      (exists i z, h_cur h2 = Some i /\ h_insts h2 !! i = Some z) ->
      exists h3, halted e h2 h3 /\ y = (h3, OOk 1)
  | (h2, OOk gas) =>
      (~ local -> y = (h2, OOk 0)) /\
      (local ->
        match ed (token_call h1 t gas) h2 with
        | (h3, OOk (_, None)) => y = (h3, OOk 0)
        | (h3, OOk (_, Some _)) | (h3, OErr _) => y = (set_h_world (h_world h) h3, OOk 1)
        | (h3, OPanic) => y = (h3, OPanic)
        | (h3, OFuel) => y = (h3, OFuel)
        end)
  | (h2, OPanic) => y = (h2, OPanic)
  | (h2, OFuel) => y = (h2, OFuel)
  end.
