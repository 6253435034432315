(** Reading a scenario: mandos-go/json/parse.

    Only whether there is an error is kept, not its text.  A step of a
    transaction type without a [tx] field has a nil transaction, on which both
    the executor and the writer panic; the reader of the model panics at once.
    The older test format (parseTest.go, parseBlock.go) is left out. *)
From Verif Require Export ScenModel.

(** Assignment to a field. *)
Definition set_a_address (v : jbytes) (x : account) : account :=
  mkAccount v (a_shard x) (a_comment x) (a_nonce x) (a_balance x) (a_username x) (a_storage x) (a_code x) (a_owner x) (a_async x) (a_esdt x).
Definition set_a_shard (v : juint) (x : account) : account :=
  mkAccount (a_address x) v (a_comment x) (a_nonce x) (a_balance x) (a_username x) (a_storage x) (a_code x) (a_owner x) (a_async x) (a_esdt x).
Definition set_a_comment (v : bytes) (x : account) : account :=
  mkAccount (a_address x) (a_shard x) v (a_nonce x) (a_balance x) (a_username x) (a_storage x) (a_code x) (a_owner x) (a_async x) (a_esdt x).
Definition set_a_nonce (v : juint) (x : account) : account :=
  mkAccount (a_address x) (a_shard x) (a_comment x) v (a_balance x) (a_username x) (a_storage x) (a_code x) (a_owner x) (a_async x) (a_esdt x).
Definition set_a_balance (v : jbig) (x : account) : account :=
  mkAccount (a_address x) (a_shard x) (a_comment x) (a_nonce x) v (a_username x) (a_storage x) (a_code x) (a_owner x) (a_async x) (a_esdt x).
Definition set_a_username (v : jbytes) (x : account) : account :=
  mkAccount (a_address x) (a_shard x) (a_comment x) (a_nonce x) (a_balance x) v (a_storage x) (a_code x) (a_owner x) (a_async x) (a_esdt x).
Definition set_a_storage (v : list (jbytes * jtree)) (x : account) : account :=
  mkAccount (a_address x) (a_shard x) (a_comment x) (a_nonce x) (a_balance x) (a_username x) v (a_code x) (a_owner x) (a_async x) (a_esdt x).
Definition set_a_code (v : jbytes) (x : account) : account :=
  mkAccount (a_address x) (a_shard x) (a_comment x) (a_nonce x) (a_balance x) (a_username x) (a_storage x) v (a_owner x) (a_async x) (a_esdt x).
Definition set_a_owner (v : jbytes) (x : account) : account :=
  mkAccount (a_address x) (a_shard x) (a_comment x) (a_nonce x) (a_balance x) (a_username x) (a_storage x) (a_code x) v (a_async x) (a_esdt x).
Definition set_a_async (v : bytes) (x : account) : account :=
  mkAccount (a_address x) (a_shard x) (a_comment x) (a_nonce x) (a_balance x) (a_username x) (a_storage x) (a_code x) (a_owner x) v (a_esdt x).
Definition set_a_esdt (v : list esdt_data) (x : account) : account :=
  mkAccount (a_address x) (a_shard x) (a_comment x) (a_nonce x) (a_balance x) (a_username x) (a_storage x) (a_code x) (a_owner x) (a_async x) v.
Definition set_x_address (v : jbytes) (x : check_account) : check_account :=
  mkCheckAccount v (x_comment x) (x_nonce x) (x_balance x) (x_username x) (x_storage x) (x_ignore_storage x) (x_more_storage x) (x_code x) (x_owner x) (x_async x) (x_esdt x) (x_ignore_esdt x) (x_more_esdt x).
Definition set_x_comment (v : bytes) (x : check_account) : check_account :=
  mkCheckAccount (x_address x) v (x_nonce x) (x_balance x) (x_username x) (x_storage x) (x_ignore_storage x) (x_more_storage x) (x_code x) (x_owner x) (x_async x) (x_esdt x) (x_ignore_esdt x) (x_more_esdt x).
Definition set_x_nonce (v : cuint) (x : check_account) : check_account :=
  mkCheckAccount (x_address x) (x_comment x) v (x_balance x) (x_username x) (x_storage x) (x_ignore_storage x) (x_more_storage x) (x_code x) (x_owner x) (x_async x) (x_esdt x) (x_ignore_esdt x) (x_more_esdt x).
Definition set_x_balance (v : cbig) (x : check_account) : check_account :=
  mkCheckAccount (x_address x) (x_comment x) (x_nonce x) v (x_username x) (x_storage x) (x_ignore_storage x) (x_more_storage x) (x_code x) (x_owner x) (x_async x) (x_esdt x) (x_ignore_esdt x) (x_more_esdt x).
Definition set_x_username (v : cbytes) (x : check_account) : check_account :=
  mkCheckAccount (x_address x) (x_comment x) (x_nonce x) (x_balance x) v (x_storage x) (x_ignore_storage x) (x_more_storage x) (x_code x) (x_owner x) (x_async x) (x_esdt x) (x_ignore_esdt x) (x_more_esdt x).
Definition set_x_storage (v : list (jbytes * cbytes)) (x : check_account) : check_account :=
  mkCheckAccount (x_address x) (x_comment x) (x_nonce x) (x_balance x) (x_username x) v (x_ignore_storage x) (x_more_storage x) (x_code x) (x_owner x) (x_async x) (x_esdt x) (x_ignore_esdt x) (x_more_esdt x).
Definition set_x_ignore_storage (v : bool) (x : check_account) : check_account :=
  mkCheckAccount (x_address x) (x_comment x) (x_nonce x) (x_balance x) (x_username x) (x_storage x) v (x_more_storage x) (x_code x) (x_owner x) (x_async x) (x_esdt x) (x_ignore_esdt x) (x_more_esdt x).
Definition set_x_more_storage (v : bool) (x : check_account) : check_account :=
  mkCheckAccount (x_address x) (x_comment x) (x_nonce x) (x_balance x) (x_username x) (x_storage x) (x_ignore_storage x) v (x_code x) (x_owner x) (x_async x) (x_esdt x) (x_ignore_esdt x) (x_more_esdt x).
Definition set_x_code (v : cbytes) (x : check_account) : check_account :=
  mkCheckAccount (x_address x) (x_comment x) (x_nonce x) (x_balance x) (x_username x) (x_storage x) (x_ignore_storage x) (x_more_storage x) v (x_owner x) (x_async x) (x_esdt x) (x_ignore_esdt x) (x_more_esdt x).
Definition set_x_owner (v : cbytes) (x : check_account) : check_account :=
  mkCheckAccount (x_address x) (x_comment x) (x_nonce x) (x_balance x) (x_username x) (x_storage x) (x_ignore_storage x) (x_more_storage x) (x_code x) v (x_async x) (x_esdt x) (x_ignore_esdt x) (x_more_esdt x).
Definition set_x_async (v : cbytes) (x : check_account) : check_account :=
  mkCheckAccount (x_address x) (x_comment x) (x_nonce x) (x_balance x) (x_username x) (x_storage x) (x_ignore_storage x) (x_more_storage x) (x_code x) (x_owner x) v (x_esdt x) (x_ignore_esdt x) (x_more_esdt x).
Definition set_x_esdt (v : list check_esdt) (x : check_account) : check_account :=
  mkCheckAccount (x_address x) (x_comment x) (x_nonce x) (x_balance x) (x_username x) (x_storage x) (x_ignore_storage x) (x_more_storage x) (x_code x) (x_owner x) (x_async x) v (x_ignore_esdt x) (x_more_esdt x).
Definition set_x_ignore_esdt (v : bool) (x : check_account) : check_account :=
  mkCheckAccount (x_address x) (x_comment x) (x_nonce x) (x_balance x) (x_username x) (x_storage x) (x_ignore_storage x) (x_more_storage x) (x_code x) (x_owner x) (x_async x) (x_esdt x) v (x_more_esdt x).
Definition set_x_more_esdt (v : bool) (x : check_account) : check_account :=
  mkCheckAccount (x_address x) (x_comment x) (x_nonce x) (x_balance x) (x_username x) (x_storage x) (x_ignore_storage x) (x_more_storage x) (x_code x) (x_owner x) (x_async x) (x_esdt x) (x_ignore_esdt x) v.
Definition set_t_nonce (v : juint) (x : transaction) : transaction :=
  mkTx (t_type x) v (t_value x) (t_esdt x) (t_from x) (t_to x) (t_function x) (t_code x) (t_args x) (t_gasprice x) (t_gaslimit x).
Definition set_t_value (v : jbig) (x : transaction) : transaction :=
  mkTx (t_type x) (t_nonce x) v (t_esdt x) (t_from x) (t_to x) (t_function x) (t_code x) (t_args x) (t_gasprice x) (t_gaslimit x).
Definition set_t_esdt (v : option esdt_tx) (x : transaction) : transaction :=
  mkTx (t_type x) (t_nonce x) (t_value x) v (t_from x) (t_to x) (t_function x) (t_code x) (t_args x) (t_gasprice x) (t_gaslimit x).
Definition set_t_from (v : jbytes) (x : transaction) : transaction :=
  mkTx (t_type x) (t_nonce x) (t_value x) (t_esdt x) v (t_to x) (t_function x) (t_code x) (t_args x) (t_gasprice x) (t_gaslimit x).
Definition set_t_to (v : jbytes) (x : transaction) : transaction :=
  mkTx (t_type x) (t_nonce x) (t_value x) (t_esdt x) (t_from x) v (t_function x) (t_code x) (t_args x) (t_gasprice x) (t_gaslimit x).
Definition set_t_function (v : bytes) (x : transaction) : transaction :=
  mkTx (t_type x) (t_nonce x) (t_value x) (t_esdt x) (t_from x) (t_to x) v (t_code x) (t_args x) (t_gasprice x) (t_gaslimit x).
Definition set_t_code (v : jbytes) (x : transaction) : transaction :=
  mkTx (t_type x) (t_nonce x) (t_value x) (t_esdt x) (t_from x) (t_to x) (t_function x) v (t_args x) (t_gasprice x) (t_gaslimit x).
Definition set_t_args (v : list jtree) (x : transaction) : transaction :=
  mkTx (t_type x) (t_nonce x) (t_value x) (t_esdt x) (t_from x) (t_to x) (t_function x) (t_code x) v (t_gasprice x) (t_gaslimit x).
Definition set_t_gasprice (v : juint) (x : transaction) : transaction :=
  mkTx (t_type x) (t_nonce x) (t_value x) (t_esdt x) (t_from x) (t_to x) (t_function x) (t_code x) (t_args x) v (t_gaslimit x).
Definition set_t_gaslimit (v : juint) (x : transaction) : transaction :=
  mkTx (t_type x) (t_nonce x) (t_value x) (t_esdt x) (t_from x) (t_to x) (t_function x) (t_code x) (t_args x) (t_gasprice x) v.
Definition set_tr_out (v : list cbytes) (x : tx_result) : tx_result :=
  mkTxResult v (tr_status x) (tr_message x) (tr_gas x) (tr_refund x) (tr_logs_star x) (tr_logs_unspec x) (tr_log_hash x) (tr_logs x).
Definition set_tr_status (v : cbig) (x : tx_result) : tx_result :=
  mkTxResult (tr_out x) v (tr_message x) (tr_gas x) (tr_refund x) (tr_logs_star x) (tr_logs_unspec x) (tr_log_hash x) (tr_logs x).
Definition set_tr_message (v : cbytes) (x : tx_result) : tx_result :=
  mkTxResult (tr_out x) (tr_status x) v (tr_gas x) (tr_refund x) (tr_logs_star x) (tr_logs_unspec x) (tr_log_hash x) (tr_logs x).
Definition set_tr_gas (v : cuint) (x : tx_result) : tx_result :=
  mkTxResult (tr_out x) (tr_status x) (tr_message x) v (tr_refund x) (tr_logs_star x) (tr_logs_unspec x) (tr_log_hash x) (tr_logs x).
Definition set_tr_refund (v : cbig) (x : tx_result) : tx_result :=
  mkTxResult (tr_out x) (tr_status x) (tr_message x) (tr_gas x) v (tr_logs_star x) (tr_logs_unspec x) (tr_log_hash x) (tr_logs x).
Definition set_tr_logs_star (v : bool) (x : tx_result) : tx_result :=
  mkTxResult (tr_out x) (tr_status x) (tr_message x) (tr_gas x) (tr_refund x) v (tr_logs_unspec x) (tr_log_hash x) (tr_logs x).
Definition set_tr_logs_unspec (v : bool) (x : tx_result) : tx_result :=
  mkTxResult (tr_out x) (tr_status x) (tr_message x) (tr_gas x) (tr_refund x) (tr_logs_star x) v (tr_log_hash x) (tr_logs x).
Definition set_tr_log_hash (v : bytes) (x : tx_result) : tx_result :=
  mkTxResult (tr_out x) (tr_status x) (tr_message x) (tr_gas x) (tr_refund x) (tr_logs_star x) (tr_logs_unspec x) v (tr_logs x).
Definition set_tr_logs (v : list log_check) (x : tx_result) : tx_result :=
  mkTxResult (tr_out x) (tr_status x) (tr_message x) (tr_gas x) (tr_refund x) (tr_logs_star x) (tr_logs_unspec x) (tr_log_hash x) v.
Definition set_lc_address (v : cbytes) (x : log_check) : log_check :=
  mkLogCheck v (lc_identifier x) (lc_topics x) (lc_data x).
Definition set_lc_identifier (v : cbytes) (x : log_check) : log_check :=
  mkLogCheck (lc_address x) v (lc_topics x) (lc_data x).
Definition set_lc_topics (v : list cbytes) (x : log_check) : log_check :=
  mkLogCheck (lc_address x) (lc_identifier x) v (lc_data x).
Definition set_lc_data (v : cbytes) (x : log_check) : log_check :=
  mkLogCheck (lc_address x) (lc_identifier x) (lc_topics x) v.
Definition set_tx_token (v : jbytes) (x : esdt_tx) : esdt_tx :=
  mkEsdtTx v (tx_tnonce x) (tx_tvalue x).
Definition set_tx_tnonce (v : juint) (x : esdt_tx) : esdt_tx :=
  mkEsdtTx (tx_token x) v (tx_tvalue x).
Definition set_tx_tvalue (v : jbig) (x : esdt_tx) : esdt_tx :=
  mkEsdtTx (tx_token x) (tx_tnonce x) v.
Definition set_ei_nonce (v : juint) (x : esdt_inst) : esdt_inst :=
  mkEsdtInst v (ei_balance x) (ei_creator x) (ei_royalties x) (ei_hash x) (ei_uri x) (ei_attributes x).
Definition set_ei_balance (v : jbig) (x : esdt_inst) : esdt_inst :=
  mkEsdtInst (ei_nonce x) v (ei_creator x) (ei_royalties x) (ei_hash x) (ei_uri x) (ei_attributes x).
Definition set_ei_creator (v : jbytes) (x : esdt_inst) : esdt_inst :=
  mkEsdtInst (ei_nonce x) (ei_balance x) v (ei_royalties x) (ei_hash x) (ei_uri x) (ei_attributes x).
Definition set_ei_royalties (v : juint) (x : esdt_inst) : esdt_inst :=
  mkEsdtInst (ei_nonce x) (ei_balance x) (ei_creator x) v (ei_hash x) (ei_uri x) (ei_attributes x).
Definition set_ei_hash (v : jbytes) (x : esdt_inst) : esdt_inst :=
  mkEsdtInst (ei_nonce x) (ei_balance x) (ei_creator x) (ei_royalties x) v (ei_uri x) (ei_attributes x).
Definition set_ei_uri (v : jtree) (x : esdt_inst) : esdt_inst :=
  mkEsdtInst (ei_nonce x) (ei_balance x) (ei_creator x) (ei_royalties x) (ei_hash x) v (ei_attributes x).
Definition set_ei_attributes (v : jbytes) (x : esdt_inst) : esdt_inst :=
  mkEsdtInst (ei_nonce x) (ei_balance x) (ei_creator x) (ei_royalties x) (ei_hash x) (ei_uri x) v.
Definition set_ed_instances (v : list esdt_inst) (x : esdt_data) : esdt_data :=
  mkEsdtData (ed_token x) v (ed_last x) (ed_roles x) (ed_frozen x).
Definition set_ed_last (v : juint) (x : esdt_data) : esdt_data :=
  mkEsdtData (ed_token x) (ed_instances x) v (ed_roles x) (ed_frozen x).
Definition set_ed_roles (v : list bytes) (x : esdt_data) : esdt_data :=
  mkEsdtData (ed_token x) (ed_instances x) (ed_last x) v (ed_frozen x).
Definition set_ed_frozen (v : juint) (x : esdt_data) : esdt_data :=
  mkEsdtData (ed_token x) (ed_instances x) (ed_last x) (ed_roles x) v.
Definition set_xi_nonce (v : cuint) (x : check_inst) : check_inst :=
  mkCheckInst v (xi_balance x) (xi_creator x) (xi_royalties x) (xi_hash x) (xi_uri x) (xi_attributes x).
Definition set_xi_balance (v : cbig) (x : check_inst) : check_inst :=
  mkCheckInst (xi_nonce x) v (xi_creator x) (xi_royalties x) (xi_hash x) (xi_uri x) (xi_attributes x).
Definition set_xi_creator (v : cbytes) (x : check_inst) : check_inst :=
  mkCheckInst (xi_nonce x) (xi_balance x) v (xi_royalties x) (xi_hash x) (xi_uri x) (xi_attributes x).
Definition set_xi_royalties (v : cuint) (x : check_inst) : check_inst :=
  mkCheckInst (xi_nonce x) (xi_balance x) (xi_creator x) v (xi_hash x) (xi_uri x) (xi_attributes x).
Definition set_xi_hash (v : cbytes) (x : check_inst) : check_inst :=
  mkCheckInst (xi_nonce x) (xi_balance x) (xi_creator x) (xi_royalties x) v (xi_uri x) (xi_attributes x).
Definition set_xi_uri (v : cbytes) (x : check_inst) : check_inst :=
  mkCheckInst (xi_nonce x) (xi_balance x) (xi_creator x) (xi_royalties x) (xi_hash x) v (xi_attributes x).
Definition set_xi_attributes (v : cbytes) (x : check_inst) : check_inst :=
  mkCheckInst (xi_nonce x) (xi_balance x) (xi_creator x) (xi_royalties x) (xi_hash x) (xi_uri x) v.
Definition set_xe_instances (v : list check_inst) (x : check_esdt) : check_esdt :=
  mkCheckEsdt (xe_token x) v (xe_last x) (xe_roles x) (xe_frozen x).
Definition set_xe_last (v : cuint) (x : check_esdt) : check_esdt :=
  mkCheckEsdt (xe_token x) (xe_instances x) v (xe_roles x) (xe_frozen x).
Definition set_xe_roles (v : list bytes) (x : check_esdt) : check_esdt :=
  mkCheckEsdt (xe_token x) (xe_instances x) (xe_last x) v (xe_frozen x).
Definition set_xe_frozen (v : cuint) (x : check_esdt) : check_esdt :=
  mkCheckEsdt (xe_token x) (xe_instances x) (xe_last x) (xe_roles x) v.
Definition set_na_creator (v : jbytes) (x : new_address) : new_address :=
  mkNewAddress v (na_nonce x) (na_new x).
Definition set_na_nonce (v : juint) (x : new_address) : new_address :=
  mkNewAddress (na_creator x) v (na_new x).
Definition set_na_new (v : jbytes) (x : new_address) : new_address :=
  mkNewAddress (na_creator x) (na_nonce x) v.
Definition set_bi_timestamp (v : juint) (x : block_info) : block_info :=
  mkBlockInfo v (bi_nonce x) (bi_round x) (bi_epoch x) (bi_seed x).
Definition set_bi_nonce (v : juint) (x : block_info) : block_info :=
  mkBlockInfo (bi_timestamp x) v (bi_round x) (bi_epoch x) (bi_seed x).
Definition set_bi_round (v : juint) (x : block_info) : block_info :=
  mkBlockInfo (bi_timestamp x) (bi_nonce x) v (bi_epoch x) (bi_seed x).
Definition set_bi_epoch (v : juint) (x : block_info) : block_info :=
  mkBlockInfo (bi_timestamp x) (bi_nonce x) (bi_round x) v (bi_seed x).
Definition set_bi_seed (v : option jtree) (x : block_info) : block_info :=
  mkBlockInfo (bi_timestamp x) (bi_nonce x) (bi_round x) (bi_epoch x) v.
Definition set_s_name (v : bytes) (x : scenario) : scenario :=
  mkScenario v (s_comment x) (s_check_gas x) (s_gas x) (s_steps x).
Definition set_s_comment (v : bytes) (x : scenario) : scenario :=
  mkScenario (s_name x) v (s_check_gas x) (s_gas x) (s_steps x).
Definition set_s_check_gas (v : bool) (x : scenario) : scenario :=
  mkScenario (s_name x) (s_comment x) v (s_gas x) (s_steps x).
Definition set_s_gas (v : gas_schedule) (x : scenario) : scenario :=
  mkScenario (s_name x) (s_comment x) (s_check_gas x) v (s_steps x).
Definition set_s_steps (v : list step) (x : scenario) : scenario :=
  mkScenario (s_name x) (s_comment x) (s_check_gas x) (s_gas x) v.

(** The case of a switch on a key. *)
Definition key_is (k : bytes) (s : string) : bool := bool_decide (k = str s).

(** A loop over the fields of a map; a loop over a list that collects. *)
Fixpoint over {A} (f : bytes -> json -> A -> sres A) (l : list (bytes * json)) (a : A) : sres A :=
  match l with
  | [] => SOk a
  | (k, v) :: r => sbind (f k v a) (over f r)
  end.
Fixpoint each {A B} (f : A -> sres B) (l : list A) : sres (list B) :=
  match l with
  | [] => SOk []
  | x :: r => sbind (f x) (fun y => sbind (each f r) (fun ys => SOk (y :: ys)))
  end.
(** The type assertions obj.( *oj.OJsonMap ) and obj.( *oj.OJsonList ). *)
Definition as_map (v : json) : sres (list (bytes * json)) :=
  match v with JMap m => SOk m | _ => SErr end.
Definition as_list (v : json) : sres (list json) :=
  match v with JList l => SOk l | _ => SErr end.

(** parseValue.go:136-142, parseString. *)
Definition parseString (v : json) : sres bytes :=
  match v with JStr s => SOk s | _ => SErr end.
(** parseValue.go:145-151 *)
Definition IsStar (v : json) : bool :=
  match v with JStr s => key_is s "*" | _ => false end.
(** parseList.go:10-24 *)
Definition processStringList (v : json) : sres (list bytes) :=
  sbind (as_list v) (each parseString).

(** valueInit.go:44-50, 61-67 *)
Definition JSONBigIntZero : jbig := mkJBig (Some 0) [].
Definition JSONUint64Zero : juint := mkJUint 0 [].

(** The result of the interpreter; [MFuel] never happens. *)
Definition of_mres (r : mres) : sres bytes :=
  match r with MOk b => SOk b | MErr => SErr | MPanic => SPanic | MFuel => SErr end.

Section Parse.
Context (files : bytes -> option bytes) (keccak : bytes -> bytes).

Definition interpretString (s : bytes) : sres bytes := of_mres (InterpretString files keccak s).
Definition interpretSubTree (v : json) : sres bytes := of_mres (InterpretSubTree files keccak v).

(** * parseValue.go *)

Inductive big_format := SignedBytes | UnsignedBytes.
(** parseValue.go:52-65, parseBigInt. *)
Definition parseBigInt (s : bytes) (f : big_format) : sres Z :=
  sbind (interpretString s) (fun b =>
  SOk match f with SignedBytes => twos_decode b | UnsignedBytes => be_decode b end).
(** parseValue.go:39-50 *)
Definition processBigInt (v : json) (f : big_format) : sres jbig :=
  sbind (parseString v) (fun s => sbind (parseBigInt s f) (fun z => SOk (mkJBig (Some z) s))).
(** parseValue.go:19-37 *)
Definition processCheckBigInt (v : json) (f : big_format) : sres cbig :=
  if IsStar v then SOk (mkCBig None true (str "*") false)
  else sbind (processBigInt v f) (fun j => SOk (mkCBig (jz_value j) false (jz_orig j) false)).
(** parseValue.go:87-100 *)
Definition processUint64 (v : json) : sres juint :=
  sbind (processBigInt v UnsignedBytes) (fun j =>
  match jz_value j with
  | Some z => if z <? 2 ^ 64 then SOk (mkJUint z (jz_orig j)) else SErr
  | None => SErr
  end).
(** parseValue.go:67-85 *)
Definition processCheckUint64 (v : json) : sres cuint :=
  if IsStar v then SOk (mkCUint 0 true (str "*") false)
  else sbind (processUint64 v) (fun j => SOk (mkCUint (ju_value j) false (ju_orig j) false)).
(** parseValue.go:128-134 *)
Definition processSubTreeAsByteArray (v : json) : sres jtree :=
  sbind (interpretSubTree v) (fun b => SOk (mkJTree b v)).
(** parseValue.go:102-117 *)
Definition parseCheckBytes (v : json) : sres cbytes :=
  if IsStar v then SOk JSONCheckBytesStar
  else sbind (processSubTreeAsByteArray v) (fun j =>
       SOk (mkCBytes (jt_value j) false (Some (jt_orig j)) false)).
(** parseValue.go:119-126, and the same for the key of a map
    (parseAccounts.go:70-74, 89-93). *)
Definition bytes_of_text (s : bytes) : sres jbytes :=
  sbind (interpretString s) (fun b => SOk (mkJBytes b s)).
Definition processStringAsByteArray (v : json) : sres jbytes :=
  sbind (parseString v) bytes_of_text.

(** parseList.go:26-72 *)
Definition parseByteArrayList (v : json) : sres (list jbytes) :=
  sbind (as_list v) (each processStringAsByteArray).
Definition parseSubTreeList (v : json) : sres (list jtree) :=
  sbind (as_list v) (each processSubTreeAsByteArray).
Definition parseCheckBytesList (v : json) : sres (list cbytes) :=
  sbind (as_list v) (each parseCheckBytes).

(** parseAccounts.go:11-20, parseAccountAddress. *)
Definition parseAccountAddress (s : bytes) : sres jbytes :=
  match s with
  | [] => SErr
  | _ => sbind (bytes_of_text s) (fun a => if (length (jb_value a) =? 32)%nat then SOk a else SErr)
  end.
Definition address_field (v : json) : sres jbytes := sbind (parseString v) parseAccountAddress.

(** * parseESDT.go *)

Definition esdt_inst_zero : esdt_inst :=
  mkEsdtInst juint_zero jbig_zero jbytes_zero juint_zero jbytes_zero jtree_zero jbytes_zero.
(** parseESDT.go:97-139, tryProcessESDTInstanceField; None if the key is none of
    an instance. *)
Definition tryProcessESDTInstanceField (k : bytes) (v : json) (i : esdt_inst)
  : option (sres esdt_inst) :=
  if key_is k "nonce" then Some (sbind (processUint64 v) (fun x => SOk (set_ei_nonce x i)))
  else if key_is k "balance" then
    Some (sbind (processBigInt v UnsignedBytes) (fun x => SOk (set_ei_balance x i)))
  else if key_is k "creator" then
    Some (sbind (processStringAsByteArray v) (fun x =>
      if (length (jb_value x) =? 32)%nat then SOk (set_ei_creator x i) else SErr))
  else if key_is k "royalties" then
    Some (sbind (processUint64 v) (fun x =>
      if 10000 <? ju_value x then SErr else SOk (set_ei_royalties x i)))
  else if key_is k "hash" then
    Some (sbind (processStringAsByteArray v) (fun x => SOk (set_ei_hash x i)))
  else if key_is k "uri" then
    Some (sbind (processSubTreeAsByteArray v) (fun x => SOk (set_ei_uri x i)))
  else if key_is k "attributes" then
    Some (sbind (processStringAsByteArray v) (fun x => SOk (set_ei_attributes x i)))
  else None.
(** parseESDT.go:141-173, processESDTInstances. *)
Definition instance_field (k : bytes) (v : json) (i : esdt_inst) : sres esdt_inst :=
  match tryProcessESDTInstanceField k v i with Some r => r | None => SErr end.
Definition processESDTInstance (v : json) : sres esdt_inst :=
  sbind (as_map v) (fun m => over instance_field m esdt_inst_zero).
Definition processESDTInstances (v : json) : sres (list esdt_inst) :=
  sbind (as_list v) (each processESDTInstance).

(** parseESDT.go:44-95, processESDTDataMap.  The loop carries the token (with
    the explicit instances in it), the first instance and whether it has been
    loaded. *)
Definition esdt_field (k : bytes) (v : json) (s : esdt_data * esdt_inst * bool)
  : sres (esdt_data * esdt_inst * bool) :=
  let '(d, first, loaded) := s in
  match tryProcessESDTInstanceField k v first with
  | Some r => sbind r (fun first => SOk (d, first, true))
  | None =>
      if key_is k "instances" then
        sbind (processESDTInstances v) (fun l => SOk (set_ed_instances l d, first, loaded))
      else if key_is k "lastNonce" then
        sbind (processUint64 v) (fun x => SOk (set_ed_last x d, first, loaded))
      else if key_is k "roles" then
        sbind (processStringList v) (fun x => SOk (set_ed_roles x d, first, loaded))
      else if key_is k "frozen" then
        sbind (processUint64 v) (fun x => SOk (set_ed_frozen x d, first, loaded))
      else SErr
  end.
Definition processESDTDataMap (name : jbytes) (m : list (bytes * json)) : sres esdt_data :=
  sbind (over esdt_field m (mkEsdtData name [] juint_zero [] juint_zero, esdt_inst_zero, false))
    (fun '(d, first, loaded) =>
     SOk (set_ed_instances ((if loaded then [first] else []) ++ ed_instances d) d)).
(** parseESDT.go:11-37, processESDTData. *)
Definition processESDTData (name : jbytes) (v : json) : sres esdt_data :=
  match v with
  | JStr _ =>
      sbind (processBigInt v UnsignedBytes) (fun z =>
      SOk (mkEsdtData name [set_ei_balance z esdt_inst_zero] juint_zero [] juint_zero))
  | JMap m => processESDTDataMap name m
  | _ => SErr
  end.

(** * parseESDTCheck.go *)

(** parseESDTCheck.go:105-150, tryProcessCheckESDTInstanceField. *)
Definition tryProcessCheckESDTInstanceField (k : bytes) (v : json) (i : check_inst)
  : option (sres check_inst) :=
  if key_is k "nonce" then Some (sbind (processCheckUint64 v) (fun x => SOk (set_xi_nonce x i)))
  else if key_is k "balance" then
    Some (sbind (processCheckBigInt v UnsignedBytes) (fun x => SOk (set_xi_balance x i)))
  else if key_is k "creator" then
    Some (sbind (parseCheckBytes v) (fun x => SOk (set_xi_creator x i)))
  else if key_is k "royalties" then
    Some (sbind (processCheckUint64 v) (fun x =>
      if 10000 <? cu_value x then SErr else SOk (set_xi_royalties x i)))
  else if key_is k "hash" then
    Some (sbind (parseCheckBytes v) (fun x => SOk (set_xi_hash x i)))
  else if key_is k "uri" then
    Some (sbind (parseCheckBytes v) (fun x => SOk (set_xi_uri x i)))
  else if key_is k "attributes" then
    Some (sbind (parseCheckBytes v) (fun x => SOk (set_xi_attributes x i)))
  else None.
(** parseESDTCheck.go:152-184 *)
Definition check_instance_field (k : bytes) (v : json) (i : check_inst) : sres check_inst :=
  match tryProcessCheckESDTInstanceField k v i with Some r => r | None => SErr end.
Definition processCheckESDTInstance (v : json) : sres check_inst :=
  sbind (as_map v) (fun m => over check_instance_field m NewCheckESDTInstance).
Definition processCheckESDTInstances (v : json) : sres (list check_inst) :=
  sbind (as_list v) (each processCheckESDTInstance).

(** parseESDTCheck.go:44-103 *)
Definition check_esdt_field (k : bytes) (v : json) (s : check_esdt * check_inst * bool)
  : sres (check_esdt * check_inst * bool) :=
  let '(d, first, loaded) := s in
  match tryProcessCheckESDTInstanceField k v first with
  | Some r => sbind r (fun first => SOk (d, first, true))
  | None =>
      if key_is k "instances" then
        sbind (processCheckESDTInstances v) (fun l => SOk (set_xe_instances l d, first, loaded))
      else if key_is k "lastNonce" then
        sbind (processCheckUint64 v) (fun x => SOk (set_xe_last x d, first, loaded))
      else if key_is k "roles" then
        sbind (processStringList v) (fun x => SOk (set_xe_roles x d, first, loaded))
      else if key_is k "frozen" then
        sbind (processCheckUint64 v) (fun x => SOk (set_xe_frozen x d, first, loaded))
      else SErr
  end.
Definition processCheckESDTDataMap (name : jbytes) (m : list (bytes * json)) : sres check_esdt :=
  sbind (over check_esdt_field m (mkCheckEsdt name [] cuint_zero [] cuint_zero,
                                  NewCheckESDTInstance, false))
    (fun '(d, first, loaded) =>
     SOk (set_xe_instances ((if loaded then [first] else []) ++ xe_instances d) d)).
(** parseESDTCheck.go:11-37; the instance of the short form has the zero structs
    where nothing is given. *)
Definition processCheckESDTData (name : jbytes) (v : json) : sres check_esdt :=
  match v with
  | JStr _ =>
      sbind (processCheckBigInt v UnsignedBytes) (fun z =>
      SOk (mkCheckEsdt name
             [mkCheckInst cuint_zero z cbytes_zero cuint_zero cbytes_zero cbytes_zero cbytes_zero]
             cuint_zero [] cuint_zero))
  | JMap m => processCheckESDTDataMap name m
  | _ => SErr
  end.

(** * parseAccounts.go *)

(** parseAccounts.go:69-80, 88-102: the entries of the maps of an account. *)
Definition esdt_entry_of (kv : bytes * json) : sres esdt_data :=
  sbind (bytes_of_text (fst kv)) (fun name => processESDTData name (snd kv)).
Definition storage_entry_of (kv : bytes * json) : sres (jbytes * jtree) :=
  sbind (bytes_of_text (fst kv)) (fun k =>
  sbind (processSubTreeAsByteArray (snd kv)) (fun x => SOk (k, x))).

(** parseAccounts.go:44-127: one field of an account. *)
Definition account_field (k : bytes) (v : json) (a : account) : sres account :=
  if key_is k "comment" then sbind (parseString v) (fun x => SOk (set_a_comment x a))
  else if key_is k "shard" then sbind (processUint64 v) (fun x => SOk (set_a_shard x a))
  else if key_is k "nonce" then sbind (processUint64 v) (fun x => SOk (set_a_nonce x a))
  else if key_is k "balance" then
    sbind (processBigInt v UnsignedBytes) (fun x => SOk (set_a_balance x a))
  else if key_is k "esdt" then
    sbind (as_map v) (fun m => sbind (each esdt_entry_of m) (fun l =>
    SOk (set_a_esdt (a_esdt a ++ l) a)))
  else if key_is k "username" then
    sbind (processStringAsByteArray v) (fun x => SOk (set_a_username x a))
  else if key_is k "storage" then
    sbind (as_map v) (fun m => sbind (each storage_entry_of m) (fun l =>
    SOk (set_a_storage (a_storage a ++ l) a)))
  else if key_is k "code" then
    sbind (processStringAsByteArray v) (fun x => SOk (set_a_code x a))
  else if key_is k "owner" then
    sbind (processStringAsByteArray v) (fun x => SOk (set_a_owner x a))
  else if key_is k "asyncCallData" then sbind (parseString v) (fun x => SOk (set_a_async x a))
  else SErr.
(** parseAccounts.go:22-42 *)
Definition account_start : account :=
  mkAccount jbytes_zero JSONUint64Zero [] JSONUint64Zero JSONBigIntZero (mkJBytes [] []) []
    (mkJBytes [] []) (mkJBytes [] []) [] [].
Definition processAccount (v : json) : sres account :=
  sbind (as_map v) (fun m => over account_field m account_start).
(** parseAccounts.go:131-151 *)
Definition account_entry (kv : bytes * json) : sres account :=
  sbind (processAccount (snd kv)) (fun a =>
  sbind (parseAccountAddress (fst kv)) (fun x => SOk (set_a_address x a))).
Definition processAccountMap (v : json) : sres (list account) :=
  sbind (as_map v) (each account_entry).

(** * parseAccountsCheck.go *)

(** parseAccountsCheck.go:54-69, 81-99: the entries of the maps, with "+". *)
Definition check_esdt_entry (k : bytes) (v : json) (a : check_account) : sres check_account :=
  if key_is k "+" then SOk (set_x_more_esdt true a)
  else sbind (bytes_of_text k) (fun name =>
       sbind (processCheckESDTData name v) (fun x => SOk (set_x_esdt (x_esdt a ++ [x]) a))).
Definition check_storage_entry (k : bytes) (v : json) (a : check_account) : sres check_account :=
  if key_is k "+" then SOk (set_x_more_storage true a)
  else sbind (bytes_of_text k) (fun key =>
       sbind (parseCheckBytes v) (fun x => SOk (set_x_storage (x_storage a ++ [(key, x)]) a))).

(** parseAccountsCheck.go:34-126: one field. *)
Definition check_account_field (k : bytes) (v : json) (a : check_account) : sres check_account :=
  if key_is k "comment" then sbind (parseString v) (fun x => SOk (set_x_comment x a))
  else if key_is k "nonce" then sbind (processCheckUint64 v) (fun x => SOk (set_x_nonce x a))
  else if key_is k "balance" then
    sbind (processCheckBigInt v UnsignedBytes) (fun x => SOk (set_x_balance x a))
  else if key_is k "esdt" then
    let a := set_x_ignore_esdt (IsStar v) a in
    if IsStar v then SOk a else sbind (as_map v) (fun m => over check_esdt_entry m a)
  else if key_is k "username" then sbind (parseCheckBytes v) (fun x => SOk (set_x_username x a))
  else if key_is k "storage" then
    let a := set_x_ignore_storage (IsStar v) a in
    if IsStar v then SOk a else sbind (as_map v) (fun m => over check_storage_entry m a)
  else if key_is k "code" then sbind (parseCheckBytes v) (fun x => SOk (set_x_code x a))
  else if key_is k "owner" then sbind (parseCheckBytes v) (fun x => SOk (set_x_owner x a))
  else if key_is k "asyncCallData" then sbind (parseCheckBytes v) (fun x => SOk (set_x_async x a))
  else SErr.
(** parseAccountsCheck.go:17-31 *)
Definition check_account_start : check_account :=
  mkCheckAccount jbytes_zero [] JSONCheckUint64Unspecified JSONCheckBigIntUnspecified
    JSONCheckBytesUnspecified [] false false JSONCheckBytesUnspecified JSONCheckBytesUnspecified
    JSONCheckBytesUnspecified [] false false.
Definition processCheckAccount (v : json) : sres check_account :=
  sbind (as_map v) (fun m => over check_account_field m check_account_start).
(** parseAccountsCheck.go:131-158 *)
Definition check_accounts_entry (k : bytes) (v : json) (xs : check_accounts) : sres check_accounts :=
  if key_is k "+" then SOk (mkCheckAccounts (xs_accounts xs) true)
  else sbind (processCheckAccount v) (fun a =>
       sbind (parseAccountAddress k) (fun x =>
       SOk (mkCheckAccounts (xs_accounts xs ++ [set_x_address x a]) (xs_more xs)))).
Definition processCheckAccountMap (v : json) : sres check_accounts :=
  sbind (as_map v) (fun m => over check_accounts_entry m (mkCheckAccounts [] false)).

(** * parseBlockInfo.go:11-52 *)
Definition block_field (k : bytes) (v : json) (b : block_info) : sres block_info :=
  if key_is k "blockTimestamp" then sbind (processUint64 v) (fun x => SOk (set_bi_timestamp x b))
  else if key_is k "blockNonce" then sbind (processUint64 v) (fun x => SOk (set_bi_nonce x b))
  else if key_is k "blockRound" then sbind (processUint64 v) (fun x => SOk (set_bi_round x b))
  else if key_is k "blockEpoch" then sbind (processUint64 v) (fun x => SOk (set_bi_epoch x b))
  else if key_is k "blockRandomSeed" then
    sbind (processSubTreeAsByteArray v) (fun x =>
      if (length (jt_value x) =? 48)%nat then SOk (set_bi_seed (Some x) b) else SErr)
  else SErr.
Definition processBlockInfo (v : json) : sres block_info :=
  sbind (as_map v) (fun m =>
  over block_field m (mkBlockInfo juint_zero juint_zero juint_zero juint_zero None)).

(** * parseNewAddresses.go:11-57 *)
Definition mock_field (k : bytes) (v : json) (n : new_address) : sres new_address :=
  if key_is k "creatorAddress" then sbind (address_field v) (fun x => SOk (set_na_creator x n))
  else if key_is k "creatorNonce" then sbind (processUint64 v) (fun x => SOk (set_na_nonce x n))
  else if key_is k "newAddress" then sbind (address_field v) (fun x => SOk (set_na_new x n))
  else SErr.
Definition processNewAddressMock (v : json) : sres new_address :=
  sbind (as_map v) (fun m =>
  over mock_field m (mkNewAddress jbytes_zero juint_zero jbytes_zero)).
Definition processNewAddressMocks (v : json) : sres (list new_address) :=
  sbind (as_list v) (each processNewAddressMock).

(** * parseESDTTx.go:11-43 *)
Definition esdt_tx_field (k : bytes) (v : json) (e : esdt_tx) : sres esdt_tx :=
  if key_is k "tokenIdentifier" then
    sbind (processStringAsByteArray v) (fun x => SOk (set_tx_token x e))
  else if key_is k "nonce" then sbind (processUint64 v) (fun x => SOk (set_tx_tnonce x e))
  else if key_is k "value" then
    sbind (processBigInt v UnsignedBytes) (fun x => SOk (set_tx_tvalue x e))
  else SErr.
Definition processTxESDT (v : json) : sres esdt_tx :=
  sbind (as_map v) (fun m => over esdt_tx_field m (mkEsdtTx jbytes_zero juint_zero jbig_zero)).

(** * parseTx.go:11-118 *)
Definition tx_field (ty : tx_type) (k : bytes) (v : json) (t : transaction) : sres transaction :=
  if key_is k "nonce" then sbind (processUint64 v) (fun x => SOk (set_t_nonce x t))
  else if key_is k "from" then
    if HasSender ty then sbind (address_field v) (fun x => SOk (set_t_from x t)) else SErr
  else if key_is k "to" then
    sbind (parseString v) (fun s =>
    if bool_decide (ty = ScDeploy) then match s with [] => SOk t | _ => SErr end
    else sbind (parseAccountAddress s) (fun x => SOk (set_t_to x t)))
  else if key_is k "function" then
    sbind (parseString v) (fun s =>
    if HasFunction ty || bool_decide (s = []) then SOk (set_t_function s t) else SErr)
  else if key_is k "value" then
    if HasValue ty
    then sbind (processBigInt v UnsignedBytes) (fun x => SOk (set_t_value x t)) else SErr
  else if key_is k "esdt" then
    if HasESDT ty then sbind (processTxESDT v) (fun x => SOk (set_t_esdt (Some x) t)) else SErr
  else if key_is k "arguments" then
    sbind (parseSubTreeList v) (fun l =>
    if bool_decide (ty = TxTransfer) && negb (bool_decide (length l = 0%nat)) then SErr
    else SOk (set_t_args l t))
  else if key_is k "contractCode" then
    sbind (processStringAsByteArray v) (fun x =>
    if bool_decide (ty = ScDeploy) || bool_decide (jb_value x = [])
    then SOk (set_t_code x t) else SErr)
  else if key_is k "gasPrice" then
    if HasGas ty then sbind (processUint64 v) (fun x => SOk (set_t_gasprice x t)) else SErr
  else if key_is k "gasLimit" then
    if HasGas ty then sbind (processUint64 v) (fun x => SOk (set_t_gaslimit x t)) else SErr
  else SErr.
Definition tx_start (ty : tx_type) : transaction :=
  mkTx ty juint_zero JSONBigIntZero None jbytes_zero jbytes_zero [] jbytes_zero [] juint_zero
    juint_zero.
Definition processTx (ty : tx_type) (v : json) : sres transaction :=
  sbind (as_map v) (fun m => over (tx_field ty) m (tx_start ty)).

(** * parseLogs.go:11-54 *)
Definition log_field (k : bytes) (v : json) (l : log_check) : sres log_check :=
  if key_is k "address" then sbind (parseCheckBytes v) (fun x => SOk (set_lc_address x l))
  else if key_is k "identifier" then sbind (parseCheckBytes v) (fun x => SOk (set_lc_identifier x l))
  else if key_is k "topics" then sbind (parseCheckBytesList v) (fun x => SOk (set_lc_topics x l))
  else if key_is k "data" then sbind (parseCheckBytes v) (fun x => SOk (set_lc_data x l))
  else SErr.
Definition processLog (v : json) : sres log_check :=
  sbind (as_map v) (fun m =>
  over log_field m (mkLogCheck cbytes_zero cbytes_zero [] cbytes_zero)).
Definition processLogList (v : json) : sres (list log_check) :=
  sbind (as_list v) (each processLog).

(** * parseTxResult.go:11-73.  A log that is a string is a hash; the string read
    before a list is empty. *)
Definition result_field (k : bytes) (v : json) (r : tx_result) : sres tx_result :=
  if key_is k "out" then sbind (parseCheckBytesList v) (fun x => SOk (set_tr_out x r))
  else if key_is k "status" then
    sbind (processCheckBigInt v SignedBytes) (fun x => SOk (set_tr_status x r))
  else if key_is k "message" then sbind (parseCheckBytes v) (fun x => SOk (set_tr_message x r))
  else if key_is k "logs" then
    let r := set_tr_logs_unspec false r in
    if IsStar v then SOk (set_tr_logs_star true r)
    else
      let r := set_tr_logs_star false r in
      match parseString v with
      | SOk s => SOk (set_tr_log_hash s r)
      | _ => sbind (processLogList v) (fun l => SOk (set_tr_logs l (set_tr_log_hash [] r)))
      end
  else if key_is k "gas" then sbind (processCheckUint64 v) (fun x => SOk (set_tr_gas x r))
  else if key_is k "refund" then
    sbind (processCheckBigInt v UnsignedBytes) (fun x => SOk (set_tr_refund x r))
  else SErr.
Definition result_start : tx_result :=
  mkTxResult [] JSONCheckBigIntUnspecified JSONCheckBytesUnspecified JSONCheckUint64Unspecified
    JSONCheckBigIntUnspecified true true [] [].
Definition processTxExpectedResult (v : json) : sres tx_result :=
  sbind (as_map v) (fun m => over result_field m result_start).

(** * parseScenario.go *)

(** parseScenario.go:241-279, parseTxStep. *)
Definition tx_step : Type := (bytes * bytes) * (option transaction * option tx_result).
Definition tx_step_field (ty : tx_type) (k : bytes) (v : json) (s : tx_step) : sres tx_step :=
  let '((ident, comment), (tx, expected)) := s in
  if key_is k "step" then SOk s
  else if key_is k "txId" then
    sbind (parseString v) (fun x => SOk ((x, comment), (tx, expected)))
  else if key_is k "comment" then
    sbind (parseString v) (fun x => SOk ((ident, x), (tx, expected)))
  else if key_is k "tx" then
    sbind (processTx ty v) (fun x => SOk ((ident, comment), (Some x, expected)))
  else if key_is k "expect" then
    match tx with
    | None => SPanic
    | Some t =>
        if IsSmartContractTx (t_type t)
        then sbind (processTxExpectedResult v) (fun x => SOk ((ident, comment), (tx, Some x)))
        else SErr
    end
  else SErr.
Definition parseTxStep (ty : tx_type) (m : list (bytes * json)) : sres step :=
  sbind (over (tx_step_field ty) m (([], []), (None, None)))
    (fun '((ident, comment), (tx, expected)) =>
     match tx with Some t => SOk (TxStep ident comment t expected) | None => SPanic end).

(** parseScenario.go:129-148, 149-190, 191-209, 210-225: the other steps. *)
Definition external_field (k : bytes) (v : json) (s : bytes * bytes) : sres (bytes * bytes) :=
  if key_is k "step" then SOk s
  else if key_is k "comment" then sbind (parseString v) (fun x => SOk (x, snd s))
  else if key_is k "path" then sbind (parseString v) (fun x => SOk (fst s, x))
  else SErr.
Definition set_step : Type :=
  (bytes * list account) * (option block_info * option block_info) * (list jbytes * list new_address).
Definition set_field (k : bytes) (v : json) (s : set_step) : sres set_step :=
  let '((comment, accounts), (previous, current), (hashes, mocks)) := s in
  if key_is k "step" then SOk s
  else if key_is k "comment" then
    sbind (parseString v) (fun x => SOk ((x, accounts), (previous, current), (hashes, mocks)))
  else if key_is k "accounts" then
    sbind (processAccountMap v) (fun x => SOk ((comment, x), (previous, current), (hashes, mocks)))
  else if key_is k "newAddresses" then
    sbind (processNewAddressMocks v) (fun x =>
    SOk ((comment, accounts), (previous, current), (hashes, x)))
  else if key_is k "previousBlockInfo" then
    sbind (processBlockInfo v) (fun x =>
    SOk ((comment, accounts), (Some x, current), (hashes, mocks)))
  else if key_is k "currentBlockInfo" then
    sbind (processBlockInfo v) (fun x =>
    SOk ((comment, accounts), (previous, Some x), (hashes, mocks)))
  else if key_is k "blockHashes" then
    sbind (parseByteArrayList v) (fun x =>
    SOk ((comment, accounts), (previous, current), (x, mocks)))
  else SErr.
Definition check_field (k : bytes) (v : json) (s : bytes * option check_accounts)
  : sres (bytes * option check_accounts) :=
  if key_is k "step" then SOk s
  else if key_is k "comment" then sbind (parseString v) (fun x => SOk (x, snd s))
  else if key_is k "accounts" then
    sbind (processCheckAccountMap v) (fun x => SOk (fst s, Some x))
  else SErr.
Definition dump_field (k : bytes) (v : json) (s : bytes) : sres bytes :=
  if key_is k "step" then SOk s
  else if key_is k "comment" then parseString v
  else SErr.

(** parseScenario.go:117-126: the type of a step; the last field of that name
    counts. *)
Definition step_type_field (k : bytes) (v : json) (s : bytes) : sres bytes :=
  if key_is k "step" then parseString v else SOk s.
(** parseScenario.go:111-239, processScenarioStep. *)
Definition processScenarioStep (v : json) : sres step :=
  sbind (as_map v) (fun m =>
  sbind (over step_type_field m []) (fun ty =>
  if key_is ty "externalSteps" then
    sbind (over external_field m ([], [])) (fun s => SOk (ExternalSteps (fst s) (snd s)))
  else if key_is ty "setState" then
    sbind (over set_field m (([], []), (None, None), ([], [])))
      (fun '((comment, accounts), (previous, current), (hashes, mocks)) =>
       SOk (SetState comment accounts previous current hashes mocks))
  else if key_is ty "checkState" then
    sbind (over check_field m ([], None)) (fun s => SOk (CheckState (fst s) (snd s)))
  else if key_is ty "dumpState" then sbind (over dump_field m []) (fun c => SOk (DumpState c))
  else if key_is ty "scCall" then parseTxStep ScCall m
  else if key_is ty "scDeploy" then parseTxStep ScDeploy m
  else if key_is ty "scQuery" then parseTxStep ScQuery m
  else if key_is ty "transfer" then parseTxStep TxTransfer m
  else if key_is ty "validatorReward" then parseTxStep ValidatorReward m
  else SErr)).
(** parseScenario.go:84-98 *)
Definition processScenarioStepList (v : json) : sres (list step) :=
  sbind (as_list v) (each processScenarioStep).

(** parseScenario.go:63-82 *)
Definition parseGasSchedule (v : json) : sres gas_schedule :=
  sbind (parseString v) (fun s =>
  if key_is s "default" then SOk GasDefault
  else if key_is s "dummy" then SOk GasDummy
  else if key_is s "v1" then SOk GasV1
  else if key_is s "v2" then SOk GasV2
  else if key_is s "v3" then SOk GasV3
  else SErr).

(** parseScenario.go:28-59: one field of the file. *)
Definition scenario_field (k : bytes) (v : json) (s : scenario) : sres scenario :=
  if key_is k "name" then sbind (parseString v) (fun x => SOk (set_s_name x s))
  else if key_is k "comment" then sbind (parseString v) (fun x => SOk (set_s_comment x s))
  else if key_is k "checkGas" then
    match v with JBool b => SOk (set_s_check_gas b s) | _ => SErr end
  else if key_is k "gasSchedule" then sbind (parseGasSchedule v) (fun x => SOk (set_s_gas x s))
  else if key_is k "steps" then sbind (processScenarioStepList v) (fun x => SOk (set_s_steps x s))
  else SErr.
Definition processScenario (v : json) : sres scenario :=
  sbind (as_map v) (fun m => over scenario_field m (mkScenario [] [] true GasDefault [])).
(** parseScenario.go:12-61, ParseScenarioFile. *)
Definition ParseScenarioFile (text : bytes) : sres scenario :=
  match ParseOrderedJSON text with
  | JOk (Some v) => processScenario v
  | _ => SErr
  end.
End Parse.
