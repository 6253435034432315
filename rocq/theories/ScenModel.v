(** Scenarios as data: mandos-go/json/model, with the conditions of
    valueCheck.go.

    A [*big.Int] that may be nil is an [option Z].  [Original] fields keep what
    was written in the file; a Go string is a byte string. *)
From Verif Require Export MandosModel VmTypes.

(** A value, an error, or a Go panic. *)
Inductive sres (A : Type) : Type := SOk (a : A) | SErr | SPanic.
Arguments SOk {A} a.
Arguments SErr {A}.
Arguments SPanic {A}.

Definition sbind {A B} (r : sres A) (k : A -> sres B) : sres B :=
  match r with SOk a => k a | SErr => SErr | SPanic => SPanic end.

(** * valueInit.go:10-67 *)
Record jbytes := mkJBytes { jb_value : bytes; jb_orig : bytes }.
Record jtree := mkJTree { jt_value : bytes; jt_orig : json }.
Record jbig := mkJBig { jz_value : option Z; jz_orig : bytes }.
Record juint := mkJUint { ju_value : Z; ju_orig : bytes }.

(** * valueCheck.go *)

(** valueCheck.go:13-18; Original is an interface and may be nil. *)
Record cbytes := mkCBytes {
  cb_value : bytes; cb_star : bool; cb_orig : option json; cb_unspec : bool }.
(** valueCheck.go:75-80 *)
Record cbig := mkCBig {
  cz_value : option Z; cz_star : bool; cz_orig : bytes; cz_unspec : bool }.
(** valueCheck.go:109-114 *)
Record cuint := mkCUint {
  cu_value : Z; cu_star : bool; cu_orig : bytes; cu_unspec : bool }.

(** valueCheck.go:21-28, 31-38 *)
Definition JSONCheckBytesUnspecified : cbytes := mkCBytes [] false (Some (JStr [])) true.
Definition JSONCheckBytesStar : cbytes := mkCBytes [] true (Some (JStr (str "*"))) false.
(** valueCheck.go:83-90, 117-124 *)
Definition JSONCheckBigIntUnspecified : cbig := mkCBig (Some 0) false [] true.
Definition JSONCheckUint64Unspecified : cuint := mkCUint 0 false [] true.

(** The zero values of the structs. *)
Definition cbytes_zero : cbytes := mkCBytes [] false None false.
Definition cuint_zero : cuint := mkCUint 0 false [] false.
Definition jbytes_zero : jbytes := mkJBytes [] [].
(** The zero [Original] of a JSONBytesFromTree is a nil interface, written here
    as the empty string: nothing reads it where the value is empty. *)
Definition jtree_zero : jtree := mkJTree [] (JStr []).
Definition juint_zero : juint := mkJUint 0 [].
Definition jbig_zero : jbig := mkJBig None [].

(** valueCheck.go:65-70, (JSONCheckBytes) Check. *)
Definition checkBytes (c : cbytes) (other : bytes) : bool :=
  cb_star c || bool_decide (cb_value c = other).
(** valueCheck.go:99-104, (JSONCheckBigInt) Check; Cmp of a nil number panics. *)
Definition checkBigInt (c : cbig) (other : Z) : sres bool :=
  if cz_star c then SOk true
  else match cz_value c with
       | Some v => SOk (v =? other)
       | None => SPanic
       end.
(** valueCheck.go:133-138, (JSONCheckUint64) Check. *)
Definition checkUint64 (c : cuint) (other : Z) : bool :=
  cu_star c || (cu_value c =? other).

(** * esdt.go:4-8 *)
Record esdt_tx := mkEsdtTx { tx_token : jbytes; tx_tnonce : juint; tx_tvalue : jbig }.
(** esdt.go:11-19 *)
Record esdt_inst := mkEsdtInst {
  ei_nonce : juint; ei_balance : jbig; ei_creator : jbytes; ei_royalties : juint;
  ei_hash : jbytes; ei_uri : jtree; ei_attributes : jbytes }.
(** esdt.go:22-28 *)
Record esdt_data := mkEsdtData {
  ed_token : jbytes; ed_instances : list esdt_inst; ed_last : juint;
  ed_roles : list bytes; ed_frozen : juint }.
(** esdt.go:31-39 *)
Record check_inst := mkCheckInst {
  xi_nonce : cuint; xi_balance : cbig; xi_creator : cbytes; xi_royalties : cuint;
  xi_hash : cbytes; xi_uri : cbytes; xi_attributes : cbytes }.
(** esdt.go:42-52, NewCheckESDTInstance *)
Definition NewCheckESDTInstance : check_inst :=
  mkCheckInst JSONCheckUint64Unspecified JSONCheckBigIntUnspecified
    JSONCheckBytesUnspecified JSONCheckUint64Unspecified JSONCheckBytesUnspecified
    JSONCheckBytesUnspecified JSONCheckBytesUnspecified.
(** esdt.go:55-61 *)
Record check_esdt := mkCheckEsdt {
  xe_token : jbytes; xe_instances : list check_inst; xe_last : cuint;
  xe_roles : list bytes; xe_frozen : cuint }.

(** * account.go *)

(** account.go:6-19.  IsSmartContract is never read and left out. *)
Record account := mkAccount {
  a_address : jbytes; a_shard : juint; a_comment : bytes; a_nonce : juint;
  a_balance : jbig; a_username : jbytes; a_storage : list (jbytes * jtree);
  a_code : jbytes; a_owner : jbytes; a_async : bytes; a_esdt : list esdt_data }.
(** account.go:28-43 *)
Record check_account := mkCheckAccount {
  x_address : jbytes; x_comment : bytes; x_nonce : cuint; x_balance : cbig;
  x_username : cbytes; x_storage : list (jbytes * cbytes);
  x_ignore_storage : bool; x_more_storage : bool;
  x_code : cbytes; x_owner : cbytes; x_async : cbytes;
  x_esdt : list check_esdt; x_ignore_esdt : bool; x_more_esdt : bool }.
(** account.go:52-55 *)
Record check_accounts := mkCheckAccounts {
  xs_accounts : list check_account; xs_more : bool }.

(** account.go:68-75, FindCheckAccount *)
Definition FindCheckAccount (accounts : list check_account) (address : bytes)
  : option check_account :=
  List.find (fun x => bool_decide (jb_value (x_address x) = address)) accounts.

(** * transaction.go:4-23 *)
Inductive tx_type := ScDeploy | ScCall | ScQuery | TxTransfer | ValidatorReward.
Global Instance tx_type_eq_dec : EqDecision tx_type.
Proof. solve_decision. Defined.

(** transaction.go:26-58 *)
Definition HasSender (t : tx_type) : bool :=
  match t with ScQuery | ValidatorReward => false | _ => true end.
Definition HasReceiver (t : tx_type) : bool :=
  match t with ScDeploy => false | _ => true end.
Definition IsSmartContractTx (t : tx_type) : bool :=
  match t with ScDeploy | ScCall | ScQuery => true | _ => false end.
Definition HasValue (t : tx_type) : bool :=
  match t with ScQuery => false | _ => true end.
Definition HasESDT (t : tx_type) : bool :=
  match t with ScQuery | ValidatorReward => false | _ => true end.
Definition HasFunction (t : tx_type) : bool :=
  match t with ScCall | ScQuery => true | _ => false end.
Definition HasGas (t : tx_type) : bool :=
  match t with ScDeploy | ScCall => true | _ => HasESDT t end.

(** transaction.go:61-73 *)
Record transaction := mkTx {
  t_type : tx_type; t_nonce : juint; t_value : jbig; t_esdt : option esdt_tx;
  t_from : jbytes; t_to : jbytes; t_function : bytes; t_code : jbytes;
  t_args : list jtree; t_gasprice : juint; t_gaslimit : juint }.
(** transaction.go:89-94 *)
Record log_check := mkLogCheck {
  lc_address : cbytes; lc_identifier : cbytes; lc_topics : list cbytes;
  lc_data : cbytes }.
(** transaction.go:76-86 *)
Record tx_result := mkTxResult {
  tr_out : list cbytes; tr_status : cbig; tr_message : cbytes; tr_gas : cuint;
  tr_refund : cbig; tr_logs_star : bool; tr_logs_unspec : bool;
  tr_log_hash : bytes; tr_logs : list log_check }.

(** * structScenario.go:18-22, 25-31 *)
Record new_address := mkNewAddress {
  na_creator : jbytes; na_nonce : juint; na_new : jbytes }.
Record block_info := mkBlockInfo {
  bi_timestamp : juint; bi_nonce : juint; bi_round : juint; bi_epoch : juint;
  bi_seed : option jtree }.
(** structScenario.go:34-66: the steps.  A missing CheckAccounts (nil) is None. *)
Inductive step :=
| ExternalSteps (comment path : bytes)
| SetState (comment : bytes) (accounts : list account)
    (previous current : option block_info) (hashes : list jbytes)
    (mocks : list new_address)
| CheckState (comment : bytes) (accounts : option check_accounts)
| DumpState (comment : bytes)
| TxStep (ident comment : bytes) (tx : transaction) (expected : option tx_result).
(** gasSchedule.go, structScenario.go:4-10 *)
Inductive gas_schedule := GasDefault | GasDummy | GasV1 | GasV2 | GasV3.
Record scenario := mkScenario {
  s_name : bytes; s_comment : bytes; s_check_gas : bool; s_gas : gas_schedule;
  s_steps : list step }.
