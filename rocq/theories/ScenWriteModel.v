(** Writing a scenario: mandos-go/json/write.

    The keys put into one map are distinct literals except where [Put] is used,
    so a map is written as the list of its fields.  A nil interface in a map
    makes the printing panic; the writer of the model panics when it would put
    one there. *)
From Verif Require Export ScenParseModel.

Definition field (k : string) (v : json) : list (bytes * json) := [(str k, v)].
Definition field_if (b : bool) (k : string) (v : json) : list (bytes * json) :=
  if b then field k v else [].
(** len(s) > 0 *)
Definition given (s : bytes) : bool := match s with [] => false | _ => true end.

(** * writeCommon.go *)

(** writeCommon.go:113-119, 146-156 *)
Definition bigIntToOJ (i : jbig) : json := JStr (jz_orig i).
Definition checkBigIntToOJ (i : cbig) : json := JStr (cz_orig i).
Definition uint64ToOJ (i : juint) : json := JStr (ju_orig i).
Definition checkUint64ToOJ (i : cuint) : json := JStr (cu_orig i).
Definition stringToOJ (s : bytes) : json := JStr s.
(** writeCommon.go:121-130 *)
Definition bytesFromStringToString (b : jbytes) : bytes :=
  if negb (given (jb_orig b)) && given (jb_value b) then hex_encode (jb_value b) else jb_orig b.
Definition bytesFromStringToOJ (b : jbytes) : json := JStr (bytesFromStringToString b).
(** valueInit.go:34-39 *)
Definition OriginalEmpty (v : json) : bool := match v with JStr [] => true | _ => false end.
(** writeCommon.go:132-137 *)
Definition bytesFromTreeToOJ (b : jtree) : json :=
  if OriginalEmpty (jt_orig b) then JStr (hex_encode (jt_value b)) else jt_orig b.
(** writeCommon.go:139-144 *)
Definition checkBytesToOJ (c : cbytes) : sres json :=
  match cb_orig c with
  | None => SPanic
  | Some v => SOk (if OriginalEmpty v && given (cb_value c) then JStr (hex_encode (cb_value c)) else v)
  end.
(** A field that is a [checkBytesToOJ], put in if [b]. *)
Definition check_bytes_if (b : bool) (k : string) (c : cbytes) : sres (list (bytes * json)) :=
  if b then sbind (checkBytesToOJ c) (fun v => SOk (field k v)) else SOk [].

(** writeCommon.go:11-18 *)
Definition blockHashesToOJ (l : list jbytes) : json := JList (map bytesFromStringToOJ l).

(** writeCommon.go:63-78, logToOJ, and 80-88, logsToOJ. *)
Definition logToOJ (l : log_check) : sres json :=
  sbind (checkBytesToOJ (lc_address l)) (fun address =>
  sbind (checkBytesToOJ (lc_identifier l)) (fun identifier =>
  sbind (each checkBytesToOJ (lc_topics l)) (fun topics =>
  sbind (checkBytesToOJ (lc_data l)) (fun data =>
  SOk (JMap (field "address" address ++ field "identifier" identifier ++
             field "topics" (JList topics) ++ field "data" data)))))).
Definition logsToOJ (l : list log_check) : sres json :=
  sbind (each logToOJ l) (fun x => SOk (JList x)).

(** writeCommon.go:20-55, resultToOJ. *)
Definition logs_field (r : tx_result) : sres (list (bytes * json)) :=
  if tr_logs_unspec r then SOk []
  else if tr_logs_star r then SOk (field "logs" (stringToOJ (str "*")))
  else if given (tr_log_hash r) then SOk (field "logs" (stringToOJ (tr_log_hash r)))
  else sbind (logsToOJ (tr_logs r)) (fun v => SOk (field "logs" v)).
Definition resultToOJ (r : tx_result) : sres json :=
  sbind (each checkBytesToOJ (tr_out r)) (fun out =>
  sbind (check_bytes_if (negb (cb_unspec (tr_message r))) "message" (tr_message r)) (fun message =>
  sbind (logs_field r) (fun logs =>
  SOk (JMap (field "out" (JList out) ++
             field_if (negb (cz_unspec (tr_status r))) "status" (checkBigIntToOJ (tr_status r)) ++
             message ++ logs ++
             field_if (negb (cu_unspec (tr_gas r))) "gas" (checkUint64ToOJ (tr_gas r)) ++
             field_if (negb (cz_unspec (tr_refund r))) "refund" (checkBigIntToOJ (tr_refund r))))))).

(** * writeESDT.go *)

(** writeESDT.go:8-20 *)
Definition esdtTxDataToOJ (e : esdt_tx) : json :=
  JMap (field_if (given (jb_orig (tx_token e))) "tokenIdentifier" (bytesFromStringToOJ (tx_token e)) ++
        field_if (given (ju_orig (tx_tnonce e))) "nonce" (uint64ToOJ (tx_tnonce e)) ++
        field_if (given (jz_orig (tx_tvalue e))) "value" (bigIntToOJ (tx_tvalue e))).
(** writeESDT.go:71-93, appendESDTInstanceToOJ. *)
Definition instance_fields (i : esdt_inst) : list (bytes * json) :=
  field_if (given (ju_orig (ei_nonce i))) "nonce" (uint64ToOJ (ei_nonce i)) ++
  field_if (given (jz_orig (ei_balance i))) "balance" (bigIntToOJ (ei_balance i)) ++
  field_if (given (jb_orig (ei_creator i))) "creator" (bytesFromStringToOJ (ei_creator i)) ++
  field_if (given (ju_orig (ei_royalties i))) "royalties" (uint64ToOJ (ei_royalties i)) ++
  field_if (given (jb_orig (ei_hash i))) "hash" (bytesFromStringToOJ (ei_hash i)) ++
  field_if (given (jt_value (ei_uri i))) "uri" (bytesFromTreeToOJ (ei_uri i)) ++
  field_if (given (jb_orig (ei_attributes i))) "attributes" (bytesFromStringToOJ (ei_attributes i)).
(** writeESDT.go:95-109 *)
Definition isCompactESDT (d : esdt_data) : option esdt_inst :=
  match ed_instances d, ed_roles d with
  | [i], [] => if given (ju_orig (ei_nonce i)) || given (ju_orig (ed_frozen d)) then None else Some i
  | _, _ => None
  end.
Definition roles_field (l : list bytes) : list (bytes * json) :=
  field_if (negb (bool_decide (l = []))) "roles" (JList (map JStr l)).
(** writeESDT.go:30-69 *)
Definition esdtItemToOJ (d : esdt_data) : json :=
  match isCompactESDT d with
  | Some i => bigIntToOJ (ei_balance i)
  | None =>
      JMap (match ed_instances d with
            | [i] => instance_fields i
            | l => field "instances" (JList (map (fun i => JMap (instance_fields i)) l))
            end ++
            field_if (given (ju_orig (ed_last d))) "lastNonce" (uint64ToOJ (ed_last d)) ++
            roles_field (ed_roles d) ++
            field_if (given (ju_orig (ed_frozen d))) "frozen" (uint64ToOJ (ed_frozen d)))
  end.
(** writeESDT.go:22-28 *)
Definition esdtDataToOJ (l : list esdt_data) : json :=
  JMap (fold_left (fun m d => Put m (jb_orig (ed_token d)) (esdtItemToOJ d)) l []).

(** * writeESDTCheck.go *)

(** writeESDTCheck.go:60-82, appendCheckESDTInstanceToOJ; the URI is the one of
    line 78. *)
Definition check_instance_fields (i : check_inst) : sres (list (bytes * json)) :=
  let told c := negb (cb_unspec c) && given (cb_value c) in
  sbind (check_bytes_if (told (xi_creator i)) "creator" (xi_creator i)) (fun creator =>
  sbind (check_bytes_if (told (xi_hash i)) "hash" (xi_hash i)) (fun hash =>
  sbind (check_bytes_if (told (xi_uri i)) "uri" (xi_creator i)) (fun uri =>
  sbind (check_bytes_if (told (xi_attributes i)) "attributes" (xi_attributes i)) (fun attributes =>
  SOk (field_if (given (cu_orig (xi_nonce i))) "nonce" (checkUint64ToOJ (xi_nonce i)) ++
       field_if (given (cz_orig (xi_balance i))) "balance" (checkBigIntToOJ (xi_balance i)) ++
       creator ++
       field_if (negb (cu_unspec (xi_royalties i)) && given (cu_orig (xi_royalties i)))
         "royalties" (checkUint64ToOJ (xi_royalties i)) ++
       hash ++ uri ++ attributes))))).
(** writeESDTCheck.go:84-98 *)
Definition isCompactCheckESDT (d : check_esdt) : option check_inst :=
  match xe_instances d, xe_roles d with
  | [i], [] => if given (cu_orig (xi_nonce i)) || given (cu_orig (xe_frozen d)) then None else Some i
  | _, _ => None
  end.
(** writeESDTCheck.go:19-58 *)
Definition checkESDTItemToOJ (d : check_esdt) : sres json :=
  match isCompactCheckESDT d with
  | Some i => SOk (checkBigIntToOJ (xi_balance i))
  | None =>
      sbind (match xe_instances d with
             | [i] => check_instance_fields i
             | l => sbind (each (fun i => sbind (check_instance_fields i) (fun m => SOk (JMap m))) l)
                      (fun x => SOk (field "instances" (JList x)))
             end) (fun instances =>
      SOk (JMap (instances ++
                 field_if (given (cu_orig (xe_last d))) "lastNonce" (checkUint64ToOJ (xe_last d)) ++
                 roles_field (xe_roles d) ++
                 field_if (given (cu_orig (xe_frozen d))) "frozen" (checkUint64ToOJ (xe_frozen d)))))
  end.
(** A loop that puts entries into a map, then "+" if more is allowed. *)
Fixpoint put_each {A} (f : A -> sres (bytes * json)) (l : list A) (m : list (bytes * json))
  : sres (list (bytes * json)) :=
  match l with
  | [] => SOk m
  | x :: r => sbind (f x) (fun kv => put_each f r (Put m (fst kv) (snd kv)))
  end.
Definition plus_if (b : bool) (m : list (bytes * json)) : json :=
  JMap (if b then Put m (str "+") (stringToOJ []) else m).
(** writeESDTCheck.go:8-17 *)
Definition checkESDTDataToOJ (l : list check_esdt) (more : bool) : sres json :=
  sbind (put_each (fun d => sbind (checkESDTItemToOJ d) (fun v => SOk (jb_orig (xe_token d), v))) l [])
    (fun m => SOk (plus_if more m)).

(** * writeAccount.go *)

(** writeAccount.go:12-37: one account. *)
Definition accountToOJ (a : account) : json :=
  JMap (field_if (given (a_comment a)) "comment" (stringToOJ (a_comment a)) ++
        field "nonce" (uint64ToOJ (a_nonce a)) ++
        field "balance" (bigIntToOJ (a_balance a)) ++
        field_if (negb (bool_decide (length (a_esdt a) = 0%nat))) "esdt" (esdtDataToOJ (a_esdt a)) ++
        field_if (given (jb_value (a_username a))) "username" (bytesFromStringToOJ (a_username a)) ++
        field "storage" (JMap (fold_left (fun m kv =>
          Put m (bytesFromStringToString (fst kv)) (bytesFromTreeToOJ (snd kv))) (a_storage a) [])) ++
        field "code" (bytesFromStringToOJ (a_code a)) ++
        field_if (given (jb_value (a_owner a))) "owner" (bytesFromStringToOJ (a_owner a)) ++
        field_if (given (a_async a)) "asyncCallData" (stringToOJ (a_async a))).
(** writeAccount.go:9-41 *)
Definition AccountsToOJ (l : list account) : json :=
  JMap (fold_left (fun m a => Put m (bytesFromStringToString (a_address a)) (accountToOJ a)) l []).

(** writeAccount.go:45-90: one account of a checkState step. *)
Definition check_esdt_fields (a : check_account) : sres (list (bytes * json)) :=
  if x_ignore_esdt a then SOk (field "esdt" (stringToOJ (str "*")))
  else match x_esdt a with
       | [] => SOk []
       | l => sbind (checkESDTDataToOJ l (x_more_esdt a)) (fun v => SOk (field "esdt" v))
       end.
Definition check_storage_fields (a : check_account) : sres (list (bytes * json)) :=
  if x_ignore_storage a then SOk (field "storage" (stringToOJ (str "*")))
  else sbind (put_each (fun kv : jbytes * cbytes =>
                sbind (checkBytesToOJ (snd kv)) (fun v => SOk (bytesFromStringToString (fst kv), v)))
                (x_storage a) [])
         (fun m => SOk (field "storage" (plus_if (x_more_storage a) m))).
Definition checkAccountToOJ (a : check_account) : sres json :=
  let told c k := check_bytes_if (negb (cb_unspec c)) k c in
  sbind (check_esdt_fields a) (fun esdt =>
  sbind (told (x_username a) "username"%string) (fun username =>
  sbind (check_storage_fields a) (fun storage =>
  sbind (told (x_code a) "code"%string) (fun code =>
  sbind (told (x_owner a) "owner"%string) (fun owner =>
  sbind (told (x_async a) "asyncCallData"%string) (fun async =>
  SOk (JMap (field_if (given (x_comment a)) "comment" (stringToOJ (x_comment a)) ++
             field_if (negb (cu_unspec (x_nonce a))) "nonce" (checkUint64ToOJ (x_nonce a)) ++
             field_if (negb (cz_unspec (x_balance a))) "balance" (checkBigIntToOJ (x_balance a)) ++
             esdt ++ username ++ storage ++ code ++ owner ++ async)))))))).
(** writeAccount.go:43-97; a missing list of accounts (nil) panics. *)
Definition checkAccountsToOJ (xs : option check_accounts) : sres json :=
  match xs with
  | None => SPanic
  | Some xs =>
      sbind (put_each (fun a => sbind (checkAccountToOJ a) (fun v =>
               SOk (bytesFromStringToString (x_address a), v))) (xs_accounts xs) [])
        (fun m => SOk (plus_if (xs_more xs) m))
  end.

(** * writeScenario.go *)

(** writeScenario.go:94-131, transactionToScenarioOJ. *)
Definition transactionToScenarioOJ (t : transaction) : json :=
  let ty := t_type t in
  JMap (field_if (HasSender ty) "from" (bytesFromStringToOJ (t_from t)) ++
        field_if (HasReceiver ty) "to" (bytesFromStringToOJ (t_to t)) ++
        field_if (HasValue ty) "value" (bigIntToOJ (t_value t)) ++
        match t_esdt t with Some e => field "esdt" (esdtTxDataToOJ e) | None => [] end ++
        field_if (HasFunction ty) "function" (stringToOJ (t_function t)) ++
        field_if (bool_decide (ty = ScDeploy)) "contractCode" (bytesFromStringToOJ (t_code t)) ++
        field_if (HasFunction ty || bool_decide (ty = ScDeploy)) "arguments"
          (JList (map bytesFromTreeToOJ (t_args t))) ++
        field_if (HasGas ty) "gasLimit" (uint64ToOJ (t_gaslimit t)) ++
        field_if (HasGas ty) "gasPrice" (uint64ToOJ (t_gasprice t))).
(** writeScenario.go:133-144 *)
Definition newAddressMockToOJ (n : new_address) : json :=
  JMap (field "creatorAddress" (bytesFromStringToOJ (na_creator n)) ++
        field "creatorNonce" (uint64ToOJ (na_nonce n)) ++
        field "newAddress" (bytesFromStringToOJ (na_new n))).
(** writeScenario.go:146-165 *)
Definition blockInfoToOJ (b : block_info) : json :=
  JMap (field_if (given (ju_orig (bi_timestamp b))) "blockTimestamp" (uint64ToOJ (bi_timestamp b)) ++
        field_if (given (ju_orig (bi_nonce b))) "blockNonce" (uint64ToOJ (bi_nonce b)) ++
        field_if (given (ju_orig (bi_round b))) "blockRound" (uint64ToOJ (bi_round b)) ++
        field_if (given (ju_orig (bi_epoch b))) "blockEpoch" (uint64ToOJ (bi_epoch b)) ++
        match bi_seed b with
        | Some s => field "blockRandomSeed" (bytesFromTreeToOJ s)
        | None => []
        end).
(** writeScenario.go:167-182 *)
Definition gasScheduleToOJ (g : gas_schedule) : json :=
  stringToOJ (str match g with
                  | GasDefault => "default" | GasDummy => "dummy"
                  | GasV1 => "v1" | GasV2 => "v2" | GasV3 => "v3"
                  end).
(** structScenario.go:74-134, StepTypeName. *)
Definition StepTypeName (s : step) : string :=
  match s with
  | ExternalSteps _ _ => "externalSteps"
  | SetState _ _ _ _ _ _ => "setState"
  | CheckState _ _ => "checkState"
  | DumpState _ => "dumpState"
  | TxStep _ _ t _ =>
      match t_type t with
      | ScCall => "scCall" | ScDeploy => "scDeploy" | ScQuery => "scQuery"
      | TxTransfer => "transfer" | ValidatorReward => "validatorReward"
      end
  end.
(** writeScenario.go:36-85: one step. *)
Definition block_field_of (k : string) (b : option block_info) : list (bytes * json) :=
  match b with Some b => field k (blockInfoToOJ b) | None => [] end.
Definition some_of {A} (l : list A) : bool := match l with [] => false | _ => true end.
Definition stepToOJ (s : step) : sres json :=
  let name := field "step" (stringToOJ (str (StepTypeName s))) in
  let comment_of c := field_if (given c) "comment" (stringToOJ c) in
  match s with
  | ExternalSteps c path => SOk (JMap (name ++ comment_of c ++ field "path" (stringToOJ path)))
  | SetState c accounts previous current hashes mocks =>
      SOk (JMap (name ++ comment_of c ++
        field_if (some_of accounts) "accounts" (AccountsToOJ accounts) ++
        field_if (some_of mocks) "newAddresses" (JList (map newAddressMockToOJ mocks)) ++
        block_field_of "previousBlockInfo" previous ++
        block_field_of "currentBlockInfo" current ++
        field_if (some_of hashes) "blockHashes" (blockHashesToOJ hashes)))
  | CheckState c xs =>
      sbind (checkAccountsToOJ xs) (fun v => SOk (JMap (name ++ comment_of c ++ field "accounts" v)))
  | DumpState c => SOk (JMap (name ++ comment_of c))
  | TxStep ident c t expected =>
      sbind (match expected with
             | Some r => if IsSmartContractTx (t_type t)
                         then sbind (resultToOJ r) (fun v => SOk (field "expect" v)) else SOk []
             | None => SOk []
             end) (fun expect =>
      SOk (JMap (name ++ field_if (given ident) "txId" (stringToOJ ident) ++ comment_of c ++
                 field "tx" (transactionToScenarioOJ t) ++ expect)))
  end.
(** writeScenario.go:15-92, ScenarioToOrderedJSON. *)
Definition ScenarioToOrderedJSON (s : scenario) : sres json :=
  sbind (each stepToOJ (s_steps s)) (fun steps =>
  SOk (JMap (field_if (given (s_name s)) "name" (stringToOJ (s_name s)) ++
             field_if (given (s_comment s)) "comment" (stringToOJ (s_comment s)) ++
             field_if (negb (s_check_gas s)) "checkGas" (JBool false) ++
             field "gasSchedule" (gasScheduleToOJ (s_gas s)) ++
             field "steps" (JList steps)))).
(** writeScenario.go:9-12 *)
Definition ScenarioToJSONString (s : scenario) : sres bytes :=
  sbind (ScenarioToOrderedJSON s) (fun v => SOk (JSONString v ++ [cNewline])).
