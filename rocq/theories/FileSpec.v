(** What a scenario file says: the fields it may have, what each means, and what
    holds where one is missing.  No function of the reader is used; [expr] and
    [tree] (MandosSpec) give texts and subtrees their bytes, [be_value] and
    [twos_value] (CodecSpec) give bytes their numbers. *)
From Verif Require Import Base CodecSpec JsonModel MandosSpec.
From Verif Require Export ScenModel.
From stdpp Require Import list.
Local Open Scope Z_scope.

(** * Fields *)

Definition given (m : list (bytes * json)) (k : string) (v : json) : Prop := (str k, v) ∈ m.
Definition missing (m : list (bytes * json)) (k : string) : Prop := forall v, ~ given m k v.
Definition only (m : list (bytes * json)) (ks : list string) : Prop :=
  Forall (fun kv => fst kv ∈ map str ks) m.
(** The field [k] says [x]; if it is missing, [x] is [d]. *)
Definition at_key {A} (m : list (bytes * json)) (k : string) (R : json -> A -> Prop) (d x : A) : Prop :=
  (exists v, given m k v /\ R v x) \/ (missing m k /\ x = d).

Definition list_of {A} (R : json -> A -> Prop) (v : json) (l : list A) : Prop :=
  exists vs, v = JList vs /\ Forall2 R vs l.
Definition map_of {A} (R : bytes * json -> A -> Prop) (v : json) (l : list A) : Prop :=
  exists m, v = JMap m /\ Forall2 R m l.
Definition some_of {A} (R : json -> A -> Prop) (v : json) (x : option A) : Prop :=
  exists y, x = Some y /\ R v y.
Definition star : json := JStr (str "*").
Definition text (v : json) (s : bytes) : Prop := v = JStr s.

Section File.
Context (files : bytes -> option bytes) (keccak : bytes -> bytes).
Notation expr := (expr files keccak).
Notation tree := (tree files keccak).

(** * Values; each keeps the text it was written with *)

Definition key_bytes (s : bytes) (x : jbytes) : Prop := jb_orig x = s /\ expr s (jb_value x).
Definition plain_bytes (v : json) (x : jbytes) : Prop := exists s, v = JStr s /\ key_bytes s x.
Definition tree_bytes (v : json) (x : jtree) : Prop := jt_orig x = v /\ tree v (jt_value x).
Definition key_address (s : bytes) (x : jbytes) : Prop :=
  s <> [] /\ key_bytes s x /\ length (jb_value x) = 32%nat.
Definition address (v : json) (x : jbytes) : Prop := exists s, v = JStr s /\ key_address s x.
Definition natural (v : json) (x : jbig) : Prop :=
  v = JStr (jz_orig x) /\ exists b, expr (jz_orig x) b /\ jz_value x = Some (be_value b).
Definition integer (v : json) (x : jbig) : Prop :=
  v = JStr (jz_orig x) /\ exists b, expr (jz_orig x) b /\ jz_value x = Some (twos_value b).
Definition word (v : json) (x : juint) : Prop :=
  v = JStr (ju_orig x) /\
  exists b, expr (ju_orig x) b /\ ju_value x = be_value b /\ be_value b < 2 ^ 64.

(** What a value is checked against: a star for anything. *)
Definition bytes_check (v : json) (c : cbytes) : Prop :=
  (v = star /\ c = mkCBytes [] true (Some star) false) \/
  (v <> star /\ exists b, tree v b /\ c = mkCBytes b false (Some v) false).
Definition big_check (R : json -> jbig -> Prop) (v : json) (c : cbig) : Prop :=
  (v = star /\ c = mkCBig None true (str "*") false) \/
  (v <> star /\ exists z, R v z /\ c = mkCBig (jz_value z) false (jz_orig z) false).
Definition word_check (v : json) (c : cuint) : Prop :=
  (v = star /\ c = mkCUint 0 true (str "*") false) \/
  (v <> star /\ exists u, word v u /\ c = mkCUint (ju_value u) false (ju_orig u) false).
Definition any_bytes : cbytes := mkCBytes [] false (Some (JStr [])) true.
Definition any_big : cbig := mkCBig (Some 0) false [] true.
Definition any_word : cuint := mkCUint 0 false [] true.

(** * Tokens *)

Definition inst_keys : list string :=
  ["nonce"; "balance"; "creator"; "royalties"; "hash"; "uri"; "attributes"]%string.
Definition inst_fields (m : list (bytes * json)) (i : esdt_inst) : Prop :=
  at_key m "nonce" word (mkJUint 0 []) (ei_nonce i) /\
  at_key m "balance" natural (mkJBig None []) (ei_balance i) /\
  at_key m "creator" (fun v x => plain_bytes v x /\ length (jb_value x) = 32%nat)
    (mkJBytes [] []) (ei_creator i) /\
  at_key m "royalties" (fun v x => word v x /\ ju_value x <= 10000) (mkJUint 0 []) (ei_royalties i) /\
  at_key m "hash" plain_bytes (mkJBytes [] []) (ei_hash i) /\
  at_key m "uri" tree_bytes (mkJTree [] (JStr [])) (ei_uri i) /\
  at_key m "attributes" plain_bytes (mkJBytes [] []) (ei_attributes i).
Definition inst (v : json) (i : esdt_inst) : Prop :=
  exists m, v = JMap m /\ only m inst_keys /\ inst_fields m i.

Definition some_inst_key (m : list (bytes * json)) : Prop :=
  Exists (fun kv => fst kv ∈ map str inst_keys) m.
(** A first instance may stand directly in the map of the token, the others in
    the list of instances. *)
Definition first_then {A} (m : list (bytes * json)) (first : A) (others all : list A) : Prop :=
  (some_inst_key m /\ all = first :: others) \/ (~ some_inst_key m /\ all = others).
Definition token_keys : list string := ["instances"; "lastNonce"; "roles"; "frozen"]%string.
Definition token (kv : bytes * json) (d : esdt_data) : Prop :=
  key_bytes (fst kv) (ed_token d) /\
  ((exists z, natural (snd kv) z /\
      ed_instances d = [mkEsdtInst (mkJUint 0 []) z (mkJBytes [] []) (mkJUint 0 []) (mkJBytes [] [])
                          (mkJTree [] (JStr [])) (mkJBytes [] [])] /\
      ed_last d = mkJUint 0 [] /\ ed_roles d = [] /\ ed_frozen d = mkJUint 0 []) \/
   (exists m first others, snd kv = JMap m /\ only m (inst_keys ++ token_keys) /\
      inst_fields m first /\ at_key m "instances" (list_of inst) [] others /\
      first_then m first others (ed_instances d) /\
      at_key m "lastNonce" word (mkJUint 0 []) (ed_last d) /\
      at_key m "roles" (list_of text) [] (ed_roles d) /\
      at_key m "frozen" word (mkJUint 0 []) (ed_frozen d))).

Definition check_inst_fields (m : list (bytes * json)) (i : check_inst) : Prop :=
  at_key m "nonce" word_check any_word (xi_nonce i) /\
  at_key m "balance" (big_check natural) any_big (xi_balance i) /\
  at_key m "creator" bytes_check any_bytes (xi_creator i) /\
  at_key m "royalties" (fun v x => word_check v x /\ cu_value x <= 10000) any_word (xi_royalties i) /\
  at_key m "hash" bytes_check any_bytes (xi_hash i) /\
  at_key m "uri" bytes_check any_bytes (xi_uri i) /\
  at_key m "attributes" bytes_check any_bytes (xi_attributes i).
Definition inst_check (v : json) (i : check_inst) : Prop :=
  exists m, v = JMap m /\ only m inst_keys /\ check_inst_fields m i.
Definition none_bytes : cbytes := mkCBytes [] false None false.
Definition none_word : cuint := mkCUint 0 false [] false.
Definition token_check (kv : bytes * json) (d : check_esdt) : Prop :=
  key_bytes (fst kv) (xe_token d) /\
  ((exists s z, snd kv = JStr s /\ big_check natural (snd kv) z /\
      xe_instances d = [mkCheckInst none_word z none_bytes none_word none_bytes none_bytes none_bytes] /\
      xe_last d = none_word /\ xe_roles d = [] /\ xe_frozen d = none_word) \/
   (exists m first others, snd kv = JMap m /\ only m (inst_keys ++ token_keys) /\
      check_inst_fields m first /\ at_key m "instances" (list_of inst_check) [] others /\
      first_then m first others (xe_instances d) /\
      at_key m "lastNonce" word_check none_word (xe_last d) /\
      at_key m "roles" (list_of text) [] (xe_roles d) /\
      at_key m "frozen" word_check none_word (xe_frozen d))).

(** * Accounts *)

Definition storage_entry (kv : bytes * json) (x : jbytes * jtree) : Prop :=
  key_bytes (fst kv) (fst x) /\ tree_bytes (snd kv) (snd x).
Definition account_said (kv : bytes * json) (a : account) : Prop :=
  key_address (fst kv) (a_address a) /\
  exists m, snd kv = JMap m /\
  only m ["comment"; "shard"; "nonce"; "balance"; "esdt"; "username"; "storage"; "code"; "owner";
          "asyncCallData"]%string /\
  at_key m "comment" text [] (a_comment a) /\
  at_key m "shard" word (mkJUint 0 []) (a_shard a) /\
  at_key m "nonce" word (mkJUint 0 []) (a_nonce a) /\
  at_key m "balance" natural (mkJBig (Some 0) []) (a_balance a) /\
  at_key m "esdt" (map_of token) [] (a_esdt a) /\
  at_key m "username" plain_bytes (mkJBytes [] []) (a_username a) /\
  at_key m "storage" (map_of storage_entry) [] (a_storage a) /\
  at_key m "code" plain_bytes (mkJBytes [] []) (a_code a) /\
  at_key m "owner" plain_bytes (mkJBytes [] []) (a_owner a) /\
  at_key m "asyncCallData" text [] (a_async a).

(** A map to be checked: a star for "do not look", and among its keys "+" for
    "there may be others". *)
Definition no_plus (m : list (bytes * json)) : list (bytes * json) :=
  filter (fun kv => fst kv <> str "+") m.
Definition has_plus (m : list (bytes * json)) (more : bool) : Prop :=
  more = true <-> exists v, given m "+" v.
Definition map_check {A} (R : bytes * json -> A -> Prop) (v : json) (x : bool * bool * list A) : Prop :=
  (v = star /\ x = (true, false, [])) \/
  (exists m more l, v = JMap m /\ x = (false, more, l) /\ has_plus m more /\ Forall2 R (no_plus m) l).
Definition storage_check (kv : bytes * json) (x : jbytes * cbytes) : Prop :=
  key_bytes (fst kv) (fst x) /\ bytes_check (snd kv) (snd x).
Definition account_check (kv : bytes * json) (a : check_account) : Prop :=
  key_address (fst kv) (x_address a) /\
  exists m, snd kv = JMap m /\
  only m ["comment"; "nonce"; "balance"; "esdt"; "username"; "storage"; "code"; "owner";
          "asyncCallData"]%string /\
  at_key m "comment" text [] (x_comment a) /\
  at_key m "nonce" word_check any_word (x_nonce a) /\
  at_key m "balance" (big_check natural) any_big (x_balance a) /\
  at_key m "esdt" (map_check token_check) (false, false, [])
    (x_ignore_esdt a, x_more_esdt a, x_esdt a) /\
  at_key m "username" bytes_check any_bytes (x_username a) /\
  at_key m "storage" (map_check storage_check) (false, false, [])
    (x_ignore_storage a, x_more_storage a, x_storage a) /\
  at_key m "code" bytes_check any_bytes (x_code a) /\
  at_key m "owner" bytes_check any_bytes (x_owner a) /\
  at_key m "asyncCallData" bytes_check any_bytes (x_async a).
Definition accounts_check (v : json) (xs : check_accounts) : Prop :=
  exists m, v = JMap m /\ has_plus m (xs_more xs) /\ Forall2 account_check (no_plus m) (xs_accounts xs).

(** * Blocks and addresses to be given out *)

Definition block_said (v : json) (b : block_info) : Prop :=
  exists m, v = JMap m /\
  only m ["blockTimestamp"; "blockNonce"; "blockRound"; "blockEpoch"; "blockRandomSeed"]%string /\
  at_key m "blockTimestamp" word (mkJUint 0 []) (bi_timestamp b) /\
  at_key m "blockNonce" word (mkJUint 0 []) (bi_nonce b) /\
  at_key m "blockRound" word (mkJUint 0 []) (bi_round b) /\
  at_key m "blockEpoch" word (mkJUint 0 []) (bi_epoch b) /\
  at_key m "blockRandomSeed"
    (some_of (fun v x => tree_bytes v x /\ length (jt_value x) = 48%nat)) None (bi_seed b).
Definition mock (v : json) (n : new_address) : Prop :=
  exists m, v = JMap m /\ only m ["creatorAddress"; "creatorNonce"; "newAddress"]%string /\
  at_key m "creatorAddress" address (mkJBytes [] []) (na_creator n) /\
  at_key m "creatorNonce" word (mkJUint 0 []) (na_nonce n) /\
  at_key m "newAddress" address (mkJBytes [] []) (na_new n).

(** * Transactions *)

Definition token_sent (v : json) (e : esdt_tx) : Prop :=
  exists m, v = JMap m /\ only m ["tokenIdentifier"; "nonce"; "value"]%string /\
  at_key m "tokenIdentifier" plain_bytes (mkJBytes [] []) (tx_token e) /\
  at_key m "nonce" word (mkJUint 0 []) (tx_tnonce e) /\
  at_key m "value" natural (mkJBig None []) (tx_tvalue e).

(** Neither a query nor a reward. *)
Definition paid (ty : tx_type) : Prop := ty = ScDeploy \/ ty = ScCall \/ ty = TxTransfer.
Definition on_contract (ty : tx_type) : Prop := ty = ScDeploy \/ ty = ScCall \/ ty = ScQuery.
Definition tx_said (ty : tx_type) (v : json) (t : transaction) : Prop :=
  exists m, v = JMap m /\ t_type t = ty /\
  only m ["nonce"; "from"; "to"; "function"; "value"; "esdt"; "arguments"; "contractCode";
          "gasPrice"; "gasLimit"]%string /\
  at_key m "nonce" word (mkJUint 0 []) (t_nonce t) /\
  at_key m "from" (fun v x => paid ty /\ address v x) (mkJBytes [] []) (t_from t) /\
  at_key m "to" (fun v x => (ty = ScDeploy /\ v = JStr [] /\ x = mkJBytes [] []) \/
                            (ty <> ScDeploy /\ address v x)) (mkJBytes [] []) (t_to t) /\
  at_key m "function" (fun v s => text v s /\ (ty = ScCall \/ ty = ScQuery \/ s = [])) [] (t_function t) /\
  at_key m "value" (fun v x => ty <> ScQuery /\ natural v x) (mkJBig (Some 0) []) (t_value t) /\
  at_key m "esdt" (fun v x => paid ty /\ some_of token_sent v x) None (t_esdt t) /\
  at_key m "arguments" (fun v l => list_of tree_bytes v l /\ (ty = TxTransfer -> l = [])) [] (t_args t) /\
  at_key m "contractCode" (fun v x => plain_bytes v x /\ (ty = ScDeploy \/ jb_value x = []))
    (mkJBytes [] []) (t_code t) /\
  at_key m "gasPrice" (fun v x => paid ty /\ word v x) (mkJUint 0 []) (t_gasprice t) /\
  at_key m "gasLimit" (fun v x => paid ty /\ word v x) (mkJUint 0 []) (t_gaslimit t).

Definition log_said (v : json) (l : log_check) : Prop :=
  exists m, v = JMap m /\ only m ["address"; "identifier"; "topics"; "data"]%string /\
  at_key m "address" bytes_check none_bytes (lc_address l) /\
  at_key m "identifier" bytes_check none_bytes (lc_identifier l) /\
  at_key m "topics" (list_of bytes_check) [] (lc_topics l) /\
  at_key m "data" bytes_check none_bytes (lc_data l).
(** Logs: a star, a hash, or a list. *)
Definition logs_said (v : json) (x : bool * bool * bytes * list log_check) : Prop :=
  (v = star /\ x = (true, false, [], [])) \/
  (v <> star /\ exists h, v = JStr h /\ x = (false, false, h, [])) \/
  (exists l, list_of log_said v l /\ x = (false, false, [], l)).
Definition result_said (v : json) (r : tx_result) : Prop :=
  exists m, v = JMap m /\ only m ["out"; "status"; "message"; "logs"; "gas"; "refund"]%string /\
  at_key m "out" (list_of bytes_check) [] (tr_out r) /\
  at_key m "status" (big_check integer) any_big (tr_status r) /\
  at_key m "message" bytes_check any_bytes (tr_message r) /\
  at_key m "logs" logs_said (true, true, [], [])
    (tr_logs_star r, tr_logs_unspec r, tr_log_hash r, tr_logs r) /\
  at_key m "gas" word_check any_word (tr_gas r) /\
  at_key m "refund" (big_check natural) any_big (tr_refund r).

(** * Steps *)

Definition tx_name (ty : tx_type) : string :=
  match ty with
  | ScDeploy => "scDeploy" | ScCall => "scCall" | ScQuery => "scQuery"
  | TxTransfer => "transfer" | ValidatorReward => "validatorReward"
  end.
Definition step_name (s : step) : string :=
  match s with
  | ExternalSteps _ _ => "externalSteps" | SetState _ _ _ _ _ _ => "setState"
  | CheckState _ _ => "checkState" | DumpState _ => "dumpState"
  | TxStep _ _ t _ => tx_name (t_type t)
  end.
(** One of the fields [k1] stands before one of the fields [k2]. *)
Definition before (m : list (bytes * json)) (k1 k2 : string) : Prop :=
  exists m1 m2, m = m1 ++ m2 /\ str k1 ∈ map fst m1 /\ str k2 ∈ map fst m2.
Definition step_said (v : json) (s : step) : Prop :=
  exists m, v = JMap m /\ given m "step" (JStr (str (step_name s))) /\
  match s with
  | ExternalSteps c path =>
      only m ["step"; "comment"; "path"]%string /\
      at_key m "comment" text [] c /\ at_key m "path" text [] path
  | SetState c accounts previous current hashes mocks =>
      only m ["step"; "comment"; "accounts"; "newAddresses"; "previousBlockInfo"; "currentBlockInfo";
              "blockHashes"]%string /\
      at_key m "comment" text [] c /\
      at_key m "accounts" (map_of account_said) [] accounts /\
      at_key m "newAddresses" (list_of mock) [] mocks /\
      at_key m "previousBlockInfo" (some_of block_said) None previous /\
      at_key m "currentBlockInfo" (some_of block_said) None current /\
      at_key m "blockHashes" (list_of plain_bytes) [] hashes
  | CheckState c xs =>
      only m ["step"; "comment"; "accounts"]%string /\
      at_key m "comment" text [] c /\ at_key m "accounts" (some_of accounts_check) None xs
  | DumpState c => only m ["step"; "comment"]%string /\ at_key m "comment" text [] c
  | TxStep ident c t expected =>
      only m ["step"; "txId"; "comment"; "tx"; "expect"]%string /\
      at_key m "txId" text [] ident /\ at_key m "comment" text [] c /\
      (exists w, given m "tx" w /\ tx_said (t_type t) w t) /\
      at_key m "expect" (fun w x => on_contract (t_type t) /\ before m "tx" "expect" /\
                                    some_of result_said w x) None expected
  end.

(** * Scenarios *)

Definition gas_name (g : gas_schedule) : string :=
  match g with
  | GasDefault => "default" | GasDummy => "dummy" | GasV1 => "v1" | GasV2 => "v2" | GasV3 => "v3"
  end.
Definition truth (v : json) (b : bool) : Prop := v = JBool b.
Definition gas_said (v : json) (g : gas_schedule) : Prop := v = JStr (str (gas_name g)).
Definition scenario_said (v : json) (s : scenario) : Prop :=
  exists m, v = JMap m /\ only m ["name"; "comment"; "checkGas"; "gasSchedule"; "steps"]%string /\
  at_key m "name" text [] (s_name s) /\
  at_key m "comment" text [] (s_comment s) /\
  at_key m "checkGas" truth true (s_check_gas s) /\
  at_key m "gasSchedule" gas_said GasDefault (s_gas s) /\
  at_key m "steps" (list_of step_said) [] (s_steps s).
End File.
