(** Scenarios without the texts they were written with, and scenarios that can
    be written out: no function of the reader or the writer is used. *)
From Verif Require Export ScenModel.

(** * What a scenario says: the same without the texts *)

Definition p_bytes (b : jbytes) : jbytes := mkJBytes (jb_value b) [].
Definition p_tree (t : jtree) : jtree := mkJTree (jt_value t) (JStr []).
Definition p_big (z : jbig) : jbig := mkJBig (jz_value z) [].
Definition p_uint (u : juint) : juint := mkJUint (ju_value u) [].
Definition p_cbytes (c : cbytes) : cbytes := mkCBytes (cb_value c) (cb_star c) None (cb_unspec c).
Definition p_cbig (c : cbig) : cbig := mkCBig (cz_value c) (cz_star c) [] (cz_unspec c).
Definition p_cuint (c : cuint) : cuint := mkCUint (cu_value c) (cu_star c) [] (cu_unspec c).

Definition p_inst (i : esdt_inst) : esdt_inst :=
  mkEsdtInst (p_uint (ei_nonce i)) (p_big (ei_balance i)) (p_bytes (ei_creator i))
    (p_uint (ei_royalties i)) (p_bytes (ei_hash i)) (p_tree (ei_uri i)) (p_bytes (ei_attributes i)).
Definition p_data (d : esdt_data) : esdt_data :=
  mkEsdtData (p_bytes (ed_token d)) (map p_inst (ed_instances d)) (p_uint (ed_last d))
    (ed_roles d) (p_uint (ed_frozen d)).

(** What a checkState step demands of the metadata of an instance: nothing is
    demanded by a missing field or by "*".  An instance without a nonce never
    has metadata, so there demanding nothing and demanding none is the same. *)
Definition p_meta (nonce : Z) (c : cbytes) : cbytes :=
  if cb_unspec c || cb_star c then mkCBytes [] (negb (nonce =? 0)) None false
  else mkCBytes (cb_value c) false None false.
Definition p_meta_number (nonce : Z) (c : cuint) : cuint :=
  if cu_unspec c || cu_star c then mkCUint 0 (negb (nonce =? 0)) [] false
  else mkCUint (cu_value c) false [] false.
Definition p_check_inst (i : check_inst) : check_inst :=
  let n := cu_value (xi_nonce i) in
  mkCheckInst (mkCUint n false [] false)
    (mkCBig (cz_value (xi_balance i)) (cz_star (xi_balance i)) [] false)
    (p_meta n (xi_creator i)) (p_meta_number n (xi_royalties i)) (p_meta n (xi_hash i))
    (p_meta n (xi_uri i)) (p_meta n (xi_attributes i)).
Definition p_check_esdt (d : check_esdt) : check_esdt :=
  mkCheckEsdt (p_bytes (xe_token d)) (map p_check_inst (xe_instances d)) (p_cuint (xe_last d))
    (xe_roles d) (p_cuint (xe_frozen d)).

Definition p_account (a : account) : account :=
  mkAccount (p_bytes (a_address a)) (p_uint (a_shard a)) (a_comment a) (p_uint (a_nonce a))
    (p_big (a_balance a)) (p_bytes (a_username a))
    (map (fun kv => (p_bytes (fst kv), p_tree (snd kv))) (a_storage a))
    (p_bytes (a_code a)) (p_bytes (a_owner a)) (a_async a) (map p_data (a_esdt a)).
Definition p_check_account (a : check_account) : check_account :=
  mkCheckAccount (p_bytes (x_address a)) (x_comment a) (p_cuint (x_nonce a)) (p_cbig (x_balance a))
    (p_cbytes (x_username a))
    (map (fun kv => (p_bytes (fst kv), p_cbytes (snd kv))) (x_storage a))
    (x_ignore_storage a) (x_more_storage a) (p_cbytes (x_code a)) (p_cbytes (x_owner a))
    (p_cbytes (x_async a)) (map p_check_esdt (x_esdt a)) (x_ignore_esdt a) (x_more_esdt a).
Definition p_accounts (xs : check_accounts) : check_accounts :=
  mkCheckAccounts (map p_check_account (xs_accounts xs)) (xs_more xs).

Definition p_esdt_tx (e : esdt_tx) : esdt_tx :=
  mkEsdtTx (p_bytes (tx_token e)) (p_uint (tx_tnonce e)) (p_big (tx_tvalue e)).
(** The nonce of a transaction is read by nothing. *)
Definition p_tx (t : transaction) : transaction :=
  mkTx (t_type t) (mkJUint 0 []) (p_big (t_value t)) (p_esdt_tx <$> t_esdt t) (p_bytes (t_from t))
    (p_bytes (t_to t)) (t_function t) (p_bytes (t_code t)) (map p_tree (t_args t))
    (p_uint (t_gasprice t)) (p_uint (t_gaslimit t)).
Definition p_log (l : log_check) : log_check :=
  mkLogCheck (p_cbytes (lc_address l)) (p_cbytes (lc_identifier l)) (map p_cbytes (lc_topics l))
    (p_cbytes (lc_data l)).
Definition p_result (r : tx_result) : tx_result :=
  mkTxResult (map p_cbytes (tr_out r)) (p_cbig (tr_status r)) (p_cbytes (tr_message r))
    (p_cuint (tr_gas r)) (p_cbig (tr_refund r)) (tr_logs_star r) (tr_logs_unspec r)
    (tr_log_hash r) (map p_log (tr_logs r)).
Definition p_mock (n : new_address) : new_address :=
  mkNewAddress (p_bytes (na_creator n)) (p_uint (na_nonce n)) (p_bytes (na_new n)).
Definition p_block (b : block_info) : block_info :=
  mkBlockInfo (p_uint (bi_timestamp b)) (p_uint (bi_nonce b)) (p_uint (bi_round b))
    (p_uint (bi_epoch b)) (p_tree <$> bi_seed b).

Definition p_step (s : step) : step :=
  match s with
  | ExternalSteps c path => ExternalSteps c path
  | SetState c accounts previous current hashes mocks =>
      SetState c (map p_account accounts) (p_block <$> previous) (p_block <$> current)
        (map p_bytes hashes) (map p_mock mocks)
  | CheckState c xs => CheckState c (p_accounts <$> xs)
  | DumpState c => DumpState c
  | TxStep ident c t expected => TxStep ident c (p_tx t) (p_result <$> expected)
  end.
Definition p_scenario (s : scenario) : scenario :=
  mkScenario (s_name s) (s_comment s) (s_check_gas s) (s_gas s) (map p_step (s_steps s)).

(** * Scenarios that can be written out *)

(** A token given by its balance alone. *)
Definition short (d : esdt_data) : Prop :=
  exists i, ed_instances d = [i] /\ ju_orig (ei_nonce i) = [] /\ ed_roles d = [] /\
            ju_orig (ed_frozen d) = [].
Definition kept_token (d : esdt_data) : Prop :=
  (short d -> ju_value (ed_last d) = 0 /\
   Forall (fun i => jz_value (ei_balance i) <> None /\
     jb_value (ei_creator i) = [] /\ ju_value (ei_royalties i) = 0 /\ jb_value (ei_hash i) = [] /\
     jt_value (ei_uri i) = [] /\ jb_value (ei_attributes i) = []) (ed_instances d)) /\
  (~ short d -> Forall (fun i => jz_orig (ei_balance i) <> []) (ed_instances d)).

Definition short_check (d : check_esdt) : Prop :=
  exists i, xe_instances d = [i] /\ cu_orig (xi_nonce i) = [] /\ xe_roles d = [] /\
            cu_orig (xe_frozen d) = [].
(** Metadata are not demanded to be empty where there can be any. *)
Definition kept_meta (nonce : Z) (c : cbytes) : Prop :=
  cb_value c = [] -> nonce = 0 \/ cb_unspec c = true \/ cb_star c = true.
Definition kept_check_inst (i : check_inst) : Prop :=
  let n := cu_value (xi_nonce i) in
  kept_meta n (xi_creator i) /\ kept_meta n (xi_hash i) /\ kept_meta n (xi_attributes i) /\
  kept_meta n (xi_uri i) /\ cb_value (xi_uri i) = [] /\
  (cu_orig (xi_royalties i) = [] -> n = 0 \/ cu_unspec (xi_royalties i) = true).
Definition kept_check_token (d : check_esdt) : Prop :=
  (short_check d -> cu_value (xe_last d) = 0 /\ cu_star (xe_last d) = false /\
   Forall (fun i => cb_value (xi_creator i) = [] /\ cu_value (xi_royalties i) = 0 /\
     cb_value (xi_hash i) = [] /\ cb_value (xi_uri i) = [] /\ cb_value (xi_attributes i) = [])
     (xe_instances d)) /\
  (~ short_check d -> Forall kept_check_inst (xe_instances d) /\
   forall i, xe_instances d = [i] -> cu_orig (xi_nonce i) <> [] \/ cz_orig (xi_balance i) <> []).

Definition kept_account (a : account) : Prop :=
  ju_value (a_shard a) = 0 /\ Forall kept_token (a_esdt a).
Definition kept_check_account (a : check_account) : Prop :=
  (x_esdt a = [] -> x_more_esdt a = false) /\ Forall kept_check_token (x_esdt a).

(** Sender and receiver are there, a token amount too; a reward has no
    arguments. *)
Definition kept_tx (t : transaction) : Prop :=
  (t_type t <> ScQuery -> t_type t <> ValidatorReward -> jb_orig (t_from t) <> []) /\
  (t_type t <> ScDeploy -> jb_orig (t_to t) <> []) /\
  (t_type t = ValidatorReward -> t_args t = []) /\
  (forall e, t_esdt t = Some e -> jz_orig (tx_tvalue e) <> []).
(** Nothing of an expected log is missing. *)
Definition kept_log (l : log_check) : Prop :=
  cb_orig (lc_address l) <> None /\ cb_orig (lc_identifier l) <> None /\ cb_orig (lc_data l) <> None.
Definition kept_mock (n : new_address) : Prop :=
  jb_orig (na_creator n) <> [] /\ jb_orig (na_new n) <> [].
Definition kept_step (s : step) : Prop :=
  match s with
  | SetState _ accounts _ _ _ mocks => Forall kept_account accounts /\ Forall kept_mock mocks
  | CheckState _ xs => exists x, xs = Some x /\ Forall kept_check_account (xs_accounts x)
  | TxStep _ _ t expected =>
      kept_tx t /\ forall r, expected = Some r -> Forall kept_log (tr_logs r)
  | _ => True
  end.
Definition kept (s : scenario) : Prop := Forall kept_step (s_steps s).
