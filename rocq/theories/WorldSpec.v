(** What the conditions of a scenario mean, in terms of the accounts' fields and
    stored bytes: no function of WorldModel is used. *)
From Verif Require Export WorldModel CodecSpec.

(** * Conditions *)
Definition allows_bytes (c : cbytes) (b : bytes) : Prop :=
  cb_star c = true \/ cb_value c = b.
Definition allows_number (c : cuint) (n : Z) : Prop :=
  cu_star c = true \/ cu_value c = n.
Definition allows_amount (c : cbig) (z : Z) : Prop :=
  cz_star c = true \/ cz_value c = Some z.
(** The conditions that count only if they were written down. *)
Definition allows_bytes_if_given (c : cbytes) (b : bytes) : Prop :=
  cb_unspec c = true \/ allows_bytes c b.
Definition allows_number_if_given (c : cuint) (n : Z) : Prop :=
  cu_unspec c = true \/ allows_number c n.

(** [x] is the last element of [l] with key [k]. *)
Definition last_with {A K} (key : A -> K) (l : list A) (k : K) (x : A) : Prop :=
  exists before later, l = before ++ x :: later /\ key x = k /\
    forall y, y ∈ later -> key y <> k.
Definition none_with {A K} (key : A -> K) (l : list A) (k : K) : Prop :=
  forall y, y ∈ l -> key y <> k.

(** * Storage *)

(** What reading a storage key gives: nothing stored reads as empty. *)
Definition stored (a : waccount) (k v : bytes) : Prop :=
  wa_storage a !! k = Some v \/ (wa_storage a !! k = None /\ v = []).
Definition reserved (k : bytes) : Prop := exists rest, k = str "ELROND" ++ rest.

Definition storage_as_declared (x : check_account) (a : waccount) : Prop :=
  x_ignore_storage x = true \/
  forall k v, ~ reserved k -> stored a k v ->
    (forall d, last_with (fun d : jbytes * cbytes => jb_value (fst d)) (x_storage x) k d ->
       allows_bytes (snd d) v) /\
    (none_with (fun d : jbytes * cbytes => jb_value (fst d)) (x_storage x) k ->
       x_more_storage x = true \/ v = []).

(** * Tokens *)
Section Tokens.
Context (W : wenv).

(** The bytes of a nonce, as they end the key of a token: big-endian without
    leading zeros, nothing for 0. *)
Definition nonce_bytes (n : Z) (b : bytes) : Prop :=
  be_value b = n /\ head b <> Some Byte.x00.

(** What protobuf decodes as a nonce is one. *)
Definition codec_ok : Prop :=
  forall raw t m, we_unmarshal W raw = Some t -> tk_meta t = Some m -> 0 <= tm_nonce m < 2 ^ 64.

(** The storage of [a] has, under the key of token [name] and [nonce], an entry
    that says so, with a positive amount [v] and metadata [m].  A token without
    nonce has no metadata of its own. *)
Definition holds (a : waccount) (name : bytes) (nonce v : Z) (m : token_meta) : Prop :=
  exists raw t nb,
    nonce_bytes nonce nb /\
    wa_storage a !! (str "ELRONDesdt" ++ name ++ nb) = Some raw /\ raw <> [] /\
    we_unmarshal W raw = Some t /\ tk_value t = Some v /\ 0 < v /\
    (if nonce =? 0
     then (forall m', tk_meta t = Some m' -> tm_nonce m' = 0) /\
          m = mkTokMeta 0 name [] 0 [] [] []
     else tk_meta t = Some m /\ tm_nonce m = nonce).

Definition roles_of (a : waccount) (name : bytes) (roles : list bytes) : Prop :=
  exists raw, stored a (str "ELRONDroleesdt" ++ name) raw /\
    (raw = [] /\ roles = [] \/ raw <> [] /\ we_unmarshal_roles W raw = Some roles).
Definition last_nonce_of (a : waccount) (name : bytes) (n : Z) : Prop :=
  exists raw, stored a (str "ELRONDnonce" ++ name) raw /\ n = be_value raw mod 2 ^ 64.

(** Every token entry can be read: it can be decoded, has an amount, and its key
    ends in the nonce it carries. *)
Definition tokens_readable (a : waccount) : Prop :=
  (forall rest raw, wa_storage a !! (str "ELRONDesdt" ++ rest) = Some raw -> raw <> [] ->
     exists t, we_unmarshal W raw = Some t /\ tk_value t <> None /\
       forall m, tk_meta t = Some m -> tm_nonce m <> 0 ->
         exists name nb, rest = name ++ nb /\ nonce_bytes (tm_nonce m) nb) /\
  (forall name raw, wa_storage a !! (str "ELRONDroleesdt" ++ name) = Some raw -> raw <> [] ->
     we_unmarshal_roles W raw <> None).

(** What a declaration says about an amount and its metadata; an instance that
    is not declared must not be held. *)
Definition the_uri (m : token_meta) (u : bytes) : Prop :=
  tm_uris m = [] /\ u = [] \/ tm_uris m = [u].
Definition instance_fits (x : check_inst) (v : Z) (m : token_meta) : Prop :=
  allows_amount (xi_balance x) v /\
  allows_bytes_if_given (xi_creator x) (tm_creator m) /\
  allows_number_if_given (xi_royalties x) (tm_royalties m) /\
  allows_bytes_if_given (xi_hash x) (tm_hash m) /\
  (exists u, the_uri m u /\ allows_bytes_if_given (xi_uri x) u) /\
  allows_bytes_if_given (xi_attributes x) (tm_attributes m).
Definition nothing_held (name : bytes) (nonce : Z) : token_meta :=
  mkTokMeta nonce name [] 0 [] [] [].

Definition token_fits (name : bytes) (x : check_esdt) (a : waccount) : Prop :=
  (forall nonce i, last_with (fun i => cu_value (xi_nonce i)) (xe_instances x) nonce i ->
     (forall v m, holds a name nonce v m -> instance_fits i v m) /\
     ((forall v m, ~ holds a name nonce v m) -> instance_fits i 0 (nothing_held name nonce))) /\
  (forall nonce v m, none_with (fun i => cu_value (xi_nonce i)) (xe_instances x) nonce ->
     ~ holds a name nonce v m) /\
  (forall n, last_nonce_of a name n -> allows_number (xe_last x) n) /\
  (forall roles, roles_of a name roles -> forall r, r ∈ roles <-> r ∈ xe_roles x).

Definition tokens_as_declared (x : check_account) (a : waccount) : Prop :=
  x_ignore_esdt x = true \/
  tokens_readable a /\
  (forall name d, last_with (fun d => jb_value (xe_token d)) (x_esdt x) name d ->
     token_fits name d a) /\
  (forall name, none_with (fun d => jb_value (xe_token d)) (x_esdt x) name ->
     (forall nonce v m, ~ holds a name nonce v m) /\
     (forall n, last_nonce_of a name n -> n = 0) /\
     (forall roles, roles_of a name roles -> roles = [])).

(** * Accounts *)
Definition account_as_declared (x : check_account) (a : waccount) : Prop :=
  wa_address a = jb_value (x_address x) /\
  allows_number (x_nonce x) (wa_nonce a) /\
  allows_amount (x_balance x) (wa_balance a) /\
  allows_bytes (x_username x) (wa_username a) /\
  allows_bytes (x_code x) (wa_code a) /\
  allows_bytes_if_given (x_async x) (wa_async a) /\
  storage_as_declared x a /\
  tokens_as_declared x a.

Definition world_as_declared (xs : check_accounts) (accts : gmap bytes waccount) : Prop :=
  (forall x, x ∈ xs_accounts xs ->
     exists a, accts !! jb_value (x_address x) = Some a /\ account_as_declared x a) /\
  (xs_more xs = true \/
   forall addr a, accts !! addr = Some a ->
     exists x, x ∈ xs_accounts xs /\ jb_value (x_address x) = addr).
End Tokens.

(** * Results of a transaction *)
Definition log_as_expected (c : log_check) (e : log_entry) : Prop :=
  allows_bytes (lc_address c) (le_addr e) /\
  allows_bytes (lc_identifier c) (le_id e) /\
  Forall2 allows_bytes (lc_topics c) (le_topics e) /\
  allows_bytes (lc_data c) (le_data e).

Definition result_as_expected (checkGas : bool) (r : tx_result) (o : vm_output) : Prop :=
  allows_amount (tr_status r) (rc_num (o_code o)) /\
  allows_bytes (tr_message r) (o_msg o) /\
  Forall2 allows_bytes (tr_out r) (o_retdata o) /\
  (cz_star (tr_refund r) = true \/
   exists z, o_refund o = Some z /\ cz_value (tr_refund r) = Some z) /\
  (checkGas = true -> allows_number_if_given (tr_gas r) (o_gasrem o)) /\
  (tr_logs_star r = true \/ Forall2 log_as_expected (tr_logs r) (o_logs o)).

(** * Transactions *)

(** Go's order of visit of a map: some order. *)
Definition visits_each_once (W : wenv) : Prop := forall l, Permutation l (we_order W l).

(** Builtin functions as the token ones: nothing but storage is written. *)
Definition storage_only (ops : list hook_op) : Prop :=
  Forall (fun o => match o with HSave _ _ _ | HRevert _ => True | _ => False end) ops.
Definition never_reverts (ops : list hook_op) : Prop :=
  Forall (fun o => match o with HRevert _ => False | _ => True end) ops.
(** The machine asks for no revert to the snapshot taken when the step began. *)
Definition keeps_first (ops : list hook_op) : Prop :=
  Forall (fun o => match o with HRevert n => n <> 0 | _ => True end) ops.
Definition vm_always (P : list hook_op -> Prop) (W : wenv) : Prop :=
  (forall w c, P (fst (we_transfer W w c))) /\
  (forall w c, P (fst (we_call W w c))) /\
  (forall w c, P (fst (we_create W w c))).

(** What the sender pays for the gas, with the nonce that goes up. *)
Definition charged (fee : Z) (a : waccount) : waccount :=
  mkWAcc (wa_exists a) (wa_address a) ((wa_nonce a + 1) mod 2 ^ 64) (wa_balance a - fee)
    (wa_delta a) (wa_storage a) (wa_code a) (wa_codehash a) (wa_meta a) (wa_owner a)
    (wa_async a) (wa_username a) (wa_reward a) (wa_shard a) (wa_is_sc a).
Definition fee_of (tx : transaction) : Z := ju_value (t_gaslimit tx) * ju_value (t_gasprice tx).
Definition has_sender (tx : transaction) : Prop :=
  t_type tx = ScDeploy \/ t_type tx = ScCall \/ t_type tx = TxTransfer.

(** [w'] is [w] but for the accounts, and the account of the sender is the only
    one that changed: it paid for the gas. *)
Definition only_charged (tx : transaction) (w w' : mworld) : Prop :=
  (forall addr a, mw_accts w !! addr = Some a ->
     (has_sender tx /\ addr = jb_value (t_from tx) ->
        mw_accts w' !! addr = Some (charged (fee_of tx) a)) /\
     (~ (has_sender tx /\ addr = jb_value (t_from tx)) -> mw_accts w' !! addr = Some a)) /\
  (forall addr, mw_accts w !! addr = None -> mw_accts w' !! addr = None) /\
  mw_snaps w' = mw_snaps w /\ mw_previous w' = mw_previous w /\
  mw_current w' = mw_current w /\ mw_hashes w' = mw_hashes w /\ mw_mocks w' = mw_mocks w.

(** All the money there is. *)
Definition total_balance (accts : gmap bytes waccount) : Z :=
  map_fold (fun _ a sum => wa_balance a + sum) 0 accts.
Definition total_delta (outs : gmap bytes out_account) : Z :=
  map_fold (fun _ o sum => oa_delta o + sum) 0 outs.

(** What becomes of account [a] in a successful transaction with output [o] for
    it: [sender] tells that the account is the sender's, who sent [sent] and
    paid [fee] for gas.  Storage is left out here. *)
Definition applied (W : wenv) (sent fee : Z) (sender : Prop)
    (o : option out_account) (a a' : waccount) : Prop :=
  let d := match o with Some o => oa_delta o | None => 0 end in
  (sender -> wa_balance a' = wa_balance a - fee - sent + d) /\
  (~ sender -> wa_balance a' = wa_balance a + d) /\
  (forall n, (sender -> n = (wa_nonce a + 1) mod 2 ^ 64) -> (~ sender -> n = wa_nonce a) ->
     wa_nonce a' = match o with Some o => Z.max n (oa_nonce o) | None => n end) /\
  (match o with
   | Some o => if bool_decide (oa_code o = [])
               then wa_code a' = wa_code a /\ wa_codehash a' = wa_codehash a /\
                    wa_meta a' = wa_meta a /\ wa_is_sc a' = wa_is_sc a
               else wa_code a' = oa_code o /\ wa_codehash a' = we_sha W (oa_code o) /\
                    wa_meta a' = we_meta W /\ wa_is_sc a' = true
   | None => wa_code a' = wa_code a /\ wa_codehash a' = wa_codehash a /\
             wa_meta a' = wa_meta a /\ wa_is_sc a' = wa_is_sc a
   end) /\
  wa_async a' = match o with
                | Some o => match oa_transfers o with
                            | t :: _ => if bool_decide (ot_data t = []) then wa_async a else ot_data t
                            | [] => wa_async a
                            end
                | None => wa_async a
                end /\
  wa_address a' = wa_address a /\ wa_owner a' = wa_owner a /\ wa_username a' = wa_username a /\
  wa_reward a' = wa_reward a /\ wa_shard a' = wa_shard a.

(** An account that the output brings into being. *)
Definition created (W : wenv) (addr : bytes) (o : out_account) (a : waccount) : Prop :=
  wa_exists a = true /\ wa_address a = addr /\ wa_balance a = oa_delta o /\
  wa_nonce a = Z.max 0 (oa_nonce o) /\ wa_code a = oa_code o /\
  wa_owner a = default [] (oa_deployer o) /\ wa_storage a = oa_storage o /\
  wa_username a = [] /\ wa_reward a = 0 /\ wa_shard a = 0.

(** The input of the virtual machine, as the step declares it. *)
Definition declared_input (hash : bytes) (tx : transaction) (caller : bytes) (value gas : Z)
    (tokens : list esdt_transfer) : vm_input :=
  mkInput caller (map jt_value (t_args tx)) value DirectCall (ju_value (t_gasprice tx)) gas 0
    tokens hash hash false.
(** The text of the step's name, cut or filled with dots to 32 bytes. *)
Definition hash_of (ident hash : bytes) : Prop :=
  length hash = 32%nat /\
  forall i, (i < 32)%nat -> hash !! i = Some (default Byte.x2e (ident !! i)).

(** The world in which the machine runs: the sender has paid, and the state
    before that is the one snapshot. *)
Definition ready_world (tx : transaction) (w w1 : mworld) : Prop :=
  only_charged tx w (mkMWorld (mw_accts w1) (mw_snaps w) (mw_previous w1) (mw_current w1)
                       (mw_hashes w1) (mw_mocks w1)) /\
  mw_snaps w1 = [mw_accts w].

(** The value last saved under key [k] of account [addr]. *)
Definition save_key (o : hook_op) : option (bytes * bytes) :=
  match o with HSave a k _ => Some (a, k) | _ => None end.
Definition storage_after (ops : list hook_op) (out : gmap bytes bytes) (addr k : bytes)
    (before after : option bytes) : Prop :=
  match out !! k with
  | Some v => after = Some v
  | None =>
      (forall v, last_with save_key ops (Some (addr, k)) (HSave addr k v) -> after = Some v) /\
      (none_with save_key ops (Some (addr, k)) -> after = before)
  end.

(** Enough money for the value, once the gas is paid. *)
Definition affords (tx : transaction) (value : Z) (w : mworld) : Prop :=
  exists a, mw_accts w !! jb_value (t_from tx) = Some a /\ value <= wa_balance a - fee_of tx.

(** The machine ran in the world where the sender has paid, replied [o], and what
    it saved and what [o] says about storage is there afterwards. *)
Definition ran (reply : mworld -> list hook_op * option vm_output) (tx : transaction)
    (w w' : mworld) (o : vm_output) : Prop :=
  exists w1, ready_world tx w w1 /\ snd (reply w1) = Some o /\
    (o_code o = RcOk -> never_reverts (fst (reply w1)) ->
     forall addr a, mw_accts w !! addr = Some a ->
       exists a', mw_accts w' !! addr = Some a' /\
         forall k, storage_after (fst (reply w1))
                     (match o_accounts o !! addr with Some oa => oa_storage oa | None => ∅ end)
                     addr k (wa_storage a !! k) (wa_storage a' !! k)).

(** The storages of two worlds agree, account by account. *)
Definition same_storages (m m' : gmap bytes waccount) : Prop :=
  forall addr, wa_storage <$> m !! addr = wa_storage <$> m' !! addr.
