(** The world behind a scenario and the execution of its steps: mock/world and
    arwenmandos.

    Accounts are Go pointers stored in a map; the model keeps the map of their
    contents.  (No two entries share a big.Int: convertAccount, Clone and
    UpdateAccountFromOutputAccount make new ones, so the in-place Sub of
    worldUpdate.go:47 is an assignment.)  Log texts and error texts are left
    out: an error is [SErr]. *)
From Verif Require Export ScenModel.

(** worldAccount.go:21-39.  RootHash, never written, and the pointer to the
    world are left out. *)
Record waccount := mkWAcc {
  wa_exists : bool;
  wa_address : bytes;
  wa_nonce : Z;
  wa_balance : Z;
  wa_delta : Z;
  wa_storage : gmap bytes bytes;
  wa_code : bytes;
  wa_codehash : bytes;
  wa_meta : bytes;
  wa_owner : bytes;
  wa_async : bytes;
  wa_username : bytes;
  wa_reward : Z;
  wa_shard : Z;
  wa_is_sc : bool
}.
(** Assignment to a field. *)
Definition set_wa_exists (v : bool) (x : waccount) : waccount :=
  mkWAcc v (wa_address x) (wa_nonce x) (wa_balance x) (wa_delta x) (wa_storage x) (wa_code x) (wa_codehash x) (wa_meta x) (wa_owner x) (wa_async x) (wa_username x) (wa_reward x) (wa_shard x) (wa_is_sc x).
Definition set_wa_nonce (v : Z) (x : waccount) : waccount :=
  mkWAcc (wa_exists x) (wa_address x) v (wa_balance x) (wa_delta x) (wa_storage x) (wa_code x) (wa_codehash x) (wa_meta x) (wa_owner x) (wa_async x) (wa_username x) (wa_reward x) (wa_shard x) (wa_is_sc x).
Definition set_wa_balance (v : Z) (x : waccount) : waccount :=
  mkWAcc (wa_exists x) (wa_address x) (wa_nonce x) v (wa_delta x) (wa_storage x) (wa_code x) (wa_codehash x) (wa_meta x) (wa_owner x) (wa_async x) (wa_username x) (wa_reward x) (wa_shard x) (wa_is_sc x).
Definition set_wa_delta (v : Z) (x : waccount) : waccount :=
  mkWAcc (wa_exists x) (wa_address x) (wa_nonce x) (wa_balance x) v (wa_storage x) (wa_code x) (wa_codehash x) (wa_meta x) (wa_owner x) (wa_async x) (wa_username x) (wa_reward x) (wa_shard x) (wa_is_sc x).
Definition set_wa_storage (v : gmap bytes bytes) (x : waccount) : waccount :=
  mkWAcc (wa_exists x) (wa_address x) (wa_nonce x) (wa_balance x) (wa_delta x) v (wa_code x) (wa_codehash x) (wa_meta x) (wa_owner x) (wa_async x) (wa_username x) (wa_reward x) (wa_shard x) (wa_is_sc x).
Definition set_wa_code (v : bytes) (x : waccount) : waccount :=
  mkWAcc (wa_exists x) (wa_address x) (wa_nonce x) (wa_balance x) (wa_delta x) (wa_storage x) v (wa_codehash x) (wa_meta x) (wa_owner x) (wa_async x) (wa_username x) (wa_reward x) (wa_shard x) (wa_is_sc x).
Definition set_wa_codehash (v : bytes) (x : waccount) : waccount :=
  mkWAcc (wa_exists x) (wa_address x) (wa_nonce x) (wa_balance x) (wa_delta x) (wa_storage x) (wa_code x) v (wa_meta x) (wa_owner x) (wa_async x) (wa_username x) (wa_reward x) (wa_shard x) (wa_is_sc x).
Definition set_wa_meta (v : bytes) (x : waccount) : waccount :=
  mkWAcc (wa_exists x) (wa_address x) (wa_nonce x) (wa_balance x) (wa_delta x) (wa_storage x) (wa_code x) (wa_codehash x) v (wa_owner x) (wa_async x) (wa_username x) (wa_reward x) (wa_shard x) (wa_is_sc x).
Definition set_wa_owner (v : bytes) (x : waccount) : waccount :=
  mkWAcc (wa_exists x) (wa_address x) (wa_nonce x) (wa_balance x) (wa_delta x) (wa_storage x) (wa_code x) (wa_codehash x) (wa_meta x) v (wa_async x) (wa_username x) (wa_reward x) (wa_shard x) (wa_is_sc x).
Definition set_wa_async (v : bytes) (x : waccount) : waccount :=
  mkWAcc (wa_exists x) (wa_address x) (wa_nonce x) (wa_balance x) (wa_delta x) (wa_storage x) (wa_code x) (wa_codehash x) (wa_meta x) (wa_owner x) v (wa_username x) (wa_reward x) (wa_shard x) (wa_is_sc x).
Definition set_wa_username (v : bytes) (x : waccount) : waccount :=
  mkWAcc (wa_exists x) (wa_address x) (wa_nonce x) (wa_balance x) (wa_delta x) (wa_storage x) (wa_code x) (wa_codehash x) (wa_meta x) (wa_owner x) (wa_async x) v (wa_reward x) (wa_shard x) (wa_is_sc x).
Definition set_wa_reward (v : Z) (x : waccount) : waccount :=
  mkWAcc (wa_exists x) (wa_address x) (wa_nonce x) (wa_balance x) (wa_delta x) (wa_storage x) (wa_code x) (wa_codehash x) (wa_meta x) (wa_owner x) (wa_async x) (wa_username x) v (wa_shard x) (wa_is_sc x).
Definition set_wa_is_sc (v : bool) (x : waccount) : waccount :=
  mkWAcc (wa_exists x) (wa_address x) (wa_nonce x) (wa_balance x) (wa_delta x) (wa_storage x) (wa_code x) (wa_codehash x) (wa_meta x) (wa_owner x) (wa_async x) (wa_username x) (wa_reward x) (wa_shard x) v.

(** elrond-vm-common data/esdt: ESDigitalToken and MetaData. *)
Record token_meta := mkTokMeta {
  tm_nonce : Z; tm_name : bytes; tm_creator : bytes; tm_royalties : Z;
  tm_hash : bytes; tm_uris : list bytes; tm_attributes : bytes }.
Record token := mkTok {
  tk_type : Z; tk_value : option Z; tk_properties : bytes;
  tk_meta : option token_meta }.

(** worldDef.go:11-24 *)
Record wblock := mkWBlock {
  wb_timestamp : Z; wb_nonce : Z; wb_round : Z; wb_epoch : Z; wb_seed : bytes }.
Record wmock := mkWMock { wm_creator : bytes; wm_cnonce : Z; wm_new : bytes }.

(** worldDef.go:27-40 and the snapshots of worldAccountsAdapter.go:19-22; the
    fields used only inside the virtual machine are left out. *)
Record mworld := mkMWorld {
  mw_accts : gmap bytes waccount;
  mw_snaps : list (gmap bytes waccount);
  mw_previous : option wblock;
  mw_current : option wblock;
  mw_hashes : list bytes;
  mw_mocks : list wmock
}.
Definition set_mw_accts (v : gmap bytes waccount) (w : mworld) : mworld :=
  mkMWorld v (mw_snaps w) (mw_previous w) (mw_current w) (mw_hashes w) (mw_mocks w).
Definition set_mw_snaps (v : list (gmap bytes waccount)) (w : mworld) : mworld :=
  mkMWorld (mw_accts w) v (mw_previous w) (mw_current w) (mw_hashes w) (mw_mocks w).

(** What a call into the virtual machine does to the world: its builtin
    functions run on the accounts of the map (builtinFunctionsWrapper.go:66-90)
    and end in these methods of Account, and the machine may ask for a
    revert. *)
Inductive hook_op :=
| HSave (a k v : bytes)          (* worldAccount.go:231-238 SaveKeyValue *)
| HRevert (n : Z)                (* worldDef.go:132-134 RevertToSnapshot *)
| HUsername (a v : bytes)        (* worldAccount.go:215-218 SetUserName *)
| HOwner (a v : bytes)           (* worldAccount.go:196-207 ChangeOwnerAddress *)
| HBalance (a : bytes) (z : Z)   (* worldAccount.go:157-176 AddToBalance, SubFromBalance *)
| HReward (a : bytes) (z : Z).   (* worldAccount.go:179-193 developer reward *)

(** The outside of this model: protobuf, the hash, the order in which Go visits
    a map, the bytes of code and user metadata, and the virtual machine: what
    it did to the world and its output (None for a Go error). *)
Record wenv := mkWEnv {
  we_marshal : token -> bytes;
  we_unmarshal : bytes -> option token;
  we_marshal_roles : list bytes -> bytes;
  we_unmarshal_roles : bytes -> option (list bytes);
  we_sha : bytes -> bytes;
  we_order : list bytes -> list bytes;
  we_meta : bytes;                 (* CodeMetadata{Payable, Upgradeable, Readable}.ToBytes *)
  we_frozen : bool -> bytes;       (* ESDTUserMetadata{Frozen}.ToBytes *)
  we_transfer : mworld -> call_input -> list hook_op * option vm_output;
  we_create : mworld -> create_input -> list hook_op * option vm_output;
  we_call : mworld -> call_input -> list hook_op * option vm_output
}.
Existing Class wenv.

(** * mock/world *)

(** elrond-vm-common: ElrondProtectedKeyPrefix; mockESDT.go:12-18. *)
Definition ProtectedPrefix : bytes := str "ELROND".
Definition ESDTTokenKeyPrefix : bytes := str "ELRONDesdt".
Definition ESDTRoleKeyPrefix : bytes := str "ELRONDroleesdt".
Definition ESDTNonceKeyPrefix : bytes := str "ELRONDnonce".

(** mockESDTAccount.go:16-35 *)
Definition MakeTokenKey (name : bytes) (nonce : Z) : bytes :=
  ESDTTokenKeyPrefix ++ name ++ be_encode nonce.
Definition MakeTokenRolesKey (name : bytes) : bytes := ESDTRoleKeyPrefix ++ name.
Definition MakeLastNonceKey (name : bytes) : bytes := ESDTNonceKeyPrefix ++ name.

(** worldAccount.go:44-50 *)
Definition StorageValue (a : waccount) (key : bytes) : bytes :=
  default [] (wa_storage a !! key).

Section World.
Context {W : wenv}.

(** mockESDTAccount.go:125-146, GetTokenData. *)
Definition GetTokenData (a : waccount) (key : bytes) : sres token :=
  match StorageValue a key with
  | [] => SOk (mkTok 0 (Some 0) []
                 (Some (mkTokMeta 0 (drop (length ESDTTokenKeyPrefix) key) [] 0 [] [] [])))
  | raw => match we_unmarshal W raw with Some t => SOk t | None => SErr end
  end.

(** mockESDTAccount.go:149-190 *)
Definition set_key (k v : bytes) (a : waccount) : waccount :=
  set_wa_storage (<[k := v]> (wa_storage a)) a.
Definition SetTokenData (key : bytes) (t : token) (a : waccount) : waccount :=
  set_key key (we_marshal W t) a.
Definition SetTokenRoles (name : bytes) (roles : list bytes) (a : waccount) : waccount :=
  set_key (MakeTokenRolesKey name) (we_marshal_roles W roles) a.
Definition SetLastNonce (name : bytes) (n : Z) (a : waccount) : waccount :=
  set_key (MakeLastNonceKey name) (be_encode n) a.

(** mockESDTAccount.go:205-223, GetTokenRoles. *)
Definition GetTokenRoles (a : waccount) (name : bytes) : sres (list bytes) :=
  match StorageValue a (MakeTokenRolesKey name) with
  | [] => SOk []
  | raw => match we_unmarshal_roles W raw with Some r => SOk r | None => SErr end
  end.

(** mockESDTAccount.go:278-306, loadMockESDTDataInstance: the token's name and
    its data, here with metadata that is always there. *)
Definition loadMockESDTDataInstance (a : waccount) (key : bytes)
  : sres (bytes * (token * token_meta)) :=
  sbind (GetTokenData a key) (fun t =>
  let fromKey := drop (length ESDTTokenKeyPrefix) key in
  let plain := SOk (fromKey, (t, mkTokMeta 0 fromKey [] 0 [] [] [])) in
  match tk_meta t with
  | None => plain
  | Some m =>
      if tm_nonce m =? 0 then plain
      else
        let nonceAsBytes := be_encode (tm_nonce m) in
        let n := Z.of_nat (length fromKey) - Z.of_nat (length nonceAsBytes) in
        if n <? 0 then SPanic
        else if bool_decide (nonceAsBytes = drop (Z.to_nat n) fromKey)
             then SOk (take (Z.to_nat n) fromKey, (t, m))
             else SErr
  end).

(** mockESDTAccount.go:238-243; TokenIdentifier is the key of the map. *)
Record mock_esdt := mkMockEsdt {
  me_instances : list (token * token_meta); me_last : Z; me_roles : list bytes }.
(** mockESDTAccount.go:308-320 *)
Definition getOrCreateMockESDTData (m : gmap bytes mock_esdt) (name : bytes) : mock_esdt :=
  default (mkMockEsdt [] 0 []) (m !! name).

(** strings.HasPrefix, with what follows. *)
Definition after (p k : bytes) : option bytes := strip p k.

(** mockESDTAccount.go:247-272: one storage key. *)
Definition esdt_entry (a : waccount) (key value : bytes) (m : gmap bytes mock_esdt)
  : sres (gmap bytes mock_esdt) :=
  match after ESDTTokenKeyPrefix key with
  | Some _ =>
      sbind (loadMockESDTDataInstance a key) (fun '(name, (t, tm)) =>
      match tk_value t with
      | None => SPanic
      | Some v =>
          if 0 <? v then
            let o := getOrCreateMockESDTData m name in
            SOk (<[name := mkMockEsdt (me_instances o ++ [(t, tm)]) (me_last o) (me_roles o)]> m)
          else SOk m
      end)
  | None =>
  match after ESDTNonceKeyPrefix key with
  | Some name =>
      let o := getOrCreateMockESDTData m name in
      SOk (<[name := mkMockEsdt (me_instances o) (u64 (be_decode value)) (me_roles o)]> m)
  | None =>
  match after ESDTRoleKeyPrefix key with
  | Some name =>
      sbind (GetTokenRoles a name) (fun roles =>
      let o := getOrCreateMockESDTData m name in
      SOk (<[name := mkMockEsdt (me_instances o) (me_last o) roles]> m))
  | None => SOk m
  end end end.

Fixpoint esdt_entries (a : waccount) (l : list (bytes * bytes)) (m : gmap bytes mock_esdt)
  : sres (gmap bytes mock_esdt) :=
  match l with
  | [] => SOk m
  | (k, v) :: r => sbind (esdt_entry a k v m) (esdt_entries a r)
  end.

(** mockESDTAccount.go:246-275, GetFullMockESDTData.  Go's order of visit does
    not change a result that is no error. *)
Definition GetFullMockESDTData (a : waccount) : sres (gmap bytes mock_esdt) :=
  esdt_entries a (map_to_list (wa_storage a)) ∅.

(** worldAccountsAdapter.go:127-130 with worldUpdate.go:102-104 *)
Definition CreateStateBackup (w : mworld) : mworld :=
  set_mw_snaps (mw_snaps w ++ [mw_accts w]) w.
(** worldAccountsAdapter.go:70-73 with worldUpdate.go:107-110 *)
Definition CommitChanges (w : mworld) : mworld := set_mw_snaps [] w.

(** worldAccountMap.go:88-100: the accounts are visited in some order; a missing
    one stops the loop. *)
Fixpoint load_storages (keys : list bytes) (other m : gmap bytes waccount)
  : gmap bytes waccount * bool :=
  match keys with
  | [] => (m, true)
  | k :: r =>
      match other !! k with
      | None => (m, false)
      | Some o => load_storages r other (alter (set_wa_storage (wa_storage o)) k m)
      end
  end.
Definition LoadAccountStorageFrom (other m : gmap bytes waccount)
  : gmap bytes waccount * bool :=
  load_storages (we_order W (map fst (map_to_list m))) other m.

(** worldAccountsAdapter.go:81-98, with the error as [false]. *)
Definition RevertToSnapshot (n : Z) (w : mworld) : mworld * bool :=
  if (n <? 0) || (Z.of_nat (length (mw_snaps w)) <=? n) then (w, false)
  else
    match mw_snaps w !! Z.to_nat n with
    | None => (w, false)
    | Some snapshot =>
        let '(m, ok) := LoadAccountStorageFrom snapshot (mw_accts w) in
        (set_mw_accts m (set_mw_snaps (take (Z.to_nat n) (mw_snaps w)) w), ok)
    end.
(** worldDef.go:127-129 with worldAccountsAdapter.go:76-78 *)
Definition GetSnapshot (w : mworld) : Z := Z.of_nat (length (mw_snaps w)) - 1.
(** worldUpdate.go:113-115 *)
Definition RollbackChanges (w : mworld) : mworld := fst (RevertToSnapshot 0 w).

(** The methods behind [hook_op]. *)
Definition hook_step (o : hook_op) (w : mworld) : mworld :=
  match o with
  | HSave a k v =>
      CreateStateBackup (set_mw_accts (alter (set_key k v) a (mw_accts w)) w)
  | HRevert n => fst (RevertToSnapshot n w)
  | HUsername a v => set_mw_accts (alter (set_wa_username v) a (mw_accts w)) w
  | HOwner a v => set_mw_accts (alter (set_wa_owner v) a (mw_accts w)) w
  | HBalance a z => set_mw_accts (alter (set_wa_balance z) a (mw_accts w)) w
  | HReward a z => set_mw_accts (alter (set_wa_reward z) a (mw_accts w)) w
  end.
Definition hook_steps (l : list hook_op) (w : mworld) : mworld :=
  fold_left (fun w o => hook_step o w) l w.

(** worldUpdate.go:21-28, the error as [w] unchanged. *)
Definition UpdateBalanceWithDelta (addr : bytes) (d : Z) (w : mworld) : mworld :=
  set_mw_accts (alter (fun a => set_wa_balance (wa_balance a + d) a) addr (mw_accts w)) w.

(** worldUpdate.go:31-49, UpdateWorldStateBefore. *)
Definition UpdateWorldStateBefore (from : bytes) (gasLimit gasPrice : Z) (w : mworld)
  : mworld * bool :=
  match mw_accts w !! from with
  | None => (w, false)
  | Some a =>
      let a := set_wa_nonce (u64 (wa_nonce a + 1)) a in
      let gasPayment := gasLimit * gasPrice in
      if wa_balance a <? gasPayment
      then (set_mw_accts (<[from := a]> (mw_accts w)) w, false)
      else (set_mw_accts (<[from := set_wa_balance (wa_balance a - gasPayment) a]>
                            (mw_accts w)) w, true)
  end.

(** worldAccountMap.go:21-40 with worldUpdate.go:71-73 *)
Definition new_account (addr owner : bytes) : waccount :=
  mkWAcc true addr 0 0 0 ∅ [] [] [] owner [] [] 0 0 false.

(** worldAccount.go:55-66 *)
Definition SetCodeAndMetadata (code : bytes) (a : waccount) : waccount :=
  set_wa_meta (we_meta W) (set_wa_is_sc true (set_wa_codehash (we_sha W code) (set_wa_code code a))).

(** worldUpdate.go:68-99, UpdateAccountFromOutputAccount, for an output account
    whose BalanceDelta is not nil. *)
Definition UpdateAccountFromOutputAccount (addr : bytes) (o : out_account) (a : option waccount)
  : waccount :=
  let a := match a with Some a => a | None => new_account addr (default [] (oa_deployer o)) end in
  let a := set_wa_exists true a in
  let a := set_wa_balance (wa_balance a + oa_delta o) a in
  let a := if wa_nonce a <? oa_nonce o then set_wa_nonce (oa_nonce o) a else a in
  let a := match oa_code o with [] => a | code => SetCodeAndMetadata code a end in
  let a := match oa_transfers o with
           | t :: _ => match ot_data t with [] => a | d => set_wa_async d a end
           | [] => a
           end in
  set_wa_storage (oa_storage o ∪ wa_storage a) a.

(** worldUpdate.go:52-65, UpdateAccounts without accounts to delete (the virtual
    machine reports none, see [vm_output]).  The address of an output account is
    its key in the map. *)
Definition UpdateAccounts (outs : gmap bytes out_account) (w : mworld) : mworld :=
  set_mw_accts
    (merge (fun (a : option waccount) (o : option (bytes * out_account)) =>
       match o with
       | Some (addr, o) => Some (UpdateAccountFromOutputAccount addr o a)
       | None => a
       end) (mw_accts w) (map_imap (fun addr o => Some (addr, o)) outs)) w.

(** worldAccountValidate.go:14-42; the address is 32 bytes long. *)
Definition IsSmartContractAddress (addr : bytes) : bool :=
  bool_decide (take 8 addr = repeat Byte.x00 8).
Definition Validate (a : waccount) : bool :=
  (length (wa_address a) =? 32)%nat &&
  Bool.eqb (negb (bool_decide (wa_code a = []))) (IsSmartContractAddress (wa_address a)).

(** * arwenmandos/util.go *)

(** util.go:17-21, 24-26 *)
Definition storage_of (l : list (jbytes * jtree)) : gmap bytes bytes :=
  fold_left (fun m kv => <[jb_value (fst kv) := jt_value (snd kv)]> m) l ∅.

(** util.go:52-75: one instance of a token. *)
Definition put_instance (d : esdt_data) (a : waccount) (i : esdt_inst) : waccount :=
  let name := jb_value (ed_token d) in
  let nonce := ju_value (ei_nonce i) in
  let t := mkTok 0 (jz_value (ei_balance i)) (we_frozen W (0 <? ju_value (ed_frozen d)))
             (Some (mkTokMeta nonce name (jb_value (ei_creator i))
                      (u32 (ju_value (ei_royalties i))) (jb_value (ei_hash i))
                      [jt_value (ei_uri i)] (jb_value (ei_attributes i)))) in
  SetLastNonce name (ju_value (ed_last d)) (SetTokenData (MakeTokenKey name nonce) t a).
(** util.go:48-81: one token. *)
Definition put_token (a : waccount) (d : esdt_data) : waccount :=
  SetTokenRoles (jb_value (ed_token d)) (ed_roles d)
    (fold_left (put_instance d) (ed_instances d) a).

(** util.go:16-85, convertAccount; a nil balance panics in Set. *)
Definition convertAccount (t : account) : sres waccount :=
  if (length (jb_value (a_address t)) =? 32)%nat then
    match jz_value (a_balance t) with
    | None => SPanic
    | Some balance =>
        SOk (fold_left put_token (a_esdt t)
          (mkWAcc false (jb_value (a_address t)) (ju_value (a_nonce t)) balance 0
             (storage_of (a_storage t)) (jb_value (a_code t)) [] (we_meta W)
             (jb_value (a_owner t)) (a_async t) (jb_value (a_username t)) 0
             (u32 (ju_value (a_shard t)))
             (negb (bool_decide (jb_value (a_code t) = [])))))
    end
  else SErr.

(** util.go:117-148.  A block without a seed has 48 zero bytes; a longer seed is
    cut off by copy. *)
Definition convertNewAddressMock (m : new_address) : wmock :=
  mkWMock (jb_value (na_creator m)) (ju_value (na_nonce m)) (jb_value (na_new m)).
Definition convertBlockInfo (b : block_info) : wblock :=
  mkWBlock (ju_value (bi_timestamp b)) (ju_value (bi_nonce b)) (ju_value (bi_round b))
    (u32 (ju_value (bi_epoch b)))
    (let s := match bi_seed b with Some s => take 48 (jt_value s) | None => [] end in
     s ++ repeat Byte.x00 (48 - length s)).

(** util.go:171-180 *)
Definition generateTxHash (txIndex : bytes) : bytes :=
  take 32 txIndex ++ repeat Byte.x2e (32 - length txIndex).

(** util.go:182-195; a nil value stays nil, here 0. *)
Definition esdt_of_tx (e : option esdt_tx) : list esdt_transfer :=
  match e with
  | None => []
  | Some e =>
      let n := ju_value (tx_tnonce e) in
      [mkEsdt (default 0 (jz_value (tx_tvalue e))) (jb_value (tx_token e))
         (if n =? 0 then 0 else 1) n]
  end.

(** * arwenmandos/stepCheckAccounts.go *)

Definition sand (r : sres bool) (k : sres unit) : sres unit :=
  sbind r (fun ok => if ok then k else SErr).

(** stepCheckAccounts.go:108-158, checkAccountStorage: one key of allKeys. *)
Definition storage_key_ok (x : check_account) (expected : gmap bytes cbytes)
    (a : waccount) (k : bytes) : bool :=
  match after ProtectedPrefix k with
  | Some _ => true
  | None =>
      let want := match expected !! k with
                  | Some c => c
                  | None => if x_more_storage x then JSONCheckBytesStar
                            else JSONCheckBytesUnspecified
                  end in
      checkBytes want (StorageValue a k)
  end.
Definition checkAccountStorage (x : check_account) (a : waccount) : bool :=
  if x_ignore_storage x then true
  else
    let expected := fold_left (fun m kv => <[jb_value (fst kv) := snd kv]> m)
                      (x_storage x) (∅ : gmap bytes cbytes) in
    forallb (storage_key_ok x expected a) (map fst (map_to_list expected)) &&
    forallb (storage_key_ok x expected a) (map fst (map_to_list (wa_storage a))).

(** stepCheckAccounts.go:365-401, checkTokenRoles. *)
Definition checkTokenRoles (want have : list bytes) : bool :=
  forallb (fun r => bool_decide (r ∈ want)) have && forallb (fun r => bool_decide (r ∈ have)) want.

(** stepCheckAccounts.go:270-360: one nonce of allNonces.  The instance made up
    for a missing expectation has only its balance filled in; the one made up
    for a missing token has only name and nonce. *)
Definition missing_expectation (nonce : Z) : check_inst :=
  mkCheckInst (mkCUint nonce false [] false) (mkCBig (Some 0) false [] false)
    cbytes_zero cuint_zero cbytes_zero cbytes_zero cbytes_zero.
Definition unspec_or (c : cbytes) (have : bytes) : bool :=
  cb_unspec c || checkBytes c have.
Definition instance_ok (e : option check_inst) (t : option (token * token_meta)) (name : bytes)
    (nonce : Z) : sres bool :=
  let x := default (missing_expectation nonce) e in
  let '(value, m) := match t with
                     | Some (t, m) => (tk_value t, m)
                     | None => (Some 0, mkTokMeta nonce name [] 0 [] [] [])
                     end in
  match value with
  | None => SPanic
  | Some v =>
      sbind (checkBigInt (xi_balance x) v) (fun balance_ok =>
      let uri := match tm_uris m with [u] => u | _ => [] end in
      SOk (balance_ok &&
           unspec_or (xi_creator x) (tm_creator m) &&
           (cu_unspec (xi_royalties x) || checkUint64 (xi_royalties x) (tm_royalties m)) &&
           unspec_or (xi_hash x) (tm_hash m) &&
           (length (tm_uris m) <=? 1)%nat &&
           unspec_or (xi_uri x) uri &&
           unspec_or (xi_attributes x) (tm_attributes m)))
  end.

Fixpoint sforall {A} (f : A -> sres bool) (l : list A) : sres bool :=
  match l with
  | [] => SOk true
  | x :: r => sbind (f x) (fun b => sbind (sforall f r) (fun c => SOk (b && c)))
  end.

(** stepCheckAccounts.go:246-363, checkTokenInstances. *)
Definition checkTokenInstances (name : bytes) (want : list check_inst)
    (have : list (token * token_meta)) : sres bool :=
  let expected := fold_left (fun m i => <[cu_value (xi_nonce i) := i]> m) want
                    (∅ : gmap Z check_inst) in
  let actual := fold_left (fun m i => <[tm_nonce (snd i) := i]> m) have
                  (∅ : gmap Z (token * token_meta)) in
  let one n := instance_ok (expected !! n) (actual !! n) name n in
  sbind (sforall one (map fst (map_to_list expected))) (fun a =>
  sbind (sforall one (map fst (map_to_list actual))) (fun b => SOk (a && b))).

(** stepCheckAccounts.go:223-244 *)
Definition checkTokenState (name : bytes) (x : check_esdt) (t : mock_esdt) : sres bool :=
  sbind (checkTokenInstances name (xe_instances x) (me_instances t)) (fun ok =>
  SOk (ok && checkUint64 (xe_last x) (me_last t) && checkTokenRoles (xe_roles x) (me_roles t))).

(** stepCheckAccounts.go:160-221, checkAccountESDT. *)
Definition checkAccountESDT (x : check_account) (a : waccount) : sres bool :=
  if x_ignore_esdt x then SOk true
  else
    let expected := fold_left (fun m e => <[jb_value (xe_token e) := e]> m) (x_esdt x)
                      (∅ : gmap bytes check_esdt) in
    sbind (GetFullMockESDTData a) (fun tokens =>
    let one n :=
      checkTokenState n
        (default (mkCheckEsdt (mkJBytes n []) [] cuint_zero [] cuint_zero) (expected !! n))
        (default (mkMockEsdt [] 0 []) (tokens !! n)) in
    sbind (sforall one (map fst (map_to_list expected))) (fun b =>
    sbind (sforall one (map fst (map_to_list tokens))) (fun c => SOk (b && c)))).

(** stepCheckAccounts.go:39-102: one expected account. *)
Definition checkAccount (accts : gmap bytes waccount) (x : check_account) : sres unit :=
  match accts !! jb_value (x_address x) with
  | None => SErr
  | Some a =>
      sand (SOk (bool_decide (wa_address a = jb_value (x_address x)))) (
      sand (SOk (checkUint64 (x_nonce x) (wa_nonce a))) (
      sand (checkBigInt (x_balance x) (wa_balance a)) (
      sand (SOk (checkBytes (x_username x) (wa_username a))) (
      sand (SOk (checkBytes (x_code x) (wa_code a))) (
      sand (SOk (unspec_or (x_async x) (wa_async a))) (
      sand (SOk (checkAccountStorage x a)) (
      sand (checkAccountESDT x a) (SOk tt))))))))
  end.
Fixpoint checkEach (accts : gmap bytes waccount) (l : list check_account) : sres unit :=
  match l with
  | [] => SOk tt
  | x :: r => sbind (checkAccount accts x) (fun _ => checkEach accts r)
  end.

(** stepCheckAccounts.go:26-106, checkAccounts. *)
Definition checkAccounts (xs : check_accounts) (w : mworld) : sres unit :=
  sand (SOk (xs_more xs ||
             forallb (fun addr => match FindCheckAccount (xs_accounts xs) addr with
                                  | Some _ => true | None => false end)
               (map fst (map_to_list (mw_accts w)))))
    (checkEach (mw_accts w) (xs_accounts xs)).

(** * arwenmandos/stepCheckTxResult.go *)

(** stepCheckTxResult.go:33-46 and 87-101: two lists, checked one against the
    other. *)
Fixpoint check_list (want : list cbytes) (have : list bytes) : bool :=
  match want, have with
  | [], [] => true
  | c :: want, b :: have => checkBytes c b && check_list want have
  | _, _ => false
  end.
(** stepCheckTxResult.go:76-107 *)
Definition check_log (want : log_check) (have : log_entry) : bool :=
  checkBytes (lc_address want) (le_addr have) &&
  checkBytes (lc_identifier want) (le_id have) &&
  check_list (lc_topics want) (le_topics have) &&
  checkBytes (lc_data want) (le_data have).
Fixpoint check_logs (want : list log_check) (have : list log_entry) : bool :=
  match want, have with
  | [], [] => true
  | c :: want, e :: have => check_log c e && check_logs want have
  | _, _ => false
  end.

(** stepCheckTxResult.go:13-111, checkTxResults; Cmp with a nil refund panics. *)
Definition checkTxResults (r : tx_result) (checkGas : bool) (o : vm_output) : sres unit :=
  sand (checkBigInt (tr_status r) (rc_num (o_code o))) (
  sand (SOk (checkBytes (tr_message r) (o_msg o))) (
  sand (SOk (check_list (tr_out r) (o_retdata o))) (
  sand (match o_refund o with
        | Some z => checkBigInt (tr_refund r) z
        | None => if cz_star (tr_refund r) then SOk true else SPanic
        end) (
  sand (SOk (negb (checkGas && negb (cu_unspec (tr_gas r)) &&
                   negb (checkUint64 (tr_gas r) (o_gasrem o))))) (
  if tr_logs_star r then SOk tt
  else sand (SOk (check_logs (tr_logs r) (o_logs o))) (SOk tt)))))).

(** * arwenmandos/stepRunTx.go *)

(** stepRunTx.go:115-133, 172-184: outputs made up without the virtual machine. *)
Definition empty_acc (delta : Z) : out_account :=
  mkAcc 0 None delta ∅ [] [] None [] 0.
Definition simpleTransferOutput (to : bytes) (value : Z) : vm_output :=
  mkOut [] RcOk [] 0 (Some 0) {[to := empty_acc value]} [].
Definition outOfFundsResult : vm_output := mkOut [] RcOutOfFunds [] 0 (Some 0) ∅ [].

(** elrondProtectedStorage.go:7 *)
Definition ElrondRewardKey : bytes := str "ELRONDreward".
(** stepRunTx.go:135-170, validatorRewardOutput. *)
Definition validatorRewardOutput (to : bytes) (reward : Z) (w : mworld)
  : mworld * sres vm_output :=
  match mw_accts w !! to with
  | None => (w, SErr)
  | Some a =>
      let w := set_mw_accts (<[to := set_wa_delta reward a]> (mw_accts w)) w in
      let stored := be_encode (be_decode (StorageValue a ElrondRewardKey) + reward) in
      (w, SOk (mkOut [] RcOk [] 0 (Some 0)
                 {[to := set_oa_storage {[ElrondRewardKey := stored]} (empty_acc reward)]} []))
  end.

Definition tx_input (ident : bytes) (tx : transaction) (from : bytes) (value gas : Z) : vm_input :=
  mkInput from (map jt_value (t_args tx)) value DirectCall (ju_value (t_gasprice tx)) gas 0
    (esdt_of_tx (t_esdt tx)) (generateTxHash ident) (generateTxHash ident) false.

(** A run of the virtual machine: what it did to the world, then its output. *)
Definition vm_run (r : list hook_op * option vm_output) (w : mworld) : mworld * sres vm_output :=
  (hook_steps (fst r) w, match snd r with Some o => SOk o | None => SErr end).

(** stepRunTx.go:186-205, scCreate. *)
Definition scCreate (ident : bytes) (tx : transaction) (value gas : Z) (w : mworld)
  : mworld * sres vm_output :=
  vm_run (we_create W w (mkCreate (tx_input ident tx (jb_value (t_from tx)) value gas)
                           (jb_value (t_code tx)) [])) w.
(** stepRunTx.go:207-234, scCall. *)
Definition scCall (ident : bytes) (tx : transaction) (from : bytes) (value gas : Z) (w : mworld)
  : mworld * sres vm_output :=
  let to := jb_value (t_to tx) in
  match mw_accts w !! to with
  | None => (w, SErr)
  | Some a =>
      match wa_code a with
      | [] => (w, SErr)
      | _ => vm_run (we_call W w (mkCall (tx_input ident tx from value gas) to
                                    (t_function tx) false)) w
      end
  end.

(** stepRunTx.go:236-246 with mockESDT.go:54-101, PerformDirectESDTTransfer: the
    gas that remains.  Looking up the shard of a missing account panics
    (worldDef.go:105-107), as do the bytes of a nil value. *)
Definition directESDTTransferFromTx (tx : transaction) (e : esdt_tx) (w : mworld)
  : mworld * sres Z :=
  let from := jb_value (t_from tx) in
  let to := jb_value (t_to tx) in
  match jz_value (tx_tvalue e), mw_accts w !! from with
  | Some value, Some _ =>
      let nonce := ju_value (tx_tnonce e) in
      let name := jb_value (tx_token e) in
      let input args := mkInput from args 0 DirectCall (ju_value (t_gasprice tx))
                          (ju_value (t_gaslimit tx)) 0 [] [] [] false in
      let c := if 0 <? nonce
               then mkCall (input [name; be_encode nonce; be_encode value; to]) from
                      (str "ESDTNFTTransfer") false
               else mkCall (input [name; be_encode value]) to (str "ESDTTransfer") false in
      match mw_accts w !! ci_rcpt c with
      | None => (w, SPanic)
      | Some _ =>
          let '(w, r) := vm_run (we_transfer W w c) w in
          (w, sbind r (fun o => if bool_decide (o_code o = RcOk) then SOk (o_gasrem o) else SErr))
      end
  | _, _ => (w, SPanic)
  end.

(** stepRunTx.go:248-278, updateStateAfterTx; the second component is false for
    an error. *)
Definition sum_deltas (m : gmap bytes out_account) : Z :=
  map_fold (fun _ o s => oa_delta o + s) 0 m.
Definition updateStateAfterTx (tx : transaction) (value : Z) (o : vm_output) (w : mworld)
  : mworld * bool :=
  let w := if HasSender (t_type tx)
           then UpdateBalanceWithDelta (jb_value (t_from tx)) (- value) w else w in
  let w := UpdateAccounts (o_accounts o) w in
  (w, negb (HasSender (t_type tx)) || (sum_deltas (o_accounts o) =? value)).

(** stepRunTx.go:107-113 *)
Definition senderHasEnoughBalance (tx : transaction) (value : Z) (w : mworld) : bool :=
  if HasSender (t_type tx) then
    match mw_accts w !! jb_value (t_from tx) with
    | Some a => value <=? wa_balance a
    | None => false
    end
  else true.

(** stepRunTx.go:61-90: the output of the transaction. *)
Definition tx_output (ident : bytes) (tx : transaction) (value gas : Z) (w : mworld)
  : mworld * sres vm_output :=
  if negb (senderHasEnoughBalance tx value w) then (w, SOk outOfFundsResult)
  else
    match t_type tx with
    | ScDeploy => scCreate ident tx value gas w
    | ScQuery => scCall ident tx (jb_value (t_to tx)) value max_u64 w
    | ScCall => scCall ident tx (jb_value (t_from tx)) value gas w
    | TxTransfer => (w, SOk (simpleTransferOutput (jb_value (t_to tx)) value))
    | ValidatorReward => validatorRewardOutput (jb_value (t_to tx)) value w
    end.

(** stepRunTx.go:14-105, executeTx.  The deferred function reads the variable
    [err] of the function: the errors of lines 47 and 93 go to variables of
    inner blocks, so these two returns commit.  Errors of commit and rollback
    are lost, because the results have no names.  A query leaves From and
    GasLimit of the step changed, which nothing reads later. *)
Definition executeTx (ident : bytes) (tx : transaction) (w : mworld) : mworld * sres vm_output :=
  match jz_value (t_value tx) with
  | None => (w, SPanic)
  | Some value =>
  let w := CreateStateBackup w in
  let '(w, gas) :=
    if HasSender (t_type tx) then
      let '(w, ok) := UpdateWorldStateBefore (jb_value (t_from tx))
                        (ju_value (t_gaslimit tx)) (ju_value (t_gasprice tx)) w in
      if ok then
        match t_esdt tx with
        | None => (w, SOk (ju_value (t_gaslimit tx)))
        | Some e =>
            let '(w, r) := directESDTTransferFromTx tx e w in
            (match r with SErr => CommitChanges w | _ => w end, r)
        end
      else (RollbackChanges w, SErr)
    else (w, SOk 0) in
  match gas with
  | SErr => (w, SErr)
  | SPanic => (w, SPanic)
  | SOk gas =>
      let '(w, r) := tx_output ident tx value gas w in
      match r with
      | SErr => (RollbackChanges w, SErr)
      | SPanic => (w, SPanic)
      | SOk o =>
          if bool_decide (o_code o = RcOk) then
            let '(w, ok) := updateStateAfterTx tx value o w in
            (CommitChanges w, if ok then SOk o else SErr)
          else (RollbackChanges w, SOk o)
      end
  end
  end.

(** * arwenmandos/execScenario.go *)

(** execScenario.go:87-98: the accounts of a setState step. *)
Fixpoint put_accounts (l : list account) (m : gmap bytes waccount)
  : gmap bytes waccount * sres unit :=
  match l with
  | [] => (m, SOk tt)
  | t :: r =>
      match convertAccount t with
      | SErr => (m, SErr)
      | SPanic => (m, SPanic)
      | SOk a => if Validate a then put_accounts r (<[wa_address a := a]> m) else (m, SErr)
      end
  end.

(** execScenario.go:81-114, ExecuteSetStateStep. *)
Definition ExecuteSetStateStep (accounts : list account) (previous current : option block_info)
    (hashes : list jbytes) (mocks : list new_address) (w : mworld) : mworld * sres unit :=
  match put_accounts accounts (mw_accts w) with
  | (m, SOk _) =>
      let w := mkMWorld m (mw_snaps w) (convertBlockInfo <$> previous)
                 (convertBlockInfo <$> current) (map jb_value hashes) (mw_mocks w) in
      if forallb (fun n => IsSmartContractAddress (jb_value (na_new n))) mocks
      then (mkMWorld m (mw_snaps w) (mw_previous w) (mw_current w) (mw_hashes w)
              (mw_mocks w ++ map convertNewAddressMock mocks), SOk tt)
      else (w, SErr)
  | (m, SErr) => (set_mw_accts m w, SErr)
  | (m, SPanic) => (set_mw_accts m w, SPanic)
  end.

(** execScenario.go:117-137, ExecuteTxStep. *)
Definition ExecuteTxStep (checkGas : bool) (ident : bytes) (tx : transaction)
    (expected : option tx_result) (w : mworld) : mworld * sres unit :=
  let '(w, r) := executeTx ident tx w in
  (w, sbind r (fun o => match expected with
                        | Some e => checkTxResults e checkGas o
                        | None => SOk tt
                        end)).

(** stepDumpWorld.go:153-170, DumpWorld, with 18-151.  What it prints is not
    modelled.  It fails when the tokens of an account cannot be read; that an
    account fails does not depend on the order in which Go visits them. *)
Fixpoint dump_each (l : list waccount) : sres unit :=
  match l with
  | [] => SOk tt
  | a :: r => sbind (GetFullMockESDTData a) (fun _ => dump_each r)
  end.
Definition DumpWorld (w : mworld) : sres unit :=
  dump_each (map snd (map_to_list (mw_accts w))).

(** execScenario.go:39-56, ExecuteStep, in one file: externalSteps, which reads
    another file, is in RunnerModel. *)
Definition ExecuteStep (checkGas : bool) (s : step) (w : mworld) : mworld * sres unit :=
  match s with
  | ExternalSteps _ _ => (w, SErr)
  | SetState _ accounts previous current hashes mocks =>
      ExecuteSetStateStep accounts previous current hashes mocks w
  | CheckState _ None => (w, SPanic)
  | CheckState _ (Some xs) => (w, checkAccounts xs w)
  | DumpState _ => (w, DumpWorld w)
  | TxStep ident _ tx expected => ExecuteTxStep checkGas ident tx expected w
  end.

(** execScenario.go:25-33: the steps, up to the first that fails. *)
Fixpoint ExecuteSteps (checkGas : bool) (l : list step) (w : mworld) : mworld * sres unit :=
  match l with
  | [] => (w, SOk tt)
  | s :: r =>
      match ExecuteStep checkGas s w with
      | (w, SOk _) => ExecuteSteps checkGas r w
      | other => other
      end
  end.
End World.
