(** arwendebug: the debugging facade, which serves each request on a world read
    from a file and written back to it. *)
From Verif Require Import Base CallDataModel MandosModel ScenModel WorldModel CtxModel.

(** The outside: what UpdateAccounts uses ([de_mock]), the files with code, the
    virtual machine and the disk.  The machine is made anew for each request on
    a world that has only accounts (world.go:34-54); without built-in functions
    (world.go:62) it does not write to the world itself.  [de_create] also gives
    the address it asked for last (nothing if it asked for none). *)
Record denv := mkDEnv {
  de_mock : wenv;
  de_code : bytes -> option bytes;                    (* ioutil.ReadFile of a CodePath *)
  de_create : gmap bytes waccount -> create_input -> option vm_output * bytes;
  de_call : gmap bytes waccount -> call_input -> option vm_output;
  de_writable : bool * list bytes -> bool             (* ioutil.WriteFile succeeds *)
}.
Existing Class denv.

(** * Files *)

(** path.Clean, from the standard library: whether the path is rooted, and its
    components ("/" or nothing in front, joined by "/").  Two spellings name the
    same file here if they are the same after cleaning; links are left out. *)
Fixpoint clean_parts (rooted : bool) (parts acc : list bytes) : list bytes :=
  match parts with
  | [] => rev acc
  | c :: r =>
      if bool_decide (c = []) || bool_decide (c = str ".") then clean_parts rooted r acc
      else if bool_decide (c = str "..") then
        match acc with
        | x :: acc' =>
            if bool_decide (x = str "..") then clean_parts rooted r (c :: acc)
            else clean_parts rooted r acc'
        | [] => clean_parts rooted r (if rooted then [] else [c])
        end
      else clean_parts rooted r (c :: acc)
  end.
Definition slash : byte := Byte.x2f.
Definition Clean (p : bytes) : bool * list bytes :=
  let rooted := match p with c :: _ => is c slash | [] => false end in
  (rooted, clean_parts rooted (split_on slash p) []).

(** database.go:54-56, 89-91: path.Join, which cleans the parts joined by "/"; the
    root is not empty (messagesBase.go:17-19). *)
Definition getWorldFile (root id : bytes) : bool * list bytes :=
  Clean (root ++ str "/worlds/" ++ id ++ str ".json").
Definition getOutcomeFile (root id : bytes) : bool * list bytes :=
  Clean (root ++ str "/out/" ++ id ++ str ".json").

(** encoding/json writes text as UTF-8: bytes that are not part of a well-formed
    character (unicode/utf8) come back as U+FFFD. *)
Definition between (lo hi : Z) (b : byte) : bool := (lo <=? bz b) && (bz b <=? hi).
Definition is_two (a b : byte) : bool := between 194 223 a && between 128 191 b.
Definition is_three (a b c : byte) : bool :=
  ((bz a =? 224) && between 160 191 b || between 225 236 a && between 128 191 b ||
   (bz a =? 237) && between 128 159 b || between 238 239 a && between 128 191 b) && between 128 191 c.
Definition is_four (a b c d : byte) : bool :=
  ((bz a =? 240) && between 144 191 b || between 241 243 a && between 128 191 b ||
   (bz a =? 244) && between 128 143 b) && between 128 191 c && between 128 191 d.
Definition replacement : bytes := [Byte.xef; Byte.xbf; Byte.xbd].
Fixpoint as_text (l : bytes) : bytes :=
  match l with
  | [] => []
  | a :: l1 =>
      if bz a <? 128 then a :: as_text l1 else
      match l1 with
      | b :: l2 =>
          if is_two a b then a :: b :: as_text l2 else
          match l2 with
          | c :: l3 =>
              if is_three a b c then a :: b :: c :: as_text l3 else
              match l3 with
              | d :: l4 => if is_four a b c d then a :: b :: c :: d :: as_text l4 else replacement ++ as_text l1
              | [] => replacement ++ as_text l1
              end
          | [] => replacement ++ as_text l1
          end
      | [] => replacement ++ as_text l1
      end
  end.

(** A map with text keys, written and read again: the entries are written in the
    order of the keys, and of entries read for the same key the last stays. *)
Definition as_text_map {V} (f : V -> V) (m : gmap bytes V) : gmap bytes V :=
  fold_left (fun r kv => <[as_text (fst kv) := f (snd kv)]> r) (sorted_by_key (map_to_list m)) ∅.
(** worldAccount.go:21-39 as JSON: byte slices are written in base 64 and numbers
    in digits, so that they come back (nil and empty are not told apart here);
    the keys of the storage and AsyncCallData are text. *)
Definition as_text_account (a : waccount) : waccount :=
  set_wa_async (as_text (wa_async a)) (set_wa_storage (as_text_map (fun v => v) (wa_storage a)) a).
(** world.go:14-17, worldDataModel; [None] is a nil map. *)
Record world_data := mkWorldData { wd_id : bytes; wd_accounts : option (gmap bytes waccount) }.

(** Contents of a file: a world as written by storeWorld (after text has been made
    of it), another JSON object, without the fields of a world, as written by
    storeOutcome, or something that cannot be read. *)
Inductive content := FWorld (d : world_data) | FObject | FJunk.
Notation disk := (gmap (bool * list bytes) content).

(** database.go:94-101 with encoding/json into a worldDataModel *)
Definition readWorldDataModel (c : content) : option world_data :=
  match c with
  | FWorld d => Some d
  | FObject => Some (mkWorldData [] None)
  | FJunk => None
  end.
(** database.go:34-52, loadWorld, with newWorld (world.go:34-54), which succeeds. *)
Definition loadWorld (root id : bytes) (fs : disk) : option world_data :=
  match fs !! getWorldFile root id with
  | Some c => readWorldDataModel c
  | None => Some (mkWorldData id (Some ∅))
  end.
(** world.go:138-148, toDataModel: Clone makes a map.  database.go:72-78,
    storeWorld; [None] if the file cannot be written. *)
Definition storeWorld `{denv} (root : bytes) (d : world_data) (fs : disk) : option disk :=
  let file := getWorldFile root (wd_id d) in
  if de_writable _ file
  then Some (<[file := FWorld (mkWorldData (as_text (wd_id d))
                 (Some (as_text_map as_text_account (default ∅ (wd_accounts d)))))]> fs)
  else None.
(** database.go:80-88, storeOutcome *)
Definition storeOutcome `{denv} (root key : bytes) (fs : disk) : option disk :=
  match key with
  | [] => Some fs
  | _ => let file := getOutcomeFile root key in
         if de_writable _ file then Some (<[file := FObject]> fs) else None
  end.

(** * Requests *)

(** messagesBase.go:10-14, 33-42 *)
Record request_base := mkBase { rb_database : bytes; rb_world : bytes; rb_outcome : bytes }.
Record contract_base := mkContract {
  cb_impersonated : bytes; cb_value : bytes; cb_gasprice : Z; cb_gaslimit : Z }.
(** messagesDeploy.go:10-19; fields that digest always overwrites are left out. *)
Record code_part := mkCodePart {
  cp_hex : bytes; cp_code : bytes; cp_path : bytes; cp_meta : bytes; cp_args : list bytes }.
(** messagesRun.go:4-11 *)
Record run_part := mkRunPart { rp_address : bytes; rp_function : bytes; rp_args : list bytes }.
Inductive request :=
| Deploy (b : request_base) (c : contract_base) (p : code_part)
| Upgrade (b : request_base) (c : contract_base) (p : code_part) (address : bytes)
| Run (b : request_base) (c : contract_base) (p : run_part)
| Query (b : request_base) (c : contract_base) (p : run_part)
| CreateAccount (b : request_base) (address balance : bytes) (nonce : Z).
Definition base_of (r : request) : request_base :=
  match r with
  | Deploy b _ _ | Upgrade b _ _ _ | Run b _ _ | Query b _ _ | CreateAccount b _ _ _ => b
  end.

(** messagesBase.go:16-26 *)
Definition digest_base (b : request_base) : request_base :=
  mkBase (match rb_database b with [] => str "./db" | d => d end)
    (match rb_world b with [] => str "default" | w => w end) (rb_outcome b).
(** common.go:9-22 *)
Fixpoint decodeArguments (l : list bytes) : option (list bytes) :=
  match l with
  | [] => Some []
  | a :: r =>
      match hex_decode a, decodeArguments r with
      | Some d, Some ds => Some (d :: ds)
      | _, _ => None
      end
  end.
(** common.go:24-35 *)
Definition parseValue (v : bytes) : option Z :=
  match v with [] => Some 0 | _ => SetString 10 v end.
(** constants.go:4 *)
Definition DefaultGasPrice : Z := 200000000000.
(** messagesBase.go:44-73: caller, value, gas price and gas limit *)
Definition digest_contract (c : contract_base) : option (bytes * Z * Z * Z) :=
  match cb_impersonated c with
  | [] => None
  | h =>
      match hex_decode h with
      | None => None
      | Some caller =>
          if cb_gaslimit c =? 0 then None else
          match parseValue (cb_value c) with
          | None => None
          | Some v => Some (caller, v, (if cb_gasprice c =? 0 then DefaultGasPrice else cb_gasprice c), cb_gaslimit c)
          end
      end
  end.
(** messagesDeploy.go:21-58: code, metadata and arguments.  CodeMetadata of an
    upgradeable contract is 0x0100. *)
Definition digest_code `{denv} (p : code_part) : option (bytes * bytes * list bytes) :=
  match (match cp_hex p with [] => Some (cp_code p) | h => hex_decode h end) with
  | None => None
  | Some code =>
      match (match cp_path p with [] => Some code | f => de_code _ f end) with
      | None | Some [] => None
      | Some code =>
          match (match cp_meta p with [] => Some [Byte.x01; Byte.x00] | m => hex_decode m end), decodeArguments (cp_args p) with
          | Some meta, Some args => Some (code, meta, args)
          | _, _ => None
          end
      end
  end.

(** * Serving *)

(** worldInput.go:8-49; the rest of the input has Go's zero values. *)
Definition vm_input_of (c : bytes * Z * Z * Z) (args : list bytes) : vm_input :=
  let '(caller, value, price, limit) := c in
  mkInput caller args value DirectCall price limit 0 [] [] [] false.

(** Responses: messagesBase.go:76-93 (an error stands for no output; the name of
    the return code is left out), messagesDeploy.go:61-65, messagesAccounts.go:43-45. *)
Inductive response :=
| RContract (i : vm_input) (o : option vm_output)
| RDeploy (i : vm_input) (o : option vm_output) (address : bytes)
| RAccount (a : waccount).

(** What a digested request asks of the world. *)
Inductive action :=
| DoCreate (i : create_input)
| DoCall (i : call_input)
| DoQuery (i : call_input)
| DoAccount (a : waccount).
(** The digest methods with the prepare functions of worldInput.go and, for
    accounts, messagesAccounts.go:19-40 and world.go:125-135. *)
Definition digest `{denv} (r : request) : option action :=
  match r with
  | Deploy _ c p =>
      match digest_contract c, digest_code p with
      | Some c, Some (code, meta, args) => Some (DoCreate (mkCreate (vm_input_of c args) code meta))
      | _, _ => None
      end
  | Upgrade _ c p address =>
      match digest_contract c, digest_code p, hex_decode address with
      | Some c, Some (code, meta, args), Some a =>
          Some (DoCall (mkCall (vm_input_of c (code :: meta :: args)) a UpgradeFunctionName false))
      | _, _, _ => None
      end
  | Run _ c p =>
      match digest_contract c, decodeArguments (rp_args p), hex_decode (rp_address p) with
      | Some c, Some args, Some a => Some (DoCall (mkCall (vm_input_of c args) a (rp_function p) false))
      | _, _, _ => None
      end
  | Query _ c p =>
      match digest_contract c, decodeArguments (rp_args p), hex_decode (rp_address p) with
      | Some c, Some args, Some a => Some (DoQuery (mkCall (vm_input_of c args) a (rp_function p) false))
      | _, _, _ => None
      end
  | CreateAccount _ address balance nonce =>
      match address with
      | [] => None
      | _ => match hex_decode address, parseValue balance with
             | Some a, Some b => Some (DoAccount (mkWAcc false a nonce b 0 ∅ [] [] [] [] [] [] 0 0 false))
             | _, _ => None
             end
      end
  end.

(** worldUpdate.go:52-65, UpdateAccounts on a map that may be nil: [None] is a
    panic. *)
Definition update `{denv} (o : option vm_output) (m : option (gmap bytes waccount))
  : option (option (gmap bytes waccount)) :=
  match o, m with
  | None, _ => Some m
  | Some o, Some m =>
      Some (Some (mw_accts (UpdateAccounts (W := de_mock _) (o_accounts o) (mkMWorld m [] None None [] []))))
  | Some o, None => if bool_decide (o_accounts o = ∅) then Some None else None
  end.

(** world.go:66-136: the accounts afterwards and the response. *)
Definition serve `{denv} (a : action) (m : option (gmap bytes waccount))
  : option (option (gmap bytes waccount) * response) :=
  match a with
  | DoCreate i =>
      let '(o, address) := de_create _ (default ∅ m) i in
      match update o m with Some m => Some (m, RDeploy (cc_vm i) o address) | None => None end
  | DoCall i =>
      let o := de_call _ (default ∅ m) i in
      match update o m with Some m => Some (m, RContract (ci_vm i) o) | None => None end
  | DoQuery i => Some (m, RContract (ci_vm i) (de_call _ (default ∅ m) i))
  | DoAccount x =>
      match m with
      | Some m => Some (Some (<[wa_address x := x]> m), RAccount x)
      | None => None
      end
  end.
Definition is_query (a : action) : bool := match a with DoQuery _ => true | _ => false end.

(** facade.go:22-175: one request.  The five methods differ in the request and
    in that QuerySmartContract does not store the world. *)
Definition facade `{denv} (r : request) (fs : disk) : disk * sres response :=
  match digest r with
  | None => (fs, SErr)
  | Some a =>
      let b := digest_base (base_of r) in
      match loadWorld (rb_database b) (rb_world b) fs with
      | None => (fs, SErr)
      | Some d =>
          match serve a (wd_accounts d) with
          | None => (fs, SPanic)
          | Some (m, res) =>
              match (if is_query a then Some fs else storeWorld (rb_database b) (mkWorldData (wd_id d) m) fs) with
              | None => (fs, SErr)
              | Some fs =>
                  match storeOutcome (rb_database b) (rb_outcome b) fs with
                  | None => (fs, SErr)
                  | Some fs => (fs, SOk res)
                  end
              end
          end
      end
  end.
(** several requests, one after the other *)
Fixpoint facade_run `{denv} (l : list request) (fs : disk) : disk * list (sres response) :=
  match l with
  | [] => (fs, [])
  | r :: l =>
      let '(fs, x) := facade r fs in
      let '(fs, xs) := facade_run l fs in (fs, x :: xs)
  end.
