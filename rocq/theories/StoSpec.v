(** What contract storage means: vocabulary for C12-C14, C16, C17, C19. *)
From Verif Require Export VmTypes.

(** the value the node has for a cell *)
Definition node_value (w : world) (a k : bytes) : bytes :=
  match w_accounts w !! a with
  | Some u => default [] (ua_storage u !! k)
  | None => []
  end.

(** the value of a cell at this point of the transaction: what this
    transaction's output holds for it, or else the node's value *)
Definition cell (h : host) (a k : bytes) : bytes :=
  match o_accounts (h_out h) !! a with
  | Some x => default (node_value (h_world h) a k) (oa_storage x !! k)
  | None => node_value (h_world h) a k
  end.

Inductive write_kind := WUnchanged | WAdded | WDeleted | WModified.
Definition kind_of (old new : bytes) : write_kind :=
  if bool_decide (old = new) then WUnchanged else
  if bool_decide (old = []) then WAdded else
  if bool_decide (new = []) then WDeleted else WModified.

(** the number a contract gets back (arwen/interface.go:233-247) *)
Definition kind_num (k : write_kind) : Z :=
  match k with WUnchanged => 0 | WModified => 1 | WAdded => 2 | WDeleted => 3 end.

(** prices as documented: copy for an unchanged value, store per new byte,
    persist per overwritten byte; true (unbounded) integers *)
Definition key_price (price : cost -> Z) (key : bytes) : Z :=
  price DataCopyPerByte * Z.max 0 (blen key - 32).
Definition value_price (price : cost -> Z) (old new : bytes) : Z :=
  match kind_of old new with
  | WUnchanged => price DataCopyPerByte * blen new
  | WAdded => price StorePerByte * blen new
  | WDeleted => 0
  | WModified =>
      if blen old <? blen new then price PersistPerByte * blen old + price StorePerByte * (blen new - blen old)
      else if blen new <? blen old then price PersistPerByte * blen new
      else 0
  end.
Definition released (price : cost -> Z) (old new : bytes) : Z :=
  match kind_of old new with
  | WDeleted => price ReleasePerByte * blen old
  | WModified => price ReleasePerByte * Z.max 0 (blen old - blen new)
  | _ => 0
  end.

(** sequences of reads and write attempts of one contract, and what they give:
    the values read, and the final value of every cell; [ok k] says whether
    writing [k] is allowed *)
Inductive sto_op := SGet (k : bytes) | SSet (k v : bytes).
Fixpoint sto_run (ok : bytes -> bool) (ops : list sto_op) (m : bytes -> bytes) : list bytes * (bytes -> bytes) :=
  match ops with
  | [] => ([], m)
  | SGet k :: ops => let r := sto_run ok ops m in (m k :: fst r, snd r)
  | SSet k v :: ops => sto_run ok ops (fun x => if ok k && bool_decide (x = k) then v else m x)
  end.

(** the price list of a storageStore call *)
Definition store_price (price : cost -> Z) (key old new : bytes) : Z :=
  price CStorageStore + key_price price key + value_price price old new.

(** only the cell [k] of [a] differs, and it holds [v] *)
Definition cell_set (a k v : bytes) (h h' : host) : Prop :=
  forall b k', cell h' b k' = if bool_decide (b = a) && bool_decide (k' = k) then v else cell h b k'.

(** the account of an address in an output, empty if there is none *)
Definition acc_of (o : vm_output) (a : bytes) : out_account :=
  default (mkAcc 0 None 0 ∅ [] [] None [] 0) (o_accounts o !! a).

(** two outputs that differ at most in storage cells and the refund counter *)
Definition same_but_cells (o o' : vm_output) : Prop :=
  o_retdata o' = o_retdata o /\ o_code o' = o_code o /\ o_msg o' = o_msg o /\ o_gasrem o' = o_gasrem o /\
  o_logs o' = o_logs o /\
  forall a, set_oa_storage ∅ (acc_of o' a) = set_oa_storage ∅ (acc_of o a).

(** nothing else changed: what a storage call must leave alone *)
Definition sto_frame (h h' : host) : Prop :=
  same_but_cells (h_out h) (h_out h') /\
  h_world h' = h_world h /\ h_rt h' = h_rt h /\ h_big h' = h_big h /\ h_stoaddr h' = h_stoaddr h /\
  h_met h' = h_met h /\ h_trace h' = h_trace h /\ h_cur h' = h_cur h /\ h_outst h' = h_outst h /\
  h_rtst h' = h_rtst h /\ h_stost h' = h_stost h /\ h_bcst h' = h_bcst h.

(** a contract is running, its gas counter is within bounds and the output has a refund counter *)
Definition calling (h : host) : Prop :=
  exists i x, h_cur h = Some i /\ h_insts h !! i = Some x /\ 0 <= in_points x <= max_i64 /\
              is_Some (o_refund (h_out h)).

(** a byte string of any length a Go slice can have *)
Definition go_len (b : bytes) : Prop := blen b <= max_i64.

(** time locks set by a sequence of (key, timestamp) calls, in order: the last one for [k] *)
Fixpoint last_lock (cs : list (bytes * Z)) (k : bytes) (old : option Z) : option Z :=
  match cs with
  | [] => old
  | (k', t) :: cs => last_lock cs k (if bool_decide (k = k') then Some t else old)
  end.

(** keys that belong to the protocol, and keys that belong to the VM *)
Definition reserved_key `{E : env} (k : bytes) : Prop := e_protected E `prefix_of` k.
Definition vm_key (k : bytes) : Prop := str "ARWEN@" `prefix_of` k.

(** a contract may write [k]: not in read-only mode, not such a key *)
Definition may_write `{E : env} (h : host) (k : bytes) : Prop :=
  r_ro (h_rt h) = false /\ ~ reserved_key k /\ ~ vm_key k.

(** where the time lock of [k] is kept *)
Definition lock_cell (k : bytes) : bytes := k ++ str "ARWEN@TIMELOCK".

(** the code metadata has the readable flag: two bytes, bit 2 of the first *)
Definition readable (u : user_account) : Prop :=
  exists b0 b1, ua_meta u = [b0; b1] /\ Z.testbit (bz b0) 2 = true.
(** [a] is the account whose storage is in use, or is readable *)
Definition may_read_from (h : host) (a : bytes) : Prop :=
  a = h_stoaddr h \/ exists u, w_accounts (h_world h) !! a = Some u /\ readable u.
