(** Contract storage: properties C12-C17 and C19. *)
From Verif Require Import VmModel StoSpec StoProofs ExEnv.

(** a running contract whose memory starts with "kayb" and whose node storage
    holds k = "a", with gas prices of [exEnv] *)
Definition sto_world : world :=
  mkWorld {[ addr "s" := sc_user (str "code") 10 {[ str "k" := str "a" ]};
             addr "r" := sc_user (str "code") 10 {[ str "k" := str "theirs" ]};
             addr "p" := mkUser 0 0 (str "code") (str "code") (map zb [1; 0]) [] {[ str "k" := str "secret" ]} ]} ∅.
Definition sto_host : host :=
  ex_running (str "kayb" ++ replicate 60 Byte.x00 ++ addr "r" ++ addr "p" ++ str "ARWEN@x" ++ str "ELRONDx" ++
              str "kARWEN@TIMELOCK" ++ replicate 60 Byte.x00) sto_world.
Lemma sto_host_calling : calling sto_host.
Proof. eexists _, _. split; [reflexivity|]. split; [reflexivity|]. split; [vm_compute; split; discriminate|]. eexists. reflexivity. Qed.

(** C12: a write gives the cell the written value and changes no other cell of
    any account. *)
Theorem C12_write_takes_effect : forall `{E : env} fuel ko kl dO dl k v h,
  env_ok E -> calling h ->
  mem_load h (i32 ko) (i32 kl) = ROk k -> mem_load h (i32 dO) (i32 dl) = ROk v ->
  go_len (cell h (h_stoaddr h) k) -> may_write h k ->
  exists h' r, vmApi fuel (A_storageStore ko kl dO dl) h = (h', OOk r) /\ 0 <= r /\
    cell_set (h_stoaddr h) k v h h' /\ sto_frame h h' /\ cur_mem h' = cur_mem h /\ calling h'.
Proof. intros. eapply c12_store_ex; eassumption. Qed.
Print Assumptions C12_write_takes_effect.

(** C12: a read puts the value of the cell into memory, returns its length and
    changes no cell. *)
Theorem C12_read_gives_cell : forall `{E : env} fuel ko kl dO k h m m',
  env_ok E -> calling h ->
  mem_load h (i32 ko) (i32 kl) = ROk k -> go_len (cell h (h_stoaddr h) k) ->
  cur_mem h = ROk m -> MemStore m (i32 dO) (cell h (h_stoaddr h) k) = (m', ROk tt) ->
  exists h', vmApi fuel (A_storageLoad ko kl dO) h = (h', OOk (zlen (cell h (h_stoaddr h) k))) /\
    cur_mem h' = ROk m' /\ (forall a k', cell h' a k' = cell h a k') /\ sto_frame h h' /\
    o_refund (h_out h') = o_refund (h_out h) /\ h_stoprot h' = h_stoprot h /\ calling h'.
Proof. intros. apply c12_load with (m := m); assumption. Qed.
Print Assumptions C12_read_gives_cell.

Theorem C12_read_length : forall `{E : env} fuel ko kl k h,
  env_ok E -> calling h -> mem_load h (i32 ko) (i32 kl) = ROk k ->
  exists h', vmApi fuel (A_storageLoadLength ko kl) h = (h', OOk (zlen (cell h (h_stoaddr h) k))) /\
    (forall a k', cell h' a k' = cell h a k') /\ sto_frame h h'.
Proof. intros. apply c12_length; assumption. Qed.
Print Assumptions C12_read_length.

(** C12: every sequence of reads and write attempts gives what a plain map
    gives, starting from what the cells hold; a write attempt counts exactly
    when writing the key is allowed. *)
Theorem C12_sequences : forall `{E : env} ops h,
  env_ok E -> calling h -> Forall op_len ops -> (forall k, go_len (cell h (h_stoaddr h) k)) ->
  exists h', sto_exec ops h = (h', OOk (fst (sto_run (can_write h) ops (cell h (h_stoaddr h))))) /\
    (forall k, cell h' (h_stoaddr h) k = snd (sto_run (can_write h) ops (cell h (h_stoaddr h))) k) /\
    (forall a k, a <> h_stoaddr h -> cell h' a k = cell h a k) /\ sto_frame h h'.
Proof. intros. apply sto_exec_run; assumption. Qed.
Print Assumptions C12_sequences.

(** what a fresh transaction's cells hold: the node's values *)
Theorem C12_initially_node_value : forall h a k,
  o_accounts (h_out h) = ∅ -> cell h a k = node_value (h_world h) a k.
Proof. intros * H. unfold cell. rewrite H. reflexivity. Qed.
Print Assumptions C12_initially_node_value.

Example C12_ex :
  let ops := [SGet (str "k"); SSet (str "k") (str "b"); SSet (str "j") (str "cc"); SSet (str "ELRONDx") (str "no");
              SGet (str "k"); SGet (str "j"); SGet (str "ELRONDx"); SSet (str "k") []; SGet (str "k")] in
  snd (sto_exec (E := exEnv []) ops sto_host) =
  OOk [str "a"; str "b"; str "cc"; []; []].
Proof. vm_compute. reflexivity. Qed.

(** C13: result, gas and refund of a write.  [Z.min max_i64] is the saturation
    of the gas counter (which is beyond every gas limit); otherwise the numbers
    are plain integers. *)
Theorem C13_status_price_refund : forall `{E : env} fuel ko kl dO dl k v h z,
  env_ok E -> calling h ->
  mem_load h (i32 ko) (i32 kl) = ROk k -> mem_load h (i32 dO) (i32 dl) = ROk v ->
  go_len (cell h (h_stoaddr h) k) -> may_write h k ->
  let old := cell h (h_stoaddr h) k in
  o_refund (h_out h) = Some z -> 0 <= z -> z + released (e_cost E) old v <= max_i64 ->
  exists h', vmApi fuel (A_storageStore ko kl dO dl) h = (h', OOk (kind_num (kind_of old v))) /\
    points_of h' = Z.min max_i64 (points_of h + store_price (e_cost E) k old v) /\
    points_of h <= points_of h' /\
    o_refund (h_out h') = Some (z + released (e_cost E) old v) /\ 0 <= released (e_cost E) old v.
Proof. intros. eapply c13_store; eassumption. Qed.
Print Assumptions C13_status_price_refund.

(** "a" -> "yb": modified, 1 for the call, 2 for the kept byte, 1 for the new one *)
Example C13_ex_modified :
  let r := vmApi (E := exEnv []) 0 (A_storageStore 0 1 2 2) sto_host in
  (r.2, points_of r.1, o_refund (h_out r.1)) = (OOk 1, 4, Some 0).
Proof. vm_compute. reflexivity. Qed.
(** "a" -> "": deleted, one byte released *)
Example C13_ex_deleted :
  let r := vmApi (E := exEnv []) 0 (A_storageStore 0 1 2 0) sto_host in
  (r.2, points_of r.1, o_refund (h_out r.1)) = (OOk 3, 1, Some 1).
Proof. vm_compute. reflexivity. Qed.

(** C13 fails for the refund counter beyond 2^63: the addition wraps and the
    refund becomes negative. *)
Theorem C13_refund_bound_needed_refuted :
  exists (E : env) h z z', env_ok E /\ calling h /\ o_refund (h_out h) = Some z /\ 0 <= z <= max_i64 /\
    let r := vmApi 0 (A_storageStore 0 1 2 0) h in
    r.2 = OOk 3 /\ o_refund (h_out r.1) = Some z' /\ z' < 0.
Proof.
  exists (exEnv []), (set_h_out (set_o_refund (Some max_i64) (h_out sto_host)) sto_host), max_i64, min_i64.
  split; [apply exEnv_ok|].
  split. { eexists _, _. split; [reflexivity|]. split; [reflexivity|]. split; [vm_compute; split; discriminate|]. eexists. reflexivity. }
  split; [reflexivity|]. split; [vm_compute; split; discriminate|].
  vm_compute. tauto.
Qed.
Print Assumptions C13_refund_bound_needed_refuted.

(** C14 is false: overwriting a value by a different one of the same length is
    free, apart from the fixed price of the call. *)
Theorem C14_same_length_refuted :
  exists (E : env) h k old v, env_ok E /\ calling h /\ old <> v /\
    cell h (h_stoaddr h) k = old /\
    let r := vmApi 0 (A_storageStore 0 1 1 1) h in
    r.2 = OOk (kind_num WModified) /\ cell r.1 (h_stoaddr h) k = v /\
    points_of r.1 - points_of h < e_cost E PersistPerByte * blen v.
Proof.
  exists (exEnv []), (set_h_world (mkWorld {[ addr "s" := sc_user (str "code") 10 {[ str "k" := str "z" ]} ]} ∅) sto_host).
  exists (str "k"), (str "z"), (str "a").
  split; [apply exEnv_ok|].
  split. { eexists _, _. split; [reflexivity|]. split; [reflexivity|]. split; [vm_compute; split; discriminate|]. eexists. reflexivity. }
  split; [discriminate|]. split; [vm_compute; reflexivity|]. vm_compute. tauto.
Qed.
Print Assumptions C14_same_length_refuted.

(** C14 holds when the lengths differ, and storing is not cheaper than
    persisting. *)
Theorem C14_partial : forall `{E : env} fuel ko kl dO dl k v h,
  env_ok E -> calling h ->
  mem_load h (i32 ko) (i32 kl) = ROk k -> mem_load h (i32 dO) (i32 dl) = ROk v ->
  go_len (cell h (h_stoaddr h) k) -> may_write h k -> e_cost E PersistPerByte <= e_cost E StorePerByte ->
  cell h (h_stoaddr h) k <> v -> blen (cell h (h_stoaddr h) k) <> blen v ->
  exists h' r, vmApi fuel (A_storageStore ko kl dO dl) h = (h', OOk r) /\
    Z.min max_i64 (points_of h + e_cost E PersistPerByte * blen v) <= points_of h'.
Proof. intros. eapply c14_store; eassumption. Qed.
Print Assumptions C14_partial.

(** C15, the storage-store call: writing a reserved key fails the execution and
    changes no cell. *)
Theorem C15_store_fails : forall `{E : env} fuel ko kl dO dl k v h,
  env_ok E -> calling h ->
  mem_load h (i32 ko) (i32 kl) = ROk k -> mem_load h (i32 dO) (i32 dl) = ROk v ->
  r_ro (h_rt h) = false -> h_stoprot h = true -> reserved_key k \/ vm_key k ->
  exists h', vmApi fuel (A_storageStore ko kl dO dl) h = (h', OOk (-1)) /\
    (forall a k', cell h' a k' = cell h a k') /\ h_world h' = h_world h /\
    (exists i x, h_cur h' = Some i /\ h_insts h' !! i = Some x /\ in_bp x = BreakpointExecutionFailed) /\
    o_code (h_out h') = RcExecutionFailed.
Proof. intros. eapply c15_fails; eassumption. Qed.
Print Assumptions C15_store_fails.

Example C15_ex :
  mem_load sto_host 128 7 = ROk (str "ARWEN@x") /\
  snd (vmApi (E := exEnv []) 0 (A_storageStore 128 7 0 1) sto_host) = OOk (-1) /\
  snd (vmApi (E := exEnv []) 0 (A_storageStore 135 7 0 1) sto_host) = OOk (-1).
Proof. vm_compute. tauto. Qed.

(** C15 for VM-protected keys does not hold of the time-lock call: setting the
    lock of a key that starts with the protected prefix writes a key that
    starts with it. *)
Theorem C15_timelock_refuted :
  exists (E : env) h k, env_ok E /\ calling h /\ vm_key k /\
    let r := vmApi 0 (A_setStorageLock 128 7 5) h in
    r.2 = OOk (kind_num WAdded) /\ cell r.1 (h_stoaddr h) k <> cell h (h_stoaddr h) k.
Proof.
  exists (exEnv []), sto_host. exists (str "ARWEN@xARWEN@TIMELOCK").
  split; [apply exEnv_ok|]. split; [apply sto_host_calling|].
  split; [exists (str "xARWEN@TIMELOCK"); reflexivity|].
  split; [vm_compute; reflexivity|]. vm_compute. discriminate.
Qed.
Print Assumptions C15_timelock_refuted.

(** C16 is false: the cell of a time lock is the key followed by a suffix, and
    a contract can write it with the ordinary call: here it sets the lock of
    "k" to the byte 'a' = 97. *)
Theorem C16_lock_forged_refuted :
  exists (E : env) h, env_ok E /\ calling h /\
    mem_load h 0 1 = ROk (str "k") /\
    (vmApi 0 (A_getStorageLock 0 1) h).2 = OOk 0 /\
    let r := vmApi 0 (A_storageStore 142 15 1 1) h in
    r.2 = OOk (kind_num WAdded) /\ (vmApi 0 (A_getStorageLock 0 1) r.1).2 = OOk 97.
Proof.
  exists (exEnv []), sto_host.
  split; [apply exEnv_ok|]. split; [apply sto_host_calling|]. vm_compute. tauto.
Qed.
Print Assumptions C16_lock_forged_refuted.

(** What does hold of C16: a call with a key that has not the form of a lock
    cell changes no lock cell, of any account; likewise for the cell of pending
    asynchronous calls. *)
Theorem C16_partial : forall `{E : env} fuel ko kl dO dl k v h s,
  env_ok E -> calling h ->
  mem_load h (i32 ko) (i32 kl) = ROk k -> mem_load h (i32 dO) (i32 dl) = ROk v ->
  go_len (cell h (h_stoaddr h) k) -> h_stoprot h = true ->
  s = str "ARWEN@TIMELOCK" \/ s = str "ARWEN@ASYNC" -> (forall k', k <> k' ++ s) ->
  exists h' r, vmApi fuel (A_storageStore ko kl dO dl) h = (h', OOk r) /\
    forall a k', cell h' a (k' ++ s) = cell h a (k' ++ s).
Proof. intros. eapply c16_store; eassumption. Qed.
Print Assumptions C16_partial.

(** C17: setting a lock, then reading it. *)
Theorem C17_set_then_get : forall `{E : env} fuel ko kl t k h,
  env_ok E -> calling h -> mem_load h (i32 ko) (i32 kl) = ROk k -> 0 <= t <= max_i64 ->
  go_len (cell h (h_stoaddr h) (lock_cell k)) -> r_ro (h_rt h) = false -> ~ reserved_key (lock_cell k) ->
  exists h' h'' r, vmApi fuel (A_setStorageLock ko kl t) h = (h', OOk r) /\ 0 <= r /\
    vmApi fuel (A_getStorageLock ko kl) h' = (h'', OOk t) /\ sto_frame h h'.
Proof. intros. eapply c17_set_get; eassumption. Qed.
Print Assumptions C17_set_then_get.

(** C17: after any sequence of setStorageLock calls on any keys, the lock of
    each key is the last one set for it, and every cell that is no lock cell is
    unchanged. *)
Theorem C17_sequences : forall `{E : env} fuel cs h m,
  env_ok E -> calling h -> cur_mem h = ROk m -> r_ro (h_rt h) = false ->
  (forall k, go_len (cell h (h_stoaddr h) k)) ->
  Forall (fun c : lock_call => let '((ko, kl, t), k) := c in
     MemLoad m (i32 ko) (i32 kl) = ROk k /\ ~ reserved_key (lock_cell k)) cs ->
  exists h', run_apis fuel (map lc_api cs) h = (h', OOk tt) /\
    (forall a k', (forall k, k' <> lock_cell k) \/ a <> h_stoaddr h -> cell h' a k' = cell h a k') /\
    (forall k, cell h' (h_stoaddr h) (lock_cell k) =
       match last_lock (map lc_lock cs) k None with Some t => timelockBytes t | None => cell h (h_stoaddr h) (lock_cell k) end) /\
    cur_mem h' = ROk m /\ calling h' /\ sto_frame h h'.
Proof. intros. eapply c17_seq'; eassumption. Qed.
Print Assumptions C17_sequences.

(** C17: a lock that holds [t] reads as [t], however the state came about. *)
Theorem C17_get : forall `{E : env} fuel ko kl k t h,
  env_ok E -> calling h -> mem_load h (i32 ko) (i32 kl) = ROk k ->
  cell h (h_stoaddr h) (lock_cell k) = timelockBytes t -> 0 <= t <= max_i64 ->
  exists h', vmApi fuel (A_getStorageLock ko kl) h = (h', OOk t) /\
    (forall a k', cell h' a k' = cell h a k') /\ sto_frame h h'.
Proof. intros. eapply c17_get'; eassumption. Qed.
Print Assumptions C17_get.

(** C17: locked exactly while the block timestamp is smaller. *)
Theorem C17_locked_iff : forall `{E : env} fuel ko kl k t h,
  env_ok E -> calling h -> mem_load h (i32 ko) (i32 kl) = ROk k ->
  cell h (h_stoaddr h) (lock_cell k) = timelockBytes t ->
  0 <= t <= max_i64 -> 0 <= e_blockinfo E true "timestamp" <= max_i64 ->
  exists h', vmApi fuel (A_isStorageLocked ko kl) h =
      (h', OOk (if e_blockinfo E true "timestamp" <? t then 1 else 0)) /\
    (forall a k', cell h' a k' = cell h a k') /\ sto_frame h h'.
Proof. intros. eapply c17_locked; eassumption. Qed.
Print Assumptions C17_locked_iff.

(** C17: clearing a lock unlocks the key, at every block timestamp. *)
Theorem C17_clear : forall `{E : env} fuel ko kl k h,
  env_ok E -> calling h -> mem_load h (i32 ko) (i32 kl) = ROk k ->
  go_len (cell h (h_stoaddr h) (lock_cell k)) -> r_ro (h_rt h) = false -> ~ reserved_key (lock_cell k) ->
  0 <= e_blockinfo E true "timestamp" <= max_i64 ->
  exists h' h'' r, vmApi fuel (A_clearStorageLock ko kl) h = (h', OOk r) /\ 0 <= r /\
    vmApi fuel (A_isStorageLocked ko kl) h' = (h'', OOk 0).
Proof. intros. eapply c17_clear; eassumption. Qed.
Print Assumptions C17_clear.

(** locks of "k" and "ay" at time 1000 *)
Example C17_ex :
  let E := exEnv [] in
  let h := fst (run_apis (E := E) 0 [A_setStorageLock 0 1 1001; A_setStorageLock 1 2 1000] sto_host) in
  snd (vmApi (E := E) 0 (A_isStorageLocked 0 1) h) = OOk 1 /\
  snd (vmApi (E := E) 0 (A_isStorageLocked 1 2) h) = OOk 0 /\
  snd (vmApi (E := E) 0 (A_getStorageLock 1 2) h) = OOk 1000.
Proof. vm_compute. tauto. Qed.

(** C19: another account's storage is not readable: nothing is returned. *)
Theorem C19_denied : forall `{E : env} fuel ao ko kl dO k a h,
  env_ok E -> calling h ->
  mem_load h (i32 ko) (i32 kl) = ROk k -> mem_load h (i32 ao) 32 = ROk a -> ~ may_read_from h a ->
  exists h', vmApi fuel (A_storageLoadFromAddress ao ko kl dO) h = (h', OOk 0) /\
    cur_mem h' = cur_mem h /\ h_out h' = h_out h /\ sto_frame h h'.
Proof. intros * ? ? ? ? H. rewrite may_read_spec in H. eapply c19_denied; eassumption. Qed.
Print Assumptions C19_denied.

(** ... and if it is readable, the value of the cell is returned (the node's
    value for keys reserved by the protocol). *)
Theorem C19_allowed : forall `{E : env} fuel ao ko kl dO k a h m m' v,
  env_ok E -> calling h ->
  mem_load h (i32 ko) (i32 kl) = ROk k -> mem_load h (i32 ao) 32 = ROk a -> may_read_from h a ->
  (reserved_key k -> v = node_value (h_world h) a k) -> (~ reserved_key k -> v = cell h a k) ->
  go_len v -> cur_mem h = ROk m -> MemStore m (i32 dO) v = (m', ROk tt) ->
  exists h', vmApi fuel (A_storageLoadFromAddress ao ko kl dO) h = (h', OOk (zlen v)) /\
    cur_mem h' = ROk m' /\ (forall b k', cell h' b k' = cell h b k') /\ sto_frame h h'.
Proof. intros. eapply c19_allowed'; eassumption. Qed.
Print Assumptions C19_allowed.

Example C19_ex :
  snd (vmApi (E := exEnv []) 0 (A_storageLoadFromAddress 64 0 1 4) sto_host) = OOk 6 /\
  snd (vmApi (E := exEnv []) 0 (A_storageLoadFromAddress 96 0 1 4) sto_host) = OOk 0.
Proof. vm_compute. tauto. Qed.
