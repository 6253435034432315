(** C96: a contract that reads a value kept by the protocol gets the node's. *)
From Verif Require Import VmModel CallSpec StoSpec ReservedSpec ExReserved ReservedProofs.

(** Read with an address, a reserved key gives the value the node has at that
    moment, and nothing is put into the output. *)
Theorem C96_from_address : forall `{E : env} fuel ao ko kl dO k a h m m',
  env_ok E -> calling h ->
  mem_load h (i32 ko) (i32 kl) = ROk k -> mem_load h (i32 ao) 32 = ROk a -> may_read_from h a -> reserved_key k ->
  go_len (node_value (h_world h) a k) -> cur_mem h = ROk m -> MemStore m (i32 dO) (node_value (h_world h) a k) = (m', ROk tt) ->
  exists h', vmApi fuel (A_storageLoadFromAddress ao ko kl dO) h = (h', OOk (zlen (node_value (h_world h) a k))) /\
    cur_mem h' = ROk m' /\ h_out h' = h_out h /\ h_world h' = h_world h.
Proof. exact @c96_from. Qed.
Print Assumptions C96_from_address.

(** Read without an address, a key gives the value the node has if the output
    has no value for it yet.  What is missing: reserved keys that are in the
    output, see C96_stale_refuted. *)
Theorem C96_own_partial : forall `{E : env} fuel ko kl dO k h m m',
  env_ok E -> calling h ->
  mem_load h (i32 ko) (i32 kl) = ROk k -> not_recorded h (h_stoaddr h) k ->
  go_len (node_value (h_world h) (h_stoaddr h) k) ->
  cur_mem h = ROk m -> MemStore m (i32 dO) (node_value (h_world h) (h_stoaddr h) k) = (m', ROk tt) ->
  exists h', vmApi fuel (A_storageLoad ko kl dO) h = (h', OOk (zlen (node_value (h_world h) (h_stoaddr h) k))) /\
    cur_mem h' = ROk m'.
Proof. exact @c96_own. Qed.
Print Assumptions C96_own_partial.

(** A contract that reads a reserved key, has it changed by a built-in function
    and reads it again gets the old value; read with its own address, the key
    gives the new one. *)
Theorem C96_stale_refuted : exists (E : env) h i k,
  env_ok E /\ no_stacks h /\ reserved_key k /\
  let r := RunSmartContractCall 12 i h in
  returned r = Some (RcOk, [str "old"; str "old"; str "new"]) /\
  node_value (h_world h) (ci_rcpt i) k = str "old" /\ node_value (h_world (fst r)) (ci_rcpt i) k = str "new".
Proof.
  exists resEnv, resHost, (txS "f" 0 50000), res_key.
  split; [apply exEnvWith_ok|]. split; [constructor; reflexivity|]. split; [exists (str "k"); reflexivity|]. vm_compute. tauto.
Qed.
Print Assumptions C96_stale_refuted.

(** Such a transaction tells the node to store the old value again, although no
    contract has written the key and none may. *)
Theorem C96_stored_refuted : exists (E : env) h i k,
  env_ok E /\ no_stacks h /\ reserved_key k /\
  let r := RunSmartContractCall 12 i h in
  (exists l, returned r = Some (RcOk, l)) /\
  to_store r (ci_rcpt i) k = Some (str "old") /\ node_value (h_world (fst r)) (ci_rcpt i) k = str "new".
Proof.
  exists resEnv, resHost, (txS "f" 0 50000), res_key.
  split; [apply exEnvWith_ok|]. split; [constructor; reflexivity|]. split; [exists (str "k"); reflexivity|].
  split; [eexists; vm_compute; reflexivity|]. vm_compute. tauto.
Qed.
Print Assumptions C96_stored_refuted.

(** without the first read, both ways give the new value *)
Example C96_ex : returned (resRun "g") = Some (RcOk, [str "new"; str "new"]).
Proof. vm_compute. reflexivity. Qed.
(** the first read of a running contract, of a reserved key *)
Example C96_ex_read :
  let h := ex_running (str "ELRONDk" ++ addr "s" ++ replicate 60 Byte.x00)
             (mkWorld {[addr "s" := sc_user (addr "s") 100 {[res_key := str "old"]}]} ∅) in
  (exists k, mem_load h 0 7 = ROk k /\ reserved_key (E := resEnv) k /\ not_recorded h (h_stoaddr h) k /\
     node_value (h_world h) (h_stoaddr h) k = str "old") /\
  snd (vmApi (E := resEnv) 0 (A_storageLoad 0 7 50) h) = OOk 3 /\
  snd (vmApi (E := resEnv) 0 (A_storageLoadFromAddress 7 0 7 50) h) = OOk 3.
Proof.
  split; [|vm_compute; tauto]. exists (str "ELRONDk"). split; [vm_compute; reflexivity|].
  split; [exists (str "k"); reflexivity|]. vm_compute. tauto.
Qed.
