(** C62: numbers kept in storage are read back as they were. *)
From Verif Require Import VmModel CodecSpec BigSpec StoSpec StoProofs QuerySpec QueryProofs TypedSpec TypedProofs ExEnv StoTheorems.

(** C62: a store gives the cell the shortest encoding of the number, changes no
    other cell of any account, no handle's value and nothing else, and returns
    what kind of write it was. *)
Theorem C62_number_stored : forall `{E : env} fuel c ko kl z d k h m,
  env_ok E -> calling h -> cur_mem h = ROk m -> blen (m_data m) <= max_i32 ->
  data_at (m_data m) ko kl k -> keeps_number h c ko kl z d ->
  go_len d -> go_len (cell h (h_stoaddr h) k) -> may_write h k ->
  exists h', vmApi fuel c h = (h', OOk (kind_num (kind_of (cell h (h_stoaddr h) k) d))) /\
    cell_set (h_stoaddr h) k d h h' /\ sto_frame_but_big h h' /\ (forall y, bval (h_big h') y = bval (h_big h) y) /\
    cur_mem h' = ROk m /\ h_stoprot h' = h_stoprot h /\ calling h'.
Proof. intros. eapply c62_store; try eassumption. apply may_write_writable. assumption. Qed.
Print Assumptions C62_number_stored.

(** C62: a load decodes the cell and changes no cell. *)
Theorem C62_number_loaded : forall `{E : env} fuel c ko kl hs r k h m,
  env_ok E -> calling h -> cur_mem h = ROk m -> blen (m_data m) <= max_i32 ->
  data_at (m_data m) ko kl k -> go_len (cell h (h_stoaddr h) k) ->
  reads_number (cell h (h_stoaddr h) k) c ko kl hs r ->
  exists h', vmApi fuel c h = (h', OOk r) /\
    (forall a k', cell h' a k' = cell h a k') /\ sto_frame_but_big h h' /\
    (forall y, bval (h_big h') y = assigned hs (bval (h_big h)) y) /\
    cur_mem h' = ROk m /\ calling h'.
Proof. intros. eapply c62_load; eassumption. Qed.
Print Assumptions C62_number_loaded.

(** C62: what was kept is what is read: every 64-bit integer, signed or
    unsigned, and every big integer that is not negative. *)
Theorem C62_round_trip_partial : forall `{E : env} f1 f2 c c' ko kl ko' kl' z d k h m hs r,
  env_ok E -> calling h -> cur_mem h = ROk m -> blen (m_data m) <= max_i32 ->
  data_at (m_data m) ko kl k -> data_at (m_data m) ko' kl' k ->
  keeps_number h c ko kl z d -> go_len d -> go_len (cell h (h_stoaddr h) k) -> may_write h k ->
  reads_back c c' ko' kl' z hs r ->
  exists h1 n h2 r2, vmApi f1 c h = (h1, OOk n) /\ vmApi f2 c' h1 = (h2, OOk r2) /\
    match r with Some r => r2 = r | None => True end /\
    forall y, bval (h_big h2) y = assigned hs (bval (h_big h)) y.
Proof. intros. apply (c62_round_trip f1 f2 c c' ko kl ko' kl' z d k h m hs r); try assumption. apply may_write_writable. assumption. Qed.
Print Assumptions C62_round_trip_partial.

(** C62: a negative big integer comes back without its sign, and both calls
    succeed. *)
Definition neg_host : host := set_h_big {[3 := -1000]} sto_host.
Theorem C62_negative_refuted :
  let s1 := vmApi (E := exEnv []) 3 (A_bigIntStorageStoreUnsigned 2 1 3) neg_host in
  let s2 := vmApi (E := exEnv []) 3 (A_bigIntStorageLoadUnsigned 2 1 4) (fst s1) in
  calling neg_host /\ may_write (E := exEnv []) neg_host (str "y") /\ bval (h_big neg_host) 3 = -1000 /\
  snd s1 = OOk 2 /\ snd s2 = OOk 2 /\ bval (h_big (fst s2)) 4 = 1000.
Proof.
  split; [exact sto_host_calling|].
  split; [split; [reflexivity|split; intros [t Ht]; vm_compute in Ht; discriminate]|].
  vm_compute. tauto.
Qed.
Print Assumptions C62_negative_refuted.

(** Keeping 300 under "y" (not yet there), and reading the cell "k", which holds "a". *)
Example C62_ex :
  calling sto_host /\ (exists m, cur_mem sto_host = ROk m /\ data_at (m_data m) 2 1 (str "y") /\ data_at (m_data m) 0 1 (str "k")) /\
  may_write (E := exEnv []) sto_host (str "y") /\
  keeps_number sto_host (A_smallIntStorageStoreUnsigned 2 1 300) 2 1 300 [zb 1; zb 44] /\
  keeps_number sto_host (A_smallIntStorageStoreSigned 2 1 (-300)) 2 1 (-300) [zb 254; zb 212] /\
  reads_number (cell sto_host (addr "s") (str "k")) (A_smallIntStorageLoadUnsigned 0 1) 0 1 [] 97 /\
  let s1 := vmApi (E := exEnv []) 3 (A_smallIntStorageStoreSigned 2 1 (-300)) sto_host in
  let s2 := vmApi (E := exEnv []) 3 (A_smallIntStorageLoadSigned 2 1) (fst s1) in
  snd s1 = OOk 2 /\ cell (fst s1) (addr "s") (str "y") = [zb 254; zb 212] /\ snd s2 = OOk (-300).
Proof.
  split; [exact sto_host_calling|].
  split. { eexists. split; [reflexivity|]. split; right; repeat split; vm_compute; intuition discriminate. }
  split; [split; [reflexivity|split; intros [t Ht]; vm_compute in Ht; discriminate]|].
  split; [do 3 (split; [reflexivity|]); apply unsigned_bytes_is; vm_compute; reflexivity|].
  split; [do 3 (split; [reflexivity|]); apply signed_bytes_is; vm_compute; reflexivity|].
  split; [vm_compute; intuition discriminate|].
  vm_compute. tauto.
Qed.
