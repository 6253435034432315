(** Contract memory: properties C03, C04, C05, C06. *)
From Verif Require Import MemModel MemSpec MemProofs ApiArgsModel ApiArgsSpec ApiArgsProofs.

(** C03.  For a memory of less than 2 GiB a read fails exactly when a non-zero
    length is negative or the offset is negative or beyond the end; a successful
    read is the window of the memory (bytes past the end are zero); the host
    never panics.  [MemLoad] cannot change memory: it returns no memory. *)
Theorem C03_read_window : forall m off len,
  in_i32 off -> in_i32 len -> blen (m_data m) <= max_i32 ->
  ((exists e, MemLoad m off len = RErr e) <->
     len <> 0 /\ (len < 0 \/ off < 0 \/ blen (m_data m) < off)) /\
  (forall d, MemLoad m off len = ROk d -> d = window (m_data m) off len) /\
  MemLoad m off len <> RPanic.
Proof. exact c03_read. Qed.
Print Assumptions C03_read_window.

(** C03, interval inside memory: exactly those bytes. *)
Theorem C03_read_inside : forall m off len,
  0 <= off -> 0 <= len -> off + len <= blen (m_data m) -> blen (m_data m) <= max_i32 ->
  MemLoad m off len = ROk (take (Z.to_nat len) (drop (Z.to_nat off) (m_data m))).
Proof. exact c03_inside. Qed.
Print Assumptions C03_read_inside.

Example C03_ex_inside : MemLoad (mkMem (str "hello") 1) 1 3 = ROk (str "ell").
Proof. reflexivity. Qed.
Example C03_ex_past_end : MemLoad (mkMem (str "hello") 1) 3 4 = ROk (str "lo" ++ [Byte.x00; Byte.x00]).
Proof. reflexivity. Qed.
Example C03_ex_overflow : MemLoad (mkMem (str "hello") 1) 6 2147483647 = RErr ErrBadBounds.
Proof. reflexivity. Qed.

(** C03 does not hold for memories of 2 GiB and more (WebAssembly allows 4 GiB): the
    end of the interval saturates at 2^31-1 and the last byte is read as 0. *)
Theorem C03_two_gib_refuted : exists m off len d,
  in_i32 off /\ in_i32 len /\ blen (m_data m) < 4294967296 /\
  off + len <= blen (m_data m) /\
  MemLoad m off len = ROk d /\ d <> window (m_data m) off len.
Proof. exact c03_refuted. Qed.
Print Assumptions C03_two_gib_refuted.

(** C04.  A store into a memory that stays below 2 GiB: never panics; succeeds exactly
    when the data is empty or fits, possibly after growing by one page; on success
    the bytes at off.. are the data and every other byte is as before (or zero, in
    a new page); on failure no old byte changes. *)
Theorem C04_store : forall m off d m' r,
  in_i32 off -> blen d <= max_i32 -> blen (m_data m) + page_size < max_i32 ->
  MemStore m off d = (m', r) ->
  r <> RPanic /\
  (r = ROk tt <-> d = [] \/ (0 <= off /\
     (off + blen d <= blen (m_data m) \/
      (off + blen d <= blen (m_data m) + page_size /\
       blen (m_data m) + page_size <= m_limit m * page_size)))) /\
  (r = ROk tt -> written (m_data m) (m_data m') off d) /\
  (r <> ROk tt -> written (m_data m) (m_data m') off []) /\
  (r = ROk tt -> d = [] \/ off + blen d <= blen (m_data m')) /\
  (m_data m' = m_data m \/ blen (m_data m') = blen (m_data m) \/
   (blen (m_data m') = blen (m_data m) + page_size /\ blen (m_data m) < off + blen d)) /\
  m_limit m' = m_limit m.
Proof. exact c04_store. Qed.
Print Assumptions C04_store.

(** C04, reading back what was stored. *)
Theorem C04_load_back : forall m off d m',
  in_i32 off -> blen d <= max_i32 -> blen (m_data m) + page_size < max_i32 ->
  MemStore m off d = (m', ROk tt) -> MemLoad m' off (blen d) = ROk d.
Proof. exact c04_load_back. Qed.
Print Assumptions C04_load_back.

Example C04_ex : MemStore (mkMem (str "hello") 1) 1 (str "ip") = (mkMem (str "hiplo") 1, ROk tt).
Proof. reflexivity. Qed.
Example C04_ex_neg : MemStore (mkMem (str "hello") 1) (-1) (str "ip") = (mkMem (str "hello") 1, RErr ErrBadLowerBounds).
Proof. reflexivity. Qed.
Example C04_ex_grow :
  (let '(m', r) := MemStore (mkMem (str "hello") 2) 4 (str "ip") in
   (r, blen (m_data m'), take 7 (m_data m'))) = (ROk tt, 65541, str "hellip" ++ [Byte.x00]).
Proof. vm_compute. reflexivity. Qed.

(** C04 does not hold beyond 2 GiB: a store can report success and write only part of
    the data. *)
Theorem C04_two_gib_refuted : exists m off d m',
  in_i32 off /\ blen d <= max_i32 /\ off + blen d <= blen (m_data m) /\
  blen (m_data m) < 4294967296 /\
  MemStore m off d = (m', ROk tt) /\ ~ written (m_data m) (m_data m') off d.
Proof. exact c04_refuted. Qed.
Print Assumptions C04_two_gib_refuted.

(** C05.  Lengths and data laid out in memory are decoded to exactly those arguments. *)
Theorem C05_vector_decoded : forall m args lenOff dataOff,
  blen (m_data m) <= max_i32 ->
  laid_at (m_data m) lenOff (concat (map (fun a => le32 (blen a)) args)) ->
  laid_at (m_data m) dataOff (concat args) ->
  getArgumentsFromMemory m (Z.of_nat (length args)) lenOff dataOff = ROk (args, blen (concat args)).
Proof. exact c05_decode. Qed.
Print Assumptions C05_vector_decoded.

(** C05 for the descriptor of an indirect call (destination, value, function, arguments). *)
Theorem C05_call_decoded : forall m dest value function args destOff valueOff funOff lenOff dataOff,
  blen (m_data m) <= max_i32 ->
  blen dest = 32 -> blen value = 32 ->
  laid_at (m_data m) destOff dest -> laid_at (m_data m) valueOff value ->
  laid_at (m_data m) funOff function ->
  laid_at (m_data m) lenOff (concat (map (fun a => le32 (blen a)) args)) ->
  laid_at (m_data m) dataOff (concat args) ->
  extractIndirectContractCallArguments m destOff valueOff true funOff (blen function)
     (Z.of_nat (length args)) lenOff dataOff
  = ROk (mkCallArgs dest (Some (be_decode value)) function args (blen (concat args))).
Proof. exact c05_call. Qed.
Print Assumptions C05_call_decoded.

Example C05_ex : getArgumentsFromMemory
    (mkMem (le32 3 ++ le32 0 ++ le32 2 ++ str "abcde") 1) 3 0 12 = ROk ([str "abc"; []; str "de"], 5).
Proof. reflexivity. Qed.
Example C05_ex_hyp : laid_at (le32 3 ++ le32 0 ++ le32 2 ++ str "abcde") 12 (concat [str "abc"; []; str "de"]).
Proof. exists (le32 3 ++ le32 0 ++ le32 2), []. split; reflexivity. Qed.

(** C06.  The decoder itself rejects exactly the vectors that cannot be read, as long as
    4*numArguments fits in 31 bits. *)
Theorem C06_decoder_rejects_partial : forall m n lenOff dataOff,
  blen (m_data m) <= max_i32 -> in_i32 n -> in_i32 lenOff -> in_i32 dataOff ->
  n * 4 <= max_i32 ->
  ((exists e, getArgumentsFromMemory m n lenOff dataOff = RErr e) <->
     ~ vector_readable (m_data m) n lenOff dataOff) /\
  getArgumentsFromMemory m n lenOff dataOff <> RPanic.
Proof. exact c06_rejected. Qed.
Print Assumptions C06_decoder_rejects_partial.

Example C06_ex : ~ vector_readable (m_data (mkMem (le32 (-5)) 1)) 1 0 0.
Proof. vm_compute. tauto. Qed.

(** C06 fails when 4*numArguments wraps around: with an empty memory, 2^30 arguments are
    accepted (and are all empty). *)
Theorem C06_count_wrap_refuted : exists m n lenOff dataOff r,
  in_i32 n /\ in_i32 lenOff /\ in_i32 dataOff /\ blen (m_data m) <= max_i32 /\
  ~ vector_readable (m_data m) n lenOff dataOff /\
  getArgumentsFromMemory m n lenOff dataOff = ROk r.
Proof. exact c06_wrap. Qed.
Print Assumptions C06_count_wrap_refuted.

(** C06 fails for every API that goes through extractIndirectContractCallArguments
    (executeOnDestContext, executeOnSameContext, ...ByCaller, delegateExecution,
    executeReadOnly, transferValueExecute, transferESDTExecute): the error is dropped
    and the call is made without arguments. *)
Theorem C06_indirect_calls_refuted : exists m n lenOff dataOff ca,
  in_i32 n /\ in_i32 lenOff /\ in_i32 dataOff /\ blen (m_data m) <= max_i32 /\
  ~ vector_readable (m_data m) n lenOff dataOff /\
  extractIndirectContractCallArguments m 0 0 true 0 4 n lenOff dataOff = ROk ca /\
  ca_args ca = [].
Proof.
  exists (mkMem (str "some bytes in memory, 32 of them!") 1), (-1), 0, 0.
  eexists. split; [vm_compute; intuition discriminate|].
  split; [vm_compute; intuition discriminate|].
  split; [vm_compute; intuition discriminate|].
  split; [vm_compute; intuition discriminate|].
  split; [unfold vector_readable; lia|].
  split; [vm_compute; reflexivity|reflexivity].
Qed.
Print Assumptions C06_indirect_calls_refuted.
