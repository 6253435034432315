(** WebAssembly linear memory as seen by the host API. *)
From Verif Require Export GoRt MathModel.

(** Size of a WebAssembly page (WebAssembly specification; wasmer memory.go). *)
Definition page_size : Z := 65536.

(** The linear memory of an instance: its bytes (wasmer Memory.Data), and the
    largest size in pages it may reach (declared maximum, or the engine's
    limit).  wasmer itself is not in /repo's Go text, only its interface
    wasmer/memory.go: Length() = number of bytes as uint32, Grow(n) appends n
    zero pages or fails. *)
Record memory := mkMem { m_data : bytes; m_limit : Z }.

(** wasmer/memory.go:39-52 Length: uint32 of the byte length. *)
Definition m_length (m : memory) : Z := u32 (blen (m_data m)).

(** wasmer/memory.go Grow(1): one zero page is appended, or an error if the
    limit is reached (assumed behaviour of the wasmer engine). *)
Definition m_grow (m : memory) : option memory :=
  if blen (m_data m) + page_size <=? m_limit m * page_size
  then Some (mkMem (m_data m ++ zeros page_size) (m_limit m))
  else None.

(** arwen/contexts/runtime.go:844-874 MemLoad *)
Definition MemLoad (m : memory) (offset length : Z) : res bytes :=
  if length =? 0 then ROk [] else
  let memoryLength := m_length m in
  let requestedEnd := AddInt32 offset length in
  let isOffsetTooSmall := offset <? 0 in
  let isOffsetTooLarge := memoryLength <? u32 offset in
  let isRequestedEndTooLarge := memoryLength <? u32 requestedEnd in
  let isLengthNegative := length <? 0 in
  if isOffsetTooSmall || isOffsetTooLarge then RErr ErrBadBounds else
  if isLengthNegative then RErr ErrNegativeLength else
  let result := zeros length in
  if isRequestedEndTooLarge
  then s ← slice (m_data m) offset (blen (m_data m)); ROk (gocopy result s)
  else s ← slice (m_data m) offset requestedEnd; ROk (gocopy result s).

(** arwen/contexts/runtime.go:883-892, the loop of MemLoadMultiple;
    [offset += length] is int32 arithmetic and wraps. *)
Fixpoint MemLoadMultiple_loop (m : memory) (offset : Z) (lengths : list Z) : res (list bytes) :=
  match lengths with
  | [] => ROk []
  | l :: ls =>
      r ← MemLoad m offset l;
      rs ← MemLoadMultiple_loop m (i32 (offset + l)) ls;
      ROk (r :: rs)
  end.

(** arwen/contexts/runtime.go:877-895 MemLoadMultiple *)
Definition MemLoadMultiple (m : memory) (offset : Z) (lengths : list Z) : res (list bytes) :=
  MemLoadMultiple_loop m offset lengths.

(** Writing [data] over the bytes of [l] from position [a] on: Go's
    copy(l[a:b], data) with b - a = len(data). *)
Definition overwrite (l : bytes) (a : Z) (data : bytes) : bytes :=
  take (Z.to_nat a) l ++ data ++ drop (Z.to_nat a + length data) l.

(** arwen/contexts/runtime.go:898-932 MemStore.  The memory is returned in every
    case: a failed store may have grown it.  The two final cases are Go's
    copy(memoryView[offset:requestedEnd], data): a slice expression that panics
    out of bounds, then a copy of min(requestedEnd-offset, len(data)) bytes. *)
Definition MemStore (m : memory) (offset : Z) (data : bytes) : memory * res unit :=
  let dataLength := i32 (blen data) in
  if dataLength =? 0 then (m, ROk tt) else
  let requestedEnd := AddInt32 offset dataLength in
  let isOffsetTooSmall := offset <? 0 in
  let isNewPageNecessary := m_length m <? u32 requestedEnd in
  if isOffsetTooSmall then (m, RErr ErrBadLowerBounds) else
  match (if isNewPageNecessary then m_grow m else Some m) with
  | None => (m, RErr ErrGrow)
  | Some m' =>
      if m_length m' <? u32 requestedEnd then (m', RErr ErrBadUpperBounds) else
      match slice (m_data m') offset requestedEnd with
      | ROk s =>
          (mkMem (overwrite (m_data m') offset (take (length s) data)) (m_limit m'), ROk tt)
      | RErr e => (m', RErr e)
      | RPanic => (m', RPanic)
      end
  end.
