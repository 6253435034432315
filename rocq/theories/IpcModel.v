(** The message pipes between the node and an out-of-process virtual machine:
    framing, dialogue nonces and the two message loops (ipc/). *)
From Verif Require Export Base.

(** * Kinds of messages *)

(** ipc/common/messages.go:9-86: the [MessageKind] constants, numbered by
    [iota]. *)
Definition KFirstKind : Z := 0.
Definition KInitialize : Z := 1.
Definition KStop : Z := 2.
Definition KContractDeployRequest : Z := 3.
Definition KContractCallRequest : Z := 4.
Definition KContractResponse : Z := 5.
Definition KGasScheduleChangeRequest : Z := 6.
Definition KGasScheduleChangeResponse : Z := 7.
Definition KBlockchainNewAddressRequest : Z := 8.
Definition KBlockchainNewAddressResponse : Z := 9.
Definition KBlockchainGetStorageDataRequest : Z := 10.
Definition KBlockchainGetStorageDataResponse : Z := 11.
Definition KBlockchainGetBlockhashRequest : Z := 12.
Definition KBlockchainGetBlockhashResponse : Z := 13.
Definition KBlockchainLastNonceRequest : Z := 14.
Definition KBlockchainLastNonceResponse : Z := 15.
Definition KBlockchainLastRoundRequest : Z := 16.
Definition KBlockchainLastRoundResponse : Z := 17.
Definition KBlockchainLastTimeStampRequest : Z := 18.
Definition KBlockchainLastTimeStampResponse : Z := 19.
Definition KBlockchainLastRandomSeedRequest : Z := 20.
Definition KBlockchainLastRandomSeedResponse : Z := 21.
Definition KBlockchainLastEpochRequest : Z := 22.
Definition KBlockchainLastEpochResponse : Z := 23.
Definition KBlockchainGetStateRootHashRequest : Z := 24.
Definition KBlockchainGetStateRootHashResponse : Z := 25.
Definition KBlockchainCurrentNonceRequest : Z := 26.
Definition KBlockchainCurrentNonceResponse : Z := 27.
Definition KBlockchainCurrentRoundRequest : Z := 28.
Definition KBlockchainCurrentRoundResponse : Z := 29.
Definition KBlockchainCurrentTimeStampRequest : Z := 30.
Definition KBlockchainCurrentTimeStampResponse : Z := 31.
Definition KBlockchainCurrentRandomSeedRequest : Z := 32.
Definition KBlockchainCurrentRandomSeedResponse : Z := 33.
Definition KBlockchainCurrentEpochRequest : Z := 34.
Definition KBlockchainCurrentEpochResponse : Z := 35.
Definition KBlockchainProcessBuiltinFunctionRequest : Z := 36.
Definition KBlockchainProcessBuiltinFunctionResponse : Z := 37.
Definition KBlockchainGetESDTTokenRequest : Z := 38.
Definition KBlockchainGetESDTTokenResponse : Z := 39.
Definition KBlockchainGetBuiltinFunctionNamesRequest : Z := 40.
Definition KBlockchainGetBuiltinFunctionNamesResponse : Z := 41.
Definition KBlockchainGetAllStateRequest : Z := 42.
Definition KBlockchainGetAllStateResponse : Z := 43.
Definition KBlockchainGetUserAccountRequest : Z := 44.
Definition KBlockchainGetUserAccountResponse : Z := 45.
Definition KBlockchainGetCodeRequest : Z := 46.
Definition KBlockchainGetCodeResponse : Z := 47.
Definition KBlockchainGetShardOfAddressRequest : Z := 48.
Definition KBlockchainGetShardOfAddressResponse : Z := 49.
Definition KBlockchainIsPayableRequest : Z := 50.
Definition KBlockchainIsPayableResponse : Z := 51.
Definition KBlockchainIsSmartContractRequest : Z := 52.
Definition KBlockchainIsSmartContractResponse : Z := 53.
Definition KBlockchainSaveCompiledCodeRequest : Z := 54.
Definition KBlockchainSaveCompiledCodeResponse : Z := 55.
Definition KBlockchainGetCompiledCodeRequest : Z := 56.
Definition KBlockchainGetCompiledCodeResponse : Z := 57.
Definition KDiagnoseWaitRequest : Z := 58.
Definition KDiagnoseWaitResponse : Z := 59.
Definition KVersionRequest : Z := 60.
Definition KVersionResponse : Z := 61.
Definition KBlockchainClearCompiledCodesRequest : Z := 62.
Definition KBlockchainClearCompiledCodesResponse : Z := 63.
Definition KBlockchainGetSnapshotRequest : Z := 64.
Definition KBlockchainGetSnapshotResponse : Z := 65.
Definition KBlockchainIsInterfaceNilRequest : Z := 66.
Definition KBlockchainIsInterfaceNilResponse : Z := 67.
Definition KBlockchainRevertToSnapshotRequest : Z := 68.
Definition KBlockchainRevertToSnapshotResponse : Z := 69.
Definition KBlockchainProcessBuiltInFunctionRequest : Z := 70.
Definition KBlockchainProcessBuiltInFunctionResponse : Z := 71.
Definition KUndefinedRequestOrResponse : Z := 72.
Definition KLastKind : Z := 73.

(** * Messages *)

(** The Go type of a message: [TOf k] is the struct whose constructor sets
    kind [k] (messages.go:234-258, messagesContracts.go, messagesDiagnose.go,
    messagesBlockchain.go), [TUndefined] is [UndefinedMessage]
    (messages.go:260-271) and [TPlain] the bare [Message] built by
    [NewGasScheduleChangeResponse] (messagesContracts.go:90-95). *)
Inductive gotype : Type := TUndefined | TPlain | TOf (k : Z).

(** ipc/common/messages.go:167-184: what a message says, without its nonce.
    [g_body] stands for the fields a type has beyond the embedded [Message];
    their structure is not modelled. *)
Record content : Type := mkContent {
  g_type : gotype;
  g_kind : Z;
  g_error : bytes;
  g_body : bytes }.

(** ipc/common/messages.go:179-184: [DialogueNonce] and the rest. *)
Record msg : Type := mkMsg { g_nonce : Z; g_content : content }.

(** ipc/common/messages.go:191-194, SetNonce. *)
Definition set_nonce (n : Z) (m : msg) : msg := mkMsg n (g_content m).

(** ipc/common/messagesFactory.go:18-94: the kinds with a creator of their
    own.  All other slots hold [createUndefinedMessage]. *)
Definition registered : list Z :=
  [KInitialize; KStop; KContractDeployRequest; KContractCallRequest;
   KContractResponse; KDiagnoseWaitRequest; KDiagnoseWaitResponse;
   KVersionRequest; KVersionResponse; KBlockchainNewAddressRequest;
   KBlockchainNewAddressResponse; KBlockchainGetStorageDataRequest;
   KBlockchainGetStorageDataResponse; KBlockchainGetBlockhashRequest;
   KBlockchainGetBlockhashResponse; KBlockchainLastNonceRequest;
   KBlockchainLastNonceResponse; KBlockchainLastRoundRequest;
   KBlockchainLastRoundResponse; KBlockchainLastTimeStampRequest;
   KBlockchainLastTimeStampResponse; KBlockchainLastRandomSeedRequest;
   KBlockchainLastRandomSeedResponse; KBlockchainLastEpochRequest;
   KBlockchainLastEpochResponse; KBlockchainGetStateRootHashRequest;
   KBlockchainGetStateRootHashResponse; KBlockchainCurrentNonceRequest;
   KBlockchainCurrentNonceResponse; KBlockchainCurrentRoundRequest;
   KBlockchainCurrentRoundResponse; KBlockchainCurrentTimeStampRequest;
   KBlockchainCurrentTimeStampResponse;
   KBlockchainCurrentRandomSeedRequest;
   KBlockchainCurrentRandomSeedResponse;
   KBlockchainCurrentEpochRequest; KBlockchainCurrentEpochResponse;
   KBlockchainProcessBuiltInFunctionRequest;
   KBlockchainProcessBuiltInFunctionResponse;
   KBlockchainGetBuiltinFunctionNamesRequest;
   KBlockchainGetBuiltinFunctionNamesResponse;
   KBlockchainGetAllStateRequest; KBlockchainGetAllStateResponse;
   KBlockchainGetUserAccountRequest; KBlockchainGetUserAccountResponse;
   KBlockchainGetCodeRequest; KBlockchainGetCodeResponse;
   KBlockchainGetShardOfAddressRequest;
   KBlockchainGetShardOfAddressResponse;
   KBlockchainIsSmartContractRequest;
   KBlockchainIsSmartContractResponse; KBlockchainIsPayableRequest;
   KBlockchainIsPayableResponse; KBlockchainSaveCompiledCodeRequest;
   KBlockchainSaveCompiledCodeResponse;
   KBlockchainGetCompiledCodeRequest;
   KBlockchainGetCompiledCodeResponse;
   KBlockchainClearCompiledCodesRequest;
   KBlockchainClearCompiledCodesResponse;
   KBlockchainGetESDTTokenRequest; KBlockchainGetESDTTokenResponse;
   KBlockchainIsInterfaceNilRequest; KBlockchainIsInterfaceNilResponse;
   KBlockchainGetSnapshotRequest; KBlockchainGetSnapshotResponse;
   KBlockchainRevertToSnapshotRequest;
   KBlockchainRevertToSnapshotResponse].

Definition mem_kind (k : Z) (l : list Z) : bool := existsb (Z.eqb k) l.

(** ipc/common/messages.go:266-271, NewUndefinedMessage. *)
Definition undefined_content : content :=
  mkContent TUndefined KUndefinedRequestOrResponse [] [].
Definition NewUndefinedMessage : msg := mkMsg 4294967295 undefined_content.

(** ipc/common/messagesFactory.go:3-14, CreateMessage: a zero message of the
    type registered for the kind, with the kind set. *)
Definition CreateMessage (kind : Z) : msg :=
  if kind <? KLastKind then
    if mem_kind kind registered then mkMsg 0 (mkContent (TOf kind) kind [] [])
    else mkMsg 4294967295 (mkContent TUndefined kind [] [])
  else NewUndefinedMessage.

(** * Errors *)

(** ipc/common/errors.go and the errors of io.ReadFull; the text of an error is
    not modelled. *)
Inductive ipc_err : Type :=
| EEncode | EDecode | EEof | EUnexpectedEof | EInvalidMessageNonce
| ECannotSendContractRequest | ECannotSendHookCallRequest
| ECannotReceiveHookCallResponse | ECannotSendHookCallResponse
| EBadMessageFromArwen | EStopPerNodeRequest.

Inductive ires (A : Type) : Type := IOk (a : A) | IErr (e : ipc_err).
Arguments IOk {A}. Arguments IErr {A}.

(** ipc/marshaling/core.go, json.go, gob.go: [Marshal] and [Unmarshal] into an existing
    message.  encoding/json and encoding/gob are not modelled; what is assumed
    of them is said by the specification. *)
Record codec : Type := mkCodec {
  Marshal : msg -> ires bytes;
  Unmarshal : msg -> bytes -> ires msg }.

(** * Bytes on a pipe *)

(** encoding/binary LittleEndian.PutUint32 and Uint32. *)
Definition PutUint32 (z : Z) : bytes :=
  [zb z; zb (z / 256); zb (z / 65536); zb (z / 16777216)].
Definition Uint32 (l : bytes) : Z :=
  match l with
  | [a; b; c; d] => bz a + 256 * bz b + 65536 * bz c + 16777216 * bz d
  | _ => 0
  end.

(** io.ReadFull(reader, buffer) with [need] bytes still to be read.  The pipe
    is the list of the pieces in which successive calls of Read deliver its
    bytes; the empty list is a closed pipe, or, for a reader that blocks, one
    with nothing more in it.  A Read never delivers more than is asked for. *)
Fixpoint fill (need : Z) (got : bytes) (s : list bytes)
  : ires bytes * list bytes :=
  if need <=? 0 then (IOk got, s) else
  match s with
  | [] => (IErr (match got with [] => EEof | _ => EUnexpectedEof end), [])
  | c :: rest =>
      if blen c <=? need then fill (need - blen c) (got ++ c) rest
      else (IOk (got ++ firstn (Z.to_nat need) c),
            skipn (Z.to_nat need) c :: rest)
  end.
Definition ReadFull (n : Z) (s : list bytes) : ires bytes * list bytes :=
  fill n [] s.

(** * Sender and receiver *)

(** ipc/common/sender.go:24-51, Sender.Send: what is written to the pipe.  The
    length is cut to 32 bits.  Failing writes are not modelled (the process on
    the other side is gone then). *)
Definition Sender_Send (C : codec) (m : msg) : ires bytes :=
  match Marshal C m with
  | IErr e => IErr e
  | IOk data =>
      IOk ((PutUint32 (u32 (blen data)) ++ PutUint32 (u32 (g_kind (g_content m))))
           ++ data)
  end.

(** ipc/common/receiver.go:60-70, receiveMessageLengthAndKind. *)
Definition receiveMessageLengthAndKind (s : list bytes)
  : ires (Z * Z) * list bytes :=
  let '(r, s') := ReadFull 8 s in
  match r with
  | IErr e => (IErr e, s')
  | IOk b => (IOk (Uint32 (firstn 4 b), Uint32 (skipn 4 b)), s')
  end.

(** ipc/common/receiver.go:72-86, readMessage. *)
Definition readMessage (C : codec) (kind length : Z) (s : list bytes)
  : ires msg * list bytes :=
  let '(r, s') := ReadFull length s in
  match r with
  | IErr e => (IErr e, s')
  | IOk b => (Unmarshal C (CreateMessage kind) b, s')
  end.

(** ipc/common/receiver.go:26-48, Receiver.Receive.  The deadline is not
    modelled: passing it is an error that ends the dialogue like a closed
    pipe. *)
Definition Receiver_Receive (C : codec) (s : list bytes)
  : ires msg * list bytes :=
  let '(r, s') := receiveMessageLengthAndKind s in
  match r with
  | IErr e => (IErr e, s')
  | IOk (length, kind) => readMessage C kind length s'
  end.

(** * Messenger: its only state of its own is the nonce *)

(** ipc/common/messenger.go:39-46, Messenger.Send: the nonce is counted up
    first, also when the message cannot be sent. *)
Definition Send (C : codec) (nonce : Z) (c : content) : Z * ires bytes :=
  let n := u32 (nonce + 1) in
  (n, Sender_Send C (mkMsg n c)).

(** ipc/common/messenger.go:48-64, Messenger.Receive. *)
Definition Receive (C : codec) (nonce : Z) (s : list bytes)
  : Z * ires msg * list bytes :=
  let '(r, s') := Receiver_Receive C s in
  match r with
  | IErr e => (nonce, IErr e, s')
  | IOk m =>
      if negb (g_nonce m =? u32 (nonce + 1))
      then (nonce, IErr EInvalidMessageNonce, s')
      else (g_nonce m, IOk m, s')
  end.

(** ipc/common/messenger.go:71-74, ResetDialogue. *)
Definition ResetDialogue : Z := 0.

(** Several messages sent one after the other, and several received: no code of
    its own, just [Send] and [Receive] in a row. *)
Fixpoint SendMany (C : codec) (nonce : Z) (cs : list content) : Z * list (ires bytes) :=
  match cs with
  | [] => (nonce, [])
  | c :: cs =>
      let '(n, r) := Send C nonce c in
      let '(n', rs) := SendMany C n cs in
      (n', r :: rs)
  end.
Fixpoint ReceiveMany (C : codec) (nonce : Z) (k : nat) (s : list bytes)
  : Z * list (ires msg) * list bytes :=
  match k with
  | O => (nonce, [], s)
  | S k =>
      let '(n, r, s') := Receive C nonce s in
      let '(n', rs, s'') := ReceiveMany C n k s' in
      (n', r :: rs, s'')
  end.

(** * Which messages are what *)

(** ipc/common/messages.go:286-316. *)
Definition IsHookCall (c : content) : bool :=
  (KBlockchainNewAddressRequest <=? g_kind c)
  && (g_kind c <=? KBlockchainGetCompiledCodeResponse).
Definition IsStopRequest (c : content) : bool := g_kind c =? KStop.
Definition IsVersionResponse (c : content) : bool :=
  g_kind c =? KVersionResponse.
Definition IsContractResponse (c : content) : bool :=
  g_kind c =? KContractResponse.
Definition IsGasScheduleChangeResponse (c : content) : bool :=
  g_kind c =? KGasScheduleChangeResponse.
Definition IsDiagnose (c : content) : bool :=
  (KDiagnoseWaitRequest <=? g_kind c) && (g_kind c <=? KDiagnoseWaitResponse).

(** * The virtual machine behind the pipe *)

(** What the repliers of ipc/arwenpart/part.go:102-129 do with a request, as
    seen from outside: ask the node's hook some questions, each through
    ArwenMessenger.SendHookCallRequest (arwenpart/messenger.go:44-59), whose
    answer or failure the virtual machine goes on with, and at last say the
    response.  The gateway (arwenpart/blockchainGateway.go) looks at kind,
    error and fields of an answer, never at its nonce. *)
Inductive talk : Type :=
| Say (r : content)
| Ask (q : content) (k : ires content -> talk).

(** ipc/arwenpart/part.go:50-55: the requests with a replier of their own. *)
Definition arwen_repliers : list Z :=
  [KContractDeployRequest; KContractCallRequest; KDiagnoseWaitRequest;
   KVersionRequest; KGasScheduleChangeRequest].

(** ipc/arwenpart/part.go:60-63 and 97-129, replyToNodeRequest; [None] is a
    panic: a kind beyond the table, or a failing type assertion
    (part.go:103, 109, 115, 126).  [vm] is the replier proper. *)
Definition replyToNodeRequest (vm : content -> talk) (c : content)
  : option talk :=
  if negb (g_kind c <? KLastKind) then None
  else if mem_kind (g_kind c) arwen_repliers then
    match g_type c with
    | TOf k =>
        if (g_kind c =? KVersionRequest) || (k =? g_kind c)
        then Some (vm c) else None
    | _ => if g_kind c =? KVersionRequest then Some (vm c) else None
    end
  else Some (Say undefined_content).

(** Where the loop of ipc/arwenpart/part.go:65-95 stands: waiting for a
    request, waiting inside SendHookCallRequest, ended, or crashed. *)
Inductive arwen_at : Type :=
| AIdle
| AAsk (k : ires content -> talk)
| AStop (e : ipc_err)
| APanic.
Record arwen : Type := mkArwen { a_nonce : Z; a_at : arwen_at }.

(** The virtual machine runs on until it waits for the node again
    (arwenpart/part.go:85-93, arwenpart/messenger.go:32-59): its state then and
    the bytes it has written. *)
Fixpoint advance (C : codec) (nonce : Z) (t : talk) : arwen * bytes :=
  match t with
  | Say r =>
      match Send C nonce r with
      | (n, IErr e) => (mkArwen n (AStop e), [])
      | (_, IOk b) => (mkArwen ResetDialogue AIdle, b)
      end
  | Ask q k =>
      match Send C nonce q with
      | (n, IErr _) => advance C n (k (IErr ECannotSendHookCallRequest))
      | (n, IOk b) => (mkArwen n (AAsk k), b)
      end
  end.

(** One message on Arwen's side: ReceiveNodeRequest (arwenpart/part.go:77-85)
    or the second half of SendHookCallRequest (arwenpart/messenger.go:53-58). *)
Definition arwen_take (C : codec) (vm : content -> talk) (a : arwen)
  (got : Z * ires msg) : arwen * bytes :=
  let '(n, r) := got in
  match a_at a with
  | AIdle =>
      match r with
      | IErr e => (mkArwen n (AStop e), [])
      | IOk m =>
          if IsStopRequest (g_content m)
          then (mkArwen n (AStop EStopPerNodeRequest), [])
          else match replyToNodeRequest vm (g_content m) with
               | None => (mkArwen n APanic, [])
               | Some t => advance C n t
               end
      end
  | AAsk k =>
      match r with
      | IErr _ => advance C n (k (IErr ECannotReceiveHookCallResponse))
      | IOk m => advance C n (k (IOk (g_content m)))
      end
  | _ => (a, [])
  end.

(** * The node *)

(** ipc/nodepart/part.go:37-66: the hook calls with a replier. *)
Definition node_repliers : list Z :=
  [KBlockchainNewAddressRequest; KBlockchainGetStorageDataRequest;
   KBlockchainGetBlockhashRequest; KBlockchainLastNonceRequest;
   KBlockchainLastRoundRequest; KBlockchainLastTimeStampRequest;
   KBlockchainLastRandomSeedRequest; KBlockchainLastEpochRequest;
   KBlockchainGetStateRootHashRequest; KBlockchainCurrentNonceRequest;
   KBlockchainCurrentRoundRequest; KBlockchainCurrentTimeStampRequest;
   KBlockchainCurrentRandomSeedRequest; KBlockchainCurrentEpochRequest;
   KBlockchainProcessBuiltInFunctionRequest;
   KBlockchainGetBuiltinFunctionNamesRequest;
   KBlockchainGetAllStateRequest; KBlockchainGetUserAccountRequest;
   KBlockchainGetCodeRequest; KBlockchainGetShardOfAddressRequest;
   KBlockchainIsSmartContractRequest; KBlockchainIsPayableRequest;
   KBlockchainSaveCompiledCodeRequest;
   KBlockchainGetCompiledCodeRequest;
   KBlockchainClearCompiledCodesRequest;
   KBlockchainGetESDTTokenRequest; KBlockchainIsInterfaceNilRequest;
   KBlockchainGetSnapshotRequest; KBlockchainRevertToSnapshotRequest].

(** Where the loop of ipc/nodepart/part.go:76-144 stands.  [NPanic]: a failing
    type assertion in a replier (nodepart/blockchainRepliers.go). *)
Inductive node_at : Type := NLoop | NDone (r : ires content) | NPanic.
Record node (W : Type) : Type :=
  mkNode { n_nonce : Z; n_world : W; n_at : node_at }.
Arguments mkNode {W}. Arguments n_nonce {W}. Arguments n_world {W}.
Arguments n_at {W}.

(** nodepart/part.go:85-91, the end of StartLoop. *)
Definition node_end {W} (w : W) (r : ires content) : node W :=
  mkNode ResetDialogue w (NDone r).

(** ipc/nodepart/part.go:94-144, doLoop and replyToHookCallRequest, for one
    message received.  [hook] is the blockchain hook behind the repliers of
    nodepart/blockchainRepliers.go: new world and response.  Simplification:
    every replier is taken to assert the type of its request; those of requests
    without fields do not. *)
Definition node_take {W} (C : codec) (hook : W -> content -> W * content)
  (s : node W) (got : Z * ires msg) : node W * bytes :=
  let '(n, r) := got in
  match r with
  | IErr e => (node_end (n_world s) (IErr e), [])
  | IOk m =>
      let c := g_content m in
      if IsHookCall c then
        let answer :=
          if mem_kind (g_kind c) node_repliers then
            match g_type c with
            | TOf k => if k =? g_kind c then Some (hook (n_world s) c) else None
            | _ => None
            end
          else Some (n_world s, undefined_content) in
        match answer with
        | None => (mkNode n (n_world s) NPanic, [])
        | Some (w', a) =>
            match Send C n a with
            | (_, IErr _) => (node_end w' (IErr ECannotSendHookCallResponse), [])
            | (n', IOk b) => (mkNode n' w' NLoop, b)
            end
        end
      else if IsVersionResponse c || IsContractResponse c || IsDiagnose c
              || IsGasScheduleChangeResponse c
      then (node_end (n_world s) (IOk c), [])
      else (node_end (n_world s) (IErr EBadMessageFromArwen), [])
  end.

(** * Both together *)

Record system (W : Type) : Type := mkSystem {
  s_node : node W;
  s_arwen : arwen;
  to_arwen : list bytes;
  to_node : list bytes }.
Arguments mkSystem {W}. Arguments s_node {W}. Arguments s_arwen {W}.
Arguments to_arwen {W}. Arguments to_node {W}.

Definition arwen_alive (a : arwen) : bool :=
  match a_at a with AIdle | AAsk _ => true | _ => false end.

(** A read that finds too little on a pipe whose writer lives on waits. *)
Definition waits {A} (r : ires A) : bool :=
  match r with IErr EEof | IErr EUnexpectedEof => true | _ => false end.

(** nodepart/part.go:76-92, StartLoop: the request goes out, then the loop
    runs.  The pipe delivers what was written in whatever pieces [cut]. *)
Definition StartLoop {W} (C : codec) (nonce : Z) (w : W) (req : content)
  : node W * bytes :=
  match Send C nonce req with
  | (n, IErr _) => (mkNode n w (NDone (IErr ECannotSendContractRequest)), [])
  | (n, IOk b) => (mkNode n w NLoop, b)
  end.

(** One side takes one message from its pipe and runs until it waits again or
    ends; what it has written arrives at the other side in any pieces. *)
Inductive step {W} (C : codec) (hook : W -> content -> W * content)
  (vm : content -> talk) : system W -> system W -> Prop :=
| step_arwen s n r rest a b pieces :
    arwen_alive (s_arwen s) = true ->
    Receive C (a_nonce (s_arwen s)) (to_arwen s) = (n, r, rest) ->
    waits r = false ->
    arwen_take C vm (s_arwen s) (n, r) = (a, b) ->
    concat pieces = b ->
    step C hook vm s (mkSystem (s_node s) a rest (to_node s ++ pieces))
| step_node s n r rest nd b pieces :
    n_at (s_node s) = NLoop ->
    Receive C (n_nonce (s_node s)) (to_node s) = (n, r, rest) ->
    (waits r = false \/ arwen_alive (s_arwen s) = false) ->
    node_take C hook (s_node s) (n, r) = (nd, b) ->
    concat pieces = b ->
    step C hook vm s (mkSystem nd (s_arwen s) (to_arwen s ++ pieces) rest).
