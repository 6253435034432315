(** What the pipes between node and virtual machine should guarantee, said
    without the framing, the messenger or the loops.  From the model only the
    data types of messages and the numbers of the kinds are used. *)
From Verif Require Import Base IpcModel.

(** The number that follows a nonce. *)
Definition next (n : Z) : Z := (n + 1) mod 4294967296.

(** The messages that leave when the contents [cs] are sent after nonce [n]. *)
Fixpoint numbered (n : Z) (cs : list content) : list msg :=
  match cs with
  | [] => []
  | c :: cs => mkMsg (next n) c :: numbered (next n) cs
  end.

(** What should become of messages arriving in any order: the one with the next
    number is delivered, any other is rejected and forgotten. *)
Fixpoint judged (n : Z) (ms : list msg) : list (ires msg) :=
  match ms with
  | [] => []
  | m :: ms =>
      if decide (g_nonce m = next n) then IOk m :: judged (next n) ms
      else IErr EInvalidMessageNonce :: judged n ms
  end.

(** The messages delivered among some outcomes. *)
Fixpoint delivered (rs : list (ires msg)) : list msg :=
  match rs with
  | [] => []
  | IOk m :: rs => m :: delivered rs
  | IErr _ :: rs => delivered rs
  end.

(** The numbers [n+1], [n+2], ..., [k] of them. *)
Fixpoint following (n : Z) (k : nat) : list Z :=
  match k with
  | O => []
  | S k => next n :: following (next n) k
  end.

(** Kinds nothing is registered for: messages of these kinds cannot be told
    apart by the receiver. *)
Definition unregistered (k : Z) : Prop :=
  k = KFirstKind \/ k = KGasScheduleChangeRequest
  \/ k = KGasScheduleChangeResponse
  \/ k = KBlockchainProcessBuiltinFunctionRequest
  \/ k = KBlockchainProcessBuiltinFunctionResponse
  \/ k = KUndefinedRequestOrResponse.

(** A content as the constructors of messages make it: the Go type belongs to
    the kind. *)
Definition built (c : content) : Prop :=
  g_type c = TOf (g_kind c) /\ 0 <= g_kind c < KLastKind
  /\ ~ unregistered (g_kind c).

(** A message of some type with nothing in it but its kind. *)
Definition blank (m : msg) (t : gotype) (k : Z) : Prop :=
  g_content m = mkContent t k [] [].

(** What is asked of the marshalizer for the contents that fit through the
    pipe: a message has an encoding, shorter than four gigabytes, and decoding
    it into a blank message of the same type gives the message back. *)
Definition carries (C : codec) (fits : content -> Prop) : Prop :=
  forall n c, 0 <= n < 4294967296 -> fits c ->
  exists data,
    Marshal C (mkMsg n c) = IOk data /\ blen data < 4294967296 /\
    (forall m, blank m (g_type c) (g_kind c) ->
       Unmarshal C m data = IOk (mkMsg n c)).

(** What decoding into a message type without fields of its own leaves. *)
Definition strips (C : codec) (fits : content -> Prop) : Prop :=
  forall n c, 0 <= n < 4294967296 -> fits c ->
  exists data,
    Marshal C (mkMsg n c) = IOk data /\ blen data < 4294967296 /\
    (forall m, blank m TUndefined (g_kind c) ->
       Unmarshal C m data
       = IOk (mkMsg n (mkContent TUndefined (g_kind c) (g_error c) []))).

(** * Dialogues *)

(** The questions the node answers. *)
Definition question (c : content) : Prop :=
  g_kind c = KBlockchainNewAddressRequest
  \/ g_kind c = KBlockchainGetStorageDataRequest
  \/ g_kind c = KBlockchainGetBlockhashRequest
  \/ g_kind c = KBlockchainLastNonceRequest
  \/ g_kind c = KBlockchainLastRoundRequest
  \/ g_kind c = KBlockchainLastTimeStampRequest
  \/ g_kind c = KBlockchainLastRandomSeedRequest
  \/ g_kind c = KBlockchainLastEpochRequest
  \/ g_kind c = KBlockchainGetStateRootHashRequest
  \/ g_kind c = KBlockchainCurrentNonceRequest
  \/ g_kind c = KBlockchainCurrentRoundRequest
  \/ g_kind c = KBlockchainCurrentTimeStampRequest
  \/ g_kind c = KBlockchainCurrentRandomSeedRequest
  \/ g_kind c = KBlockchainCurrentEpochRequest
  \/ g_kind c = KBlockchainGetBuiltinFunctionNamesRequest
  \/ g_kind c = KBlockchainGetAllStateRequest
  \/ g_kind c = KBlockchainGetUserAccountRequest
  \/ g_kind c = KBlockchainGetCodeRequest
  \/ g_kind c = KBlockchainGetShardOfAddressRequest
  \/ g_kind c = KBlockchainIsSmartContractRequest
  \/ g_kind c = KBlockchainIsPayableRequest
  \/ g_kind c = KBlockchainSaveCompiledCodeRequest
  \/ g_kind c = KBlockchainGetCompiledCodeRequest
  \/ g_kind c = KBlockchainGetESDTTokenRequest.

(** The questions the virtual machine has that the node has an answer for but
    does not take for questions. *)
Definition unheard (c : content) : Prop :=
  g_kind c = KBlockchainClearCompiledCodesRequest
  \/ g_kind c = KBlockchainGetSnapshotRequest
  \/ g_kind c = KBlockchainIsInterfaceNilRequest
  \/ g_kind c = KBlockchainRevertToSnapshotRequest
  \/ g_kind c = KBlockchainProcessBuiltInFunctionRequest.

(** Requests of the node and the responses that end a dialogue. *)
Definition request (c : content) : Prop :=
  g_kind c = KContractDeployRequest \/ g_kind c = KContractCallRequest
  \/ g_kind c = KDiagnoseWaitRequest \/ g_kind c = KVersionRequest.
Definition response (c : content) : Prop :=
  g_kind c = KContractResponse \/ g_kind c = KVersionResponse
  \/ g_kind c = KDiagnoseWaitResponse.

(** Contents that pass through the pipe. *)
Definition passes (fits : content -> Prop) (c : content) : Prop :=
  fits c /\ built c.

(** A dialogue that goes well from the world [w] on: the virtual machine asks
    only questions the node answers, it ends with a response, and all that is
    said passes through the pipe. *)
Fixpoint proper {W} (fits : content -> Prop) (hook : W -> content -> W * content)
  (w : W) (t : talk) : Prop :=
  match t with
  | Say r => passes fits r /\ response r
  | Ask q k =>
      passes fits q /\ question q /\ passes fits (snd (hook w q))
      /\ proper fits hook (fst (hook w q)) (k (IOk (snd (hook w q))))
  end.

(** The same machine with the hook called directly, in one process. *)
Fixpoint in_process {W} (hook : W -> content -> W * content) (w : W) (t : talk)
  : W * content :=
  match t with
  | Say r => (w, r)
  | Ask q k =>
      let '(w', a) := hook w q in in_process hook w' (k (IOk a))
  end.

(** Every run from [s] comes to an end, and where it ends [Q] holds. *)
Inductive ends {S : Type} (moves : S -> S -> Prop) (Q : S -> Prop) (s : S)
  : Prop :=
| ends_now : Q s -> (forall s', ~ moves s s') -> ends moves Q s
| ends_later :
    (exists s', moves s s') -> (forall s', moves s s' -> ends moves Q s') ->
    ends moves Q s.
