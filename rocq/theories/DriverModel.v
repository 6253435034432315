(** The driver by which a node runs the virtual machine in another process
    (ipc/nodepart/arwenDriver.go), on top of the message loops of [IpcModel]. *)
From stdpp Require Export relations.
From Verif Require Export IpcModel.

(** What the driver is set up with: the marshalizer of messages, the
    blockchain hook, what a machine with some gas schedule does with a request
    (the repliers of arwenpart/part.go:102-129), ClearCompiledCodes of the hook,
    and NewMessageGasScheduleChangeRequest (messagesContracts.go). *)
Record setup (W S : Type) : Type := mkSetup {
  c_codec : codec;
  c_hook : W -> content -> W * content;
  c_machine : S -> content -> talk;
  c_clear : W -> W;
  c_change : S -> content }.
Arguments mkSetup {W S}. Arguments c_codec {W S}. Arguments c_hook {W S}.
Arguments c_machine {W S}. Arguments c_clear {W S}. Arguments c_change {W S}.

(** [driver.command]: a command whose [Process] is nil because it was never
    started, a process that was waited for after being killed, or a process
    with the gas schedule it works with and the state of its loop.  A process
    whose loop has ended or crashed has exited, but it stays in the process
    table, since nobody waits for it.  That the number of a process waited for
    is given to another one is not modelled. *)
Inductive process (S : Type) : Type :=
| PNil
| PReaped
| PStarted (costs : S) (a : arwen).
Arguments PNil {S}. Arguments PReaped {S}. Arguments PStarted {S}.

(** [driver.part] with its pipes: the nonce of its messenger and what is on the
    pipes to and from the process. *)
Record pipes : Type := mkPipes {
  p_nonce : Z; p_in : list bytes; p_out : list bytes }.

(** arwenDriver.go:21-49, ArwenDriver: [arwenArguments.GasSchedule], what is
    behind [blockchainHook], [command] and [part]; [None] is a part whose pipes
    have been closed.  The logs and the counters are not modelled. *)
Record driver (W S : Type) : Type := mkDriver {
  d_args : S;
  d_world : W;
  d_proc : process S;
  d_part : option pipes }.
Arguments mkDriver {W S}. Arguments d_args {W S}. Arguments d_world {W S}.
Arguments d_proc {W S}. Arguments d_part {W S}.

(** What can go wrong in startArwen: making the pipes of the logs, making the
    pipes of messages, finding the program, starting it (or connecting its
    output), sending it its arguments, listening to its logs. *)
Inductive start_fault : Type :=
| FLogs | FPipes | FPath | FStart | FArgs | FListen | FNone.

(** A process just started, and new pipes (arwenpart/part.go:66-67: the
    messenger of the process is reset). *)
Definition new_process {S} (costs : S) : process S :=
  PStarted costs (mkArwen 0 AIdle).
Definition new_pipes : pipes := mkPipes 0 [] [].

(** arwenDriver.go:77-140, startArwen, with whether it succeeded.  A process
    that did not get its arguments waits for them; nothing else is ever said to
    it. *)
Definition startArwen {W S} (c : setup W S) (f : start_fault) (d : driver W S)
  : driver W S * bool :=
  let a := d_args d in
  let w := d_world d in
  match f with
  | FLogs => (d, false)
  | FPipes | FPath => (mkDriver a w (d_proc d) None, false)
  | FStart => (mkDriver a w PNil None, false)
  | FArgs => (mkDriver a w (new_process a) None, false)
  | FListen => (mkDriver a (c_clear c w) (new_process a) (Some new_pipes), false)
  | FNone => (mkDriver a (c_clear c w) (new_process a) (Some new_pipes), true)
  end.

(** arwenDriver.go:54-75, NewArwenDriver. *)
Definition NewArwenDriver {W S} (c : setup W S) (f : start_fault) (args : S)
  (w : W) : option (driver W S) :=
  let '(d, ok) := startArwen c f (mkDriver args w PNil None) in
  if ok then Some d else None.

(** arwenDriver.go:206-215, IsClosed: signal 0 reaches a process that has
    exited and was not waited for.  [None]: [Process] is nil and the access to
    its number panics. *)
Definition IsClosed {W S} (d : driver W S) : option bool :=
  match d_proc d with
  | PNil => None
  | PReaped => Some true
  | PStarted _ _ => Some false
  end.

(** arwenDriver.go:195-203, RestartArwenIfNecessary. *)
Definition RestartArwenIfNecessary {W S} (c : setup W S) (f : start_fault)
  (d : driver W S) : option (driver W S * bool) :=
  match IsClosed d with
  | None => None
  | Some false => Some (d, true)
  | Some true => Some (startArwen c f d)
  end.

(** arwenDriver.go:343-373, Close and stopArwen: the process is killed and
    waited for; to kill one that was waited for is an error.  [None] panics. *)
Definition Close {W S} (d : driver W S) : option (driver W S * bool) :=
  match d_proc d with
  | PNil => None
  | PReaped => Some (d, false)
  | PStarted _ _ =>
      Some (mkDriver (d_args d) (d_world d) PReaped (d_part d), true)
  end.
Definition closed {W S} (d : driver W S) : driver W S :=
  match Close d with Some (d', _) => d' | None => d end.

(** * A dialogue with a process that may fail *)

(** A process that has exited. *)
Definition dead (n : Z) : arwen := mkArwen n (AStop EEof).

(** The steps of both loops, and what disturbs them: the process exits while it
    waits; it exits in the midst of its work, having written only a part of what
    it had to say; the time of the node's loop is over (nodepart/part.go:95-108).
    The driver keeps its own copies of the process's ends of the pipes, so that
    a node waiting for an exited process is stopped by its deadline and not, as
    in [step], by a closed pipe; both are errors. *)
Inductive move {W S} (calm : bool) (c : setup W S) (costs : S)
  : system W -> system W -> Prop :=
| mv_step s s' :
    step (c_codec c) (c_hook c) (c_machine c costs) s s' ->
    move calm c costs s s'
| mv_exit s n :
    calm = false -> arwen_alive (s_arwen s) = true ->
    move calm c costs s
      (mkSystem (s_node s) (dead n) (to_arwen s) (to_node s))
| mv_cut s n r rest a b m pieces b' :
    calm = false -> arwen_alive (s_arwen s) = true ->
    Receive (c_codec c) (a_nonce (s_arwen s)) (to_arwen s) = (n, r, rest) ->
    waits r = false ->
    arwen_take (c_codec c) (c_machine c costs) (s_arwen s) (n, r) = (a, b) ->
    b = concat pieces ++ b' ->
    move calm c costs s
      (mkSystem (s_node s) (dead m) rest (to_node s ++ pieces))
| mv_late s :
    calm = false -> n_at (s_node s) = NLoop ->
    move calm c costs s
      (mkSystem (node_end (n_world (s_node s)) (IErr EUnexpectedEof))
         (s_arwen s) (to_arwen s) (to_node s)).

(** nodepart/part.go:76-92, StartLoop, from the state of a driver: the response
    or error ([None]: a panic of a replier) and the state after it.  Writing to
    a closed pipe fails. *)
Inductive converses {W S} (calm : bool) (c : setup W S) (d : driver W S)
  (req : content) : option (ires content) -> driver W S -> Prop :=
| cv_closed :
    d_part d = None ->
    converses calm c d req (Some (IErr ECannotSendContractRequest)) d
| cv_done costs a p nd b ps s r :
    d_proc d = PStarted costs a -> d_part d = Some p ->
    StartLoop (c_codec c) (p_nonce p) (d_world d) req = (nd, b) ->
    concat ps = b ->
    rtc (move calm c costs) (mkSystem nd a (p_in p ++ ps) (p_out p)) s ->
    n_at (s_node s) = NDone r ->
    converses calm c d req (Some r)
      (mkDriver (d_args d) (n_world (s_node s)) (PStarted costs (s_arwen s))
         (Some (mkPipes (n_nonce (s_node s)) (to_arwen s) (to_node s))))
| cv_panic costs a p nd b ps s :
    d_proc d = PStarted costs a -> d_part d = Some p ->
    StartLoop (c_codec c) (p_nonce p) (d_world d) req = (nd, b) ->
    concat ps = b ->
    rtc (move calm c costs) (mkSystem nd a (p_in p ++ ps) (p_out p)) s ->
    n_at (s_node s) = NPanic ->
    converses calm c d req None
      (mkDriver (d_args d) (n_world (s_node s)) (PStarted costs (s_arwen s))
         (Some (mkPipes (n_nonce (s_node s)) (to_arwen s) (to_node s)))).

(** * Operations *)

(** GetVersion, RunSmartContractCreate, RunSmartContractCall, DiagnoseWait (with
    the request they build), GasScheduleChange, Close; and the exit of the
    process between two operations.  operationsMutex keeps the operations
    apart; Close takes no lock and is modelled only between operations. *)
Inductive op (S : Type) : Type :=
| OAsk (req : content)
| OSchedule (s : S)
| OClose
| OExit.
Arguments OAsk {S}. Arguments OSchedule {S}. Arguments OClose {S}.
Arguments OExit {S}.

(** What the caller gets: what the response says (an output, or the error in
    it), an error saying that the machine failed (for GetVersion: no version),
    nothing, or a panic. *)
Inductive outcome : Type :=
| Answer (r : content) | Critical | Nothing | Panicked.

(** arwenDriver.go:235, 289, 318: the types the responses are asserted to have;
    DiagnoseWait asserts none. *)
Definition asserted (req r : content) : bool :=
  let is k := match g_type r with TOf k' => k' =? k | _ => false end in
  if g_kind req =? KVersionRequest then is KVersionResponse
  else if (g_kind req =? KContractDeployRequest)
          || (g_kind req =? KContractCallRequest)
       then is KContractResponse
  else true.

Definition with_args {W S} (s : S) (d : driver W S) : driver W S :=
  mkDriver s (d_world d) (d_proc d) (d_part d).
Definition with_costs {W S} (s : S) (d : driver W S) : driver W S :=
  match d_proc d with
  | PStarted _ a => mkDriver (d_args d) (d_world d) (PStarted s a) (d_part d)
  | _ => d
  end.

Definition calm_start (calm : bool) (f : start_fault) : Prop :=
  calm = true -> f = FNone.

(** arwenDriver.go:217-341.  A [calm] operation is one nothing disturbs. *)
Inductive act {W S} (calm : bool) (c : setup W S) (d : driver W S)
  : op S -> outcome -> driver W S -> Prop :=
| act_ask_nil req f :
    RestartArwenIfNecessary c f d = None -> act calm c d (OAsk req) Panicked d
| act_ask_unstarted req f d1 :
    calm_start calm f -> RestartArwenIfNecessary c f d = Some (d1, false) ->
    act calm c d (OAsk req) Critical d1
| act_ask_failed req f d1 e d2 :
    calm_start calm f -> RestartArwenIfNecessary c f d = Some (d1, true) ->
    converses calm c d1 req (Some (IErr e)) d2 ->
    act calm c d (OAsk req) Critical (closed d2)
| act_ask_ok req f d1 r d2 :
    calm_start calm f -> RestartArwenIfNecessary c f d = Some (d1, true) ->
    converses calm c d1 req (Some (IOk r)) d2 ->
    act calm c d (OAsk req)
      (if asserted req r then Answer r else Panicked) d2
| act_ask_panic req f d1 d2 :
    calm_start calm f -> RestartArwenIfNecessary c f d = Some (d1, true) ->
    converses calm c d1 req None d2 ->
    act calm c d (OAsk req) Panicked d2
| act_schedule_nil s f :
    RestartArwenIfNecessary c f (with_args s d) = None ->
    act calm c d (OSchedule s) Panicked (with_args s d)
| act_schedule_unstarted s f d1 :
    calm_start calm f ->
    RestartArwenIfNecessary c f (with_args s d) = Some (d1, false) ->
    act calm c d (OSchedule s) Nothing d1
| act_schedule_failed s f d1 e d2 :
    calm_start calm f ->
    RestartArwenIfNecessary c f (with_args s d) = Some (d1, true) ->
    converses calm c d1 (c_change c s) (Some (IErr e)) d2 ->
    act calm c d (OSchedule s) Nothing (closed d2)
| act_schedule_ok s f d1 r d2 :
    calm_start calm f ->
    RestartArwenIfNecessary c f (with_args s d) = Some (d1, true) ->
    converses calm c d1 (c_change c s) (Some (IOk r)) d2 ->
    act calm c d (OSchedule s) Nothing
      (match g_error r with [] => with_costs s d2 | _ => closed d2 end)
| act_schedule_panic s f d1 d2 :
    calm_start calm f ->
    RestartArwenIfNecessary c f (with_args s d) = Some (d1, true) ->
    converses calm c d1 (c_change c s) None d2 ->
    act calm c d (OSchedule s) Panicked d2
| act_close_nil : Close d = None -> act calm c d OClose Panicked d
| act_close d1 ok :
    Close d = Some (d1, ok) ->
    act calm c d OClose (if ok then Nothing else Critical) d1
| act_exit costs a n :
    calm = false -> d_proc d = PStarted costs a ->
    act calm c d OExit Nothing
      (mkDriver (d_args d) (d_world d) (PStarted costs (dead n)) (d_part d)).

(** Any number of operations, the first one first. *)
Inductive runs {W S} (calm : bool) (c : setup W S) (d : driver W S)
  : list (op S * outcome) -> driver W S -> Prop :=
| runs_none : runs calm c d [] d
| runs_more h d1 o x d2 :
    runs calm c d h d1 -> act calm c d1 o x d2 ->
    runs calm c d (h ++ [(o, x)]) d2.
