(** What a node may expect of the driver, said without the driver's states:
    which machine answers, and what the machines must be like. *)
From Verif Require Import Base IpcModel IpcSpec DriverModel.

(** The gas schedule set last. *)
Fixpoint last_schedule {S} (first : S) (h : list (op S * outcome)) : S :=
  match h with
  | [] => first
  | (OSchedule s, _) :: h => last_schedule s h
  | _ :: h => last_schedule first h
  end.

(** As [proper], but the machine may also ask what the node takes for no
    question. *)
Fixpoint decent {W} (fits : content -> Prop) (hook : W -> content -> W * content)
  (w : W) (t : talk) : Prop :=
  match t with
  | Say r => passes fits r /\ response r
  | Ask q k =>
      passes fits q
      /\ (unheard q
          \/ question q /\ passes fits (snd (hook w q))
             /\ decent fits hook (fst (hook w q)) (k (IOk (snd (hook w q)))))
  end.

(** A request as an operation of the driver makes it. *)
Definition asks (fits : content -> Prop) (req : content) : Prop :=
  passes fits req /\ request req.
Definition asking {S} (fits : content -> Prop) (h : list (op S * outcome)) : Prop :=
  Forall (fun e => match fst e with OAsk req => asks fits req | _ => True end) h.

(** What is assumed of the setup: the marshalizer carries what fits through the
    pipe, machines are decent, and a change of the gas schedule is a message of
    its own kind (which the receiver has no type for). *)
Definition sound_setup {W S} (fits : content -> Prop) (c : setup W S) : Prop :=
  carries (c_codec c) fits
  /\ (forall s w req, asks fits req -> decent fits (c_hook c) w (c_machine c s req))
  /\ strips (c_codec c) (fun m => exists s, m = c_change c s)
  /\ (forall s, g_type (c_change c s) = TOf KGasScheduleChangeRequest
                /\ g_kind (c_change c s) = KGasScheduleChangeRequest).

(** The response that belongs to a request. *)
Definition belongs (req r : content) : Prop :=
  g_kind req = KVersionRequest /\ g_kind r = KVersionResponse
  \/ g_kind req = KDiagnoseWaitRequest /\ g_kind r = KDiagnoseWaitResponse
  \/ (g_kind req = KContractDeployRequest \/ g_kind req = KContractCallRequest)
     /\ g_kind r = KContractResponse.

(** A machine that serves a request whatever its gas schedule and the world:
    it asks only what the node answers and responds with what belongs to the
    request. *)
Definition serves {W S} (fits : content -> Prop) (c : setup W S) (req : content)
  : Prop :=
  forall s w, proper fits (c_hook c) w (c_machine c s req)
              /\ belongs req (snd (in_process (c_hook c) w (c_machine c s req))).

(** A history whose requests the machine serves. *)
Definition serving {W S} (fits : content -> Prop) (c : setup W S)
  (h : list (op S * outcome)) : Prop :=
  Forall (fun e => match fst e with
                   | OAsk req => asks fits req /\ serves fits c req
                   | _ => True
                   end) h.
