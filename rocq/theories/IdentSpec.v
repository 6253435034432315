(** Vocabulary for C57: the call a contract is serving, and what the API
    functions reading it must answer. *)
From Verif Require Import VmTypes CtxModel CodecSpec CallSpec.

(** the arguments meant for the contract: an upgrade's first two are the new
    code and its metadata, which are for the VM *)
Definition served_arguments (function : bytes) (args : list bytes) : list bytes :=
  if bool_decide (function = str "upgradeContract") then drop 2 args else args.

(** the frame of code started for the call [i] shows the call's caller, value,
    tokens and arguments *)
Record serves (i : call_input) (h : host) : Prop := mkServes {
  se_address : r_addr (h_rt h) = ci_rcpt i;
  se_caller : vi_caller (r_input (h_rt h)) = vi_caller (ci_vm i);
  se_value : vi_value (r_input (h_rt h)) = vi_value (ci_vm i);
  se_tokens : vi_esdt (r_input (h_rt h)) = vi_esdt (ci_vm i);
  se_arguments : vi_args (r_input (h_rt h)) = served_arguments (ci_fn i) (vi_args (ci_vm i))
}.

(** the first token transfer of a call, or an empty one *)
Definition first_token (v : vm_input) : esdt_transfer :=
  match vi_esdt v with t :: _ => t | [] => mkEsdt 0 [] 0 0 end.

(** functions writing into the contract's memory: the offset given, the bytes
    written there, and the number returned.  Amounts are big-endian, 32 bytes
    long when they are neither zero nor longer than that; the number returned
    tells the length (nothing is written for zero). *)
Definition amount (z : Z) (d : bytes) : Prop :=
  be_value d = z /\ (0 < z < 2 ^ 256 -> blen d = 32) /\ (z = 0 -> d = []).
Definition memory_answer (c : api_call) (v : vm_input) (offset : Z) (d : bytes) (r : Z) : Prop :=
  match c with
  | A_getCaller o => offset = o /\ d = vi_caller v /\ r = 0
  | A_getCallValue o => offset = o /\ amount (vi_value v) d /\ r = i32 (blen d)
  | A_getESDTValue o => offset = o /\ amount (et_value (first_token v)) d /\ r = i32 (blen d)
  | A_getESDTTokenName o => offset = o /\ d = et_name (first_token v) /\ r = i32 (blen d)
  | A_getArgument id o => offset = o /\ 0 <= i32 id /\ vi_args v !! Z.to_nat (i32 id) = Some d /\ r = i32 (blen d)
  | _ => False
  end.
(** ... to which the call must give an answer *)
Definition memory_question (c : api_call) (v : vm_input) : Prop :=
  match c with
  | A_getCaller _ | A_getCallValue _ | A_getESDTValue _ | A_getESDTTokenName _ => True
  | A_getArgument id _ => 0 <= i32 id < Z.of_nat (length (vi_args v))
  | _ => False
  end.

(** functions returning a number *)
Definition number_answer (c : api_call) (v : vm_input) : option Z :=
  match c with
  | A_getNumArguments => Some (i32 (Z.of_nat (length (vi_args v))))
  | A_getArgumentLength id =>
      Some (if i32 id <? 0 then -1
            else match vi_args v !! Z.to_nat (i32 id) with Some a => i32 (blen a) | None => -1 end)
  | A_getArgument id _ => if (0 <=? i32 id) && (i32 id <? Z.of_nat (length (vi_args v))) then None else Some (-1)
  | A_getESDTTokenNonce => Some (i64 (et_nonce (first_token v)))
  | A_getESDTTokenType => Some (i32 (et_type (first_token v)))
  | A_checkNoPayment => if (vi_value v <=? 0) && bool_decide (vi_esdt v = []) then Some 0 else None
  | _ => None
  end.

(** functions filling a big-integer handle *)
Definition handle_answer (c : api_call) (v : vm_input) : option (Z * Z) :=
  match c with
  | A_bigIntGetCallValue x => Some (i32 x, vi_value v)
  | A_bigIntGetESDTCallValue x => Some (i32 x, et_value (first_token v))
  | A_bigIntGetUnsignedArgument id x =>
      if i32 id <? 0 then None else
      match vi_args v !! Z.to_nat (i32 id) with Some a => Some (i32 x, be_value a) | None => None end
  | A_bigIntGetSignedArgument id x =>
      if i32 id <? 0 then None else
      match vi_args v !! Z.to_nat (i32 id) with Some a => Some (i32 x, twos_value a) | None => None end
  | _ => None
  end.

(** a contract runs, with a gas counter in range *)
Definition counting (h : host) : Prop :=
  exists i x, h_cur h = Some i /\ h_insts h !! i = Some x /\ 0 <= in_points x <= max_i64.

(** nothing but the running contract's memory, gas counter and big integers changed *)
Definition only_own (h h' : host) : Prop :=
  exists i x m g b, h_cur h = Some i /\ h_insts h !! i = Some x /\
    h' = set_h_big b (set_h_insts (<[i := set_in_mem m (set_in_points g x)]> (h_insts h)) h).
