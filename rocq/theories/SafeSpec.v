(** What a panic-free API call needs and leaves behind: property C56. *)
From Verif Require Import VmTypes.

(** a contract is running: there is a current Wasmer instance; and the output
    under construction has a gas refund (output.go:42-54 makes one) *)
Definition alive (h : host) : Prop :=
  (exists i x, h_cur h = Some i /\ h_insts h !! i = Some x) /\ o_refund (h_out h) <> None.

(** a byte string whose length is an int32 *)
Definition small (b : bytes) : Prop := blen b <= max_i32.
(** a number of at most 2^30 bytes *)
Definition small_num (v : Z) : Prop := Z.log2 (Z.abs v) < 8589934592.

(** no byte string or number that the host could be asked to copy into the
    contract's memory has 2 GiB or more *)
Definition small_input (i : vm_input) : Prop :=
  small (vi_caller i) /\ (forall a, a ∈ vi_args i -> small a) /\ small_num (vi_value i) /\
  (forall t, t ∈ vi_esdt i -> small (et_name t) /\ small_num (et_value t)) /\ small (vi_origtx i).
Definition small_account (x : out_account) : Prop :=
  (forall k v, oa_storage x !! k = Some v -> small v) /\
  (forall b, oa_balance x = Some b -> small_num b) /\ small_num (oa_delta x).
Definition small_output (o : vm_output) : Prop :=
  (forall d, d ∈ o_retdata o -> small d) /\
  (forall a x, o_accounts o !! a = Some x -> small_account x).
Definition small_user (u : user_account) : Prop :=
  small (ua_owner u) /\ small_num (ua_balance u) /\ (forall k v, ua_storage u !! k = Some v -> small v).
Definition small_host (h : host) : Prop :=
  small (r_addr (h_rt h)) /\ small (r_fn (h_rt h)) /\ small_input (r_input (h_rt h)) /\
  small_output (h_out h) /\
  (forall a u, w_accounts (h_world h) !! a = Some u -> small_user u) /\
  (forall handle v, h_big h !! handle = Some v -> small_num v).

(** the blockchain hook and the crypto library return (they do not panic) and
    return values of less than 2 GiB *)
Definition small_token (t : esdt_token) : Prop :=
  small_num (ek_value t) /\ small (ek_properties t) /\
  forall m, ek_meta t = Some m ->
    small (em_hash m) /\ small (em_name m) /\ small (em_attributes m) /\ small (em_creator m) /\
    (forall u, u ∈ em_uris m -> small u).
Definition hooks_return (E : env) : Prop :=
  (forall w a, e_isPayable E w a <> RPanic) /\
  (forall w a t n, e_esdtToken E w a t n <> RPanic) /\
  (forall w a t n k, e_esdtToken E w a t n = ROk k -> small_token k) /\
  (forall n b, e_blockhash E n = ROk b -> small b) /\
  (forall b, small (e_blockseed E b)) /\ small (e_stateroot E) /\
  (forall name d b, e_hash E name d = ROk b -> small b) /\
  (forall a n, e_newAddress E a n <> RPanic) /\
  (forall a n b, e_newAddress E a n = ROk b -> small b) /\
  (forall w i, snd (e_builtin E w i) <> RPanic).

(** the calls that index a list with an unchecked number, and the number (an
    int32) *)
Definition unchecked_index (c : api_call) : option Z :=
  match c with
  | A_getReturnDataSize i | A_getReturnData i _
  | A_bigIntGetUnsignedArgument i _ | A_bigIntGetSignedArgument i _ => Some (i32 i)
  | _ => None
  end.

(** the calls that run other code before they return *)
Definition executing (c : api_call) : bool :=
  match c with
  | A_transferValueExecute _ _ _ _ _ _ _ _
  | A_transferESDTExecute _ _ _ _ _ _ _ _ _ _ | A_transferESDTNFTExecute _ _ _ _ _ _ _ _ _ _ _
  | A_executeOnSameContext _ _ _ _ _ _ _ _ | A_executeOnDestContext _ _ _ _ _ _ _ _
  | A_executeOnDestContextByCaller _ _ _ _ _ _ _ _ | A_delegateExecution _ _ _ _ _ _ _
  | A_executeReadOnly _ _ _ _ _ _ _
  | A_createContract _ _ _ _ _ _ _ _ _ | A_deployFromSourceContract _ _ _ _ _ _ _ _ => true
  | _ => false
  end.

(** the call gives control back to the contract, which is still running *)
Definition returns {A} (r : host * outc A) : Prop :=
  match r with (h, OOk _) => alive h | _ => False end.
