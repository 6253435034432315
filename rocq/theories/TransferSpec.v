(** What a transfer and a reward of a scenario do, in terms of the fields of the
    accounts: no function of WorldModel is used. *)
From Verif Require Import Base CodecSpec ScenModel WorldModel WorldSpec.
From stdpp Require Import gmap.
Local Open Scope Z_scope.

Definition balance_of (w : mworld) (addr : bytes) : Z :=
  match mw_accts w !! addr with Some a => wa_balance a | None => 0 end.
Definition nonce_of (w : mworld) (addr : bytes) : Z :=
  match mw_accts w !! addr with Some a => wa_nonce a | None => 0 end.
Definition storage_at (w : mworld) (addr k : bytes) : option bytes :=
  match mw_accts w !! addr with Some a => wa_storage a !! k | None => None end.
(** The parts of an account that no payment touches. *)
Definition identity_of (w : mworld) (addr : bytes) : bytes * bytes * bytes * bytes * bytes * Z :=
  match mw_accts w !! addr with
  | Some a => (wa_code a, wa_codehash a, wa_owner a, wa_username a, wa_async a, wa_shard a)
  | None => ([], [], [], [], [], 0)
  end.
(** What of the world is not in its accounts. *)
Definition same_blocks (w w' : mworld) : Prop :=
  mw_previous w' = mw_previous w /\ mw_current w' = mw_current w /\
  mw_hashes w' = mw_hashes w /\ mw_mocks w' = mw_mocks w.

(** [from] pays [fee], and [value] to [to], who may be new. *)
Definition moved (from to : bytes) (fee value : Z) (w w' : mworld) : Prop :=
  (forall addr, balance_of w' addr = balance_of w addr
     - (if bool_decide (addr = from) then fee + value else 0)
     + (if bool_decide (addr = to) then value else 0)) /\
  (forall addr, nonce_of w' addr =
     if bool_decide (addr = from) then (nonce_of w addr + 1) mod 2 ^ 64 else nonce_of w addr) /\
  (forall addr k, storage_at w' addr k = storage_at w addr k) /\
  (forall addr, identity_of w' addr = identity_of w addr) /\
  (forall addr, is_Some (mw_accts w' !! addr) <-> is_Some (mw_accts w !! addr) \/ addr = to) /\
  same_blocks w w' /\ mw_snaps w' = [].

(** [to] gets [value], and the sum of the rewards it got is kept in its storage. *)
Definition rewarded (to : bytes) (value : Z) (w w' : mworld) : Prop :=
  (forall addr, balance_of w' addr = balance_of w addr + (if bool_decide (addr = to) then value else 0)) /\
  (forall addr, nonce_of w' addr = nonce_of w addr) /\
  (forall addr k, (addr, k) <> (to, str "ELRONDreward") -> storage_at w' addr k = storage_at w addr k) /\
  (exists sum, storage_at w' to (str "ELRONDreward") = Some sum /\
     be_value sum = Z.abs (be_value (default [] (storage_at w to (str "ELRONDreward"))) + value) /\
     head sum <> Some Byte.x00) /\
  (forall addr, identity_of w' addr = identity_of w addr) /\
  (forall addr, is_Some (mw_accts w' !! addr) <-> is_Some (mw_accts w !! addr)) /\
  same_blocks w w' /\ mw_snaps w' = [].
