(** What the world behind a scenario answers to the virtual machine:
    mock/world/worldCallbacks.go and worldUtil.go.

    [Err], never set in a scenario, the built-in functions and the cache of
    compiled code are left out.  An answer is [SErr] for a Go error and [SPanic]
    for a panic (which the host turns into an error of its own). *)
From Verif Require Import Base CodecModel WorldModel CtxModel.
From stdpp Require Import gmap.
Local Open Scope Z_scope.

(** worldUtil.go:4-16, GenerateMockAddress; the slice [creatorAddress[30:]]
    panics if the address is shorter *)
Definition GenerateMockAddress (creator : bytes) (nonce : Z) : sres bytes :=
  if (length creator <? 30)%nat then SPanic
  else SOk (repeat Byte.x00 10 ++ repeat Byte.x11 4 ++ take 15 creator ++ [zb nonce]
              ++ take 2 (drop 30 creator ++ [Byte.x00; Byte.x00])).

(** worldCallbacks.go:23-43, NewAddress; LastCreatedContractAddress, which only
    the debugging facade reads, is left out *)
Fixpoint find_mock (creator : bytes) (nonce : Z) (l : list wmock) : option bytes :=
  match l with
  | [] => None
  | m :: l =>
      if bool_decide (creator = wm_creator m) && (nonce =? wm_cnonce m) then Some (wm_new m)
      else find_mock creator nonce l
  end.
Definition hook_NewAddress (creator : bytes) (nonce : Z) (w : mworld) : sres bytes :=
  match find_mock creator nonce (mw_mocks w) with
  | Some a => SOk a
  | None => GenerateMockAddress creator nonce
  end.

(** worldCallbacks.go:47-58, GetStorageData *)
Definition hook_GetStorageData (addr key : bytes) (w : mworld) : bytes :=
  match mw_accts w !! addr with
  | None => []
  | Some a => StorageValue a key
  end.

(** worldCallbacks.go:80-117 and 124-160: nonce, round, timestamp, epoch and
    seed of a block; all zero (the seed empty) without one.  A header without a
    seed, which slicing would make panic, is there only before the first
    setState step and not modelled. *)
Definition block_of (b : option wblock) : wblock :=
  match b with Some b => b | None => mkWBlock 0 0 0 0 [] end.
Definition hook_Last (w : mworld) : wblock := block_of (mw_previous w).
Definition hook_Current (w : mworld) : wblock := block_of (mw_current w).

(** worldCallbacks.go:62-75, GetBlockhash *)
Definition hook_GetBlockhash (nonce : Z) (w : mworld) : sres bytes :=
  let current := wb_nonce (hook_Current w) in
  if current <? nonce then SErr
  else match mw_hashes w !! Z.to_nat (current - nonce) with
       | Some h => SOk h
       | None => SErr
       end.

(** worldCallbacks.go:175-189 with mockESDT.go:36-39, GetESDTToken: a method
    called on a nil account *)
Definition hook_GetESDTToken {W : wenv} (addr name : bytes) (nonce : Z) (w : mworld) : sres token :=
  match mw_accts w !! addr with
  | None => SPanic
  | Some a => GetTokenData a (MakeTokenKey name nonce)
  end.

(** worldCallbacks.go:197-203, GetAllState *)
Definition hook_GetAllState (addr : bytes) (w : mworld) : sres (gmap bytes bytes) :=
  match mw_accts w !! addr with Some a => SOk (wa_storage a) | None => SErr end.

(** worldCallbacks.go:206-218, GetUserAccount *)
Definition hook_GetUserAccount (addr : bytes) (w : mworld) : sres waccount :=
  match mw_accts w !! addr with Some a => SOk a | None => SErr end.

(** worldCallbacks.go:221-228, GetCode, of the account with this address *)
Definition hook_GetCode (addr : bytes) (w : mworld) : bytes :=
  match mw_accts w !! addr with Some a => wa_code a | None => [] end.

(** worldCallbacks.go:231-238, GetShardOfAddress *)
Definition hook_GetShardOfAddress (addr : bytes) (w : mworld) : Z :=
  match mw_accts w !! addr with Some a => wa_shard a | None => 0 end.

(** worldCallbacks.go:241-248, IsSmartContract; [like] is
    vmcommon.IsSmartContractAddress, which goes by the form of the address *)
Definition hook_IsSmartContract (like : bytes -> bool) (addr : bytes) (w : mworld) : bool :=
  match mw_accts w !! addr with Some a => wa_is_sc a | None => like addr end.

(** worldCallbacks.go:251-263, IsPayable *)
Definition hook_IsPayable (addr : bytes) (w : mworld) : bool :=
  match mw_accts w !! addr with
  | None => true
  | Some a => if wa_is_sc a then meta_payable (wa_meta a) else true
  end.
