(** The loops over Go maps, written as loops over the entries in the order of
    the visit.  The rest of the model uses functions on whole maps for these;
    C48 relates the two. *)
From Verif Require Export VmModel.

(** metering.go:223-234 getCurrentTotalUsedGas *)
Definition loop_total (visit : list (bytes * out_account)) : Z :=
  fold_left (fun g p => AddUint64 (AddUint64 g (oa_gasused p.2)) (getGasTransferredByAccount p.2)) visit 0.

(** metering.go:236-252 getGasUsedByAllOtherAccounts; [self] is the current
    account, [used] the gas used by accounts *)
Definition loop_others (self : bytes) (used : gmap bytes Z) (visit : list (bytes * out_account)) : Z :=
  fold_left (fun g p =>
    AddUint64 (AddUint64 g (if beq p.1 self then 0 else default 0 (used !! p.1)))
              (getGasTransferredByAccount p.2)) visit 0.

(** metering.go:136-140 addToGasUsedByAccounts *)
Definition loop_add_used (used : gmap bytes Z) (visit : list (bytes * Z)) : gmap bytes Z :=
  fold_left (fun m p => <[p.1 := u64 (default 0 (m !! p.1) + p.2)]> m) visit used.

(** metering.go:264-267, the first loop of setGasUsedToOutputAccounts: [accs]
    holds the accounts pointed to by the map *)
Definition loop_set_used (used : gmap bytes Z) (accs : gmap bytes out_account)
    (visit : list (bytes * out_account)) : gmap bytes out_account :=
  fold_left (fun m p => alter (set_oa_gasused (default 0 (used !! p.1))) p.1 m) visit accs.
(** metering.go:269-274, the second one: is an account missing? *)
Fixpoint loop_missing (accs : gmap bytes out_account) (visit : list bytes) : bool :=
  match visit with
  | [] => false
  | a :: l => match accs !! a with None => true | Some _ => loop_missing accs l end
  end.

(** output.go:458-467 removeNonUpdatedCode *)
Definition loop_remove_code (upd : gset bytes) (accs : gmap bytes out_account)
    (visit : list (bytes * out_account)) : gmap bytes out_account :=
  fold_left (fun m p =>
    if bool_decide (p.1 ∈ upd) then m
    else alter (fun x => set_oa_deployer None (set_oa_meta [] (set_oa_code [] x))) p.1 m) visit accs.

(** output.go:533-540, the loop of mergeVMOutputs; an account's Address is the
    key it is stored under *)
Definition loop_merge (left : gmap bytes out_account) (visit : list (bytes * out_account)) : gmap bytes out_account :=
  fold_left (fun m p => <[p.1 := mergeOutputAccounts (default NewVMOutputAccount (m !! p.1)) p.2]> m) visit left.
(** output.go:608-610, the loop of mergeStorageUpdates *)
Definition loop_storage (left : gmap bytes bytes) (visit : list (bytes * bytes)) : gmap bytes bytes :=
  fold_left (fun m p => <[p.1 := p.2]> m) visit left.

(** validator.go:34-48 verifyFunctions is [verifyFunctionsIn], asyncCall.go:766-788
    (setupAsyncCallsGas) is [asyncGasNeeded], both already over lists. *)
