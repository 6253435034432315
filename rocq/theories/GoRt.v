(** Error values, results with panics, and Go slice expressions. *)
From Verif Require Export Base.

(** * Errors

    arwen/errors.go:9-151, one constructor per sentinel error used by the
    modelled code, plus the errors produced by dependencies:
    [ErrParser] (elrond-vm-common call-args parser), [ErrWasmer] (instance
    creation), [ErrGrow] (wasmer memory growth), [ErrOverflow]
    (math/overflow.go ErrAdditionOverflow and friends), [ErrBuiltin] (a failing
    built-in function), [ErrHook] (a failing blockchain hook), [ErrGeneric]
    (ad-hoc errors made by errors.New / fmt.Errorf without a sentinel).
    Simplification: error texts are not modelled; a wrapped error
    (fmt.Errorf("...%w")) is its sentinel. *)
Inductive err : Type :=
| ErrReturnCodeNotOk
| ErrInvalidCallOnReadOnlyMode
| ErrNotEnoughGas
| ErrUnhandledRuntimeBreakpoint
| ErrSignalError
| ErrExecutionFailed
| ErrBadBounds
| ErrBadLowerBounds
| ErrBadUpperBounds
| ErrNegativeLength
| ErrTransferInsufficientFunds
| ErrTransferNegativeValue
| ErrUpgradeFailed
| ErrInvalidUpgradeArguments
| ErrInvalidFunction
| ErrInitFuncCalledInRun
| ErrCallBackFuncCalledInRun
| ErrCallBackFuncNotExpected
| ErrFuncNotFound
| ErrInvalidFunctionName
| ErrFunctionNonvoidSignature
| ErrContractInvalid
| ErrContractNotFound
| ErrMemoryDeclarationMissing
| ErrMaxInstancesReached
| ErrStoreElrondReservedKey
| ErrCannotWriteProtectedKey
| ErrNonPayableFunctionEgld
| ErrNonPayableFunctionEsdt
| ErrArgIndexOutOfRange
| ErrArgOutOfRange
| ErrStorageValueOutOfRange
| ErrDivZero
| ErrBitwiseNegative
| ErrShiftNegative
| ErrAsyncContextDoesNotExist
| ErrInvalidAccount
| ErrDeploymentOverExistingAccount
| ErrAccountNotPayable
| ErrInvalidPublicKeySize
| ErrNilCallbackFunction
| ErrUpgradeNotAllowed
| ErrNilContract
| ErrBuiltinCallOnSameContextDisallowed
| ErrSyncExecutionNotInSameShard
| ErrInputAndOutputGasDoesNotMatch
| ErrTransferValueOnESDTCall
| ErrParser
| ErrWasmer
| ErrGrow
| ErrOverflow
| ErrBuiltin
| ErrHook
| ErrGeneric.

Global Instance err_eq_dec : EqDecision err.
Proof. solve_decision. Defined.

(** * Results: normal return, returned error, Go panic *)
Inductive res (A : Type) : Type :=
| ROk (a : A)
| RErr (e : err)
| RPanic.
Arguments ROk {A} a.
Arguments RErr {A} e.
Arguments RPanic {A}.

Global Instance res_ret : MRet res := @ROk.
Global Instance res_bind : MBind res := fun A B f r =>
  match r with ROk a => f a | RErr e => RErr e | RPanic => RPanic end.

(** Go slice expression [l[a:b]] on a slice whose capacity is its length:
    panics unless 0 <= a <= b <= len(l) (Go spec, "Slice expressions"). *)
Definition slice (l : bytes) (a b : Z) : res bytes :=
  if (0 <=? a) && (a <=? b) && (b <=? blen l)
  then ROk (take (Z.to_nat (b - a)) (drop (Z.to_nat a) l))
  else RPanic.

(** Go's [l[i]] on any slice: panics unless 0 <= i < len(l). *)
Definition gindex {A} (l : list A) (i : Z) : res A :=
  if (i <? 0) then RPanic else
  match l !! Z.to_nat i with Some x => ROk x | None => RPanic end.

(** Go's [copy(dst, src)] with dst a fresh slice: the first min(len dst, len src)
    bytes of dst are replaced. *)
Definition gocopy (dst src : bytes) : bytes :=
  take (length dst) src ++ drop (length src) dst.

Lemma gocopy_length dst src : length (gocopy dst src) = length dst.
Proof. unfold gocopy. rewrite app_length, take_length, drop_length. lia. Qed.

Lemma slice_ok l a b : 0 <= a <= b -> b <= blen l ->
  slice l a b = ROk (take (Z.to_nat (b - a)) (drop (Z.to_nat a) l)).
Proof.
  intros. unfold slice.
  destruct (0 <=? a) eqn:?, (a <=? b) eqn:?, (b <=? blen l) eqn:?; simpl; auto; lia.
Qed.
