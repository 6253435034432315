(** Model of math/overflow.go, function by function. Operands are assumed to be
    in the range of the Go type; the primitive Go operators [+], [-], [*] wrap.
    Logging (log.Error) is not modelled. *)
From Verif Require Import Base.

(** math/overflow.go:26-33 AddUint64WithErr: the (wrapped) sum and whether an
    error is returned. *)
Definition AddUint64WithErr (a b : Z) : Z * bool :=
  let s := u64 (a + b) in
  if (a <=? s) && (b <=? s) then (s, false) else (s, true).

(** math/overflow.go:12-20 AddUint64. *)
Definition AddUint64 (a b : Z) : Z :=
  match AddUint64WithErr a b with
  | (_, true) => max_u64
  | (res, false) => res
  end.

(** math/overflow.go:36-44 AddInt64. *)
Definition AddInt64 (a b : Z) : Z :=
  let res := i64 (a + b) in
  if Bool.eqb (a <? res) (0 <? b) then res else max_i64.

(** math/overflow.go:47-53 SubUint64. *)
Definition SubUint64 (a b : Z) : Z := if a <? b then 0 else u64 (a - b).

(** math/overflow.go:67-74 MulUint64WithErr. *)
Definition MulUint64WithErr (a b : Z) : Z * bool :=
  let res := u64 (a * b) in
  if (a =? 0) || (b =? 0) || (a =? res / b) then (res, false) else (0, true).

(** math/overflow.go:56-64 MulUint64. *)
Definition MulUint64 (a b : Z) : Z :=
  match MulUint64WithErr a b with
  | (_, true) => max_u64
  | (res, false) => res
  end.

(** math/overflow.go:88-95 AddInt32WithError. *)
Definition AddInt32WithError (a b : Z) : Z * bool :=
  let res := i32 (a + b) in
  if Bool.eqb (a <? res) (0 <? b) then (res, false) else (0, true).

(** math/overflow.go:77-85 AddInt32. *)
Definition AddInt32 (a b : Z) : Z :=
  match AddInt32WithError a b with
  | (_, true) => max_i32
  | (res, false) => res
  end.

(** math/overflow.go:98-106 SubInt (int is 64 bits wide). *)
Definition SubInt (a b : Z) : Z :=
  let res := i64 (a - b) in
  if Bool.eqb (res <? a) (0 <? b) then res else min_i64.
