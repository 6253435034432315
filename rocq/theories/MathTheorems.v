(** Properties C01 and C02: gas arithmetic. *)
From Verif Require Import Base MathModel MathProofs.

(** C01. [sat lo hi z] is z clamped into [lo,hi]. Unsigned gas arithmetic is the
    exact result clamped into the uint64 range. *)
Theorem C01_unsigned_saturates : forall a b, in_u64 a -> in_u64 b ->
    AddUint64 a b = sat 0 max_u64 (a + b) /\
    SubUint64 a b = sat 0 max_u64 (a - b) /\
    MulUint64 a b = sat 0 max_u64 (a * b).
Proof. exact c01_unsigned. Qed.
Print Assumptions C01_unsigned_saturates.

Example C01_unsigned_saturates_ex :
  AddUint64 18446744073709551610 10 = max_u64 /\ SubUint64 3 5 = 0 /\
  MulUint64 4294967296 4294967297 = max_u64 /\ MulUint64 4294967295 4294967297 = max_u64.
Proof. vm_compute. repeat split. Qed.

(** C01: signed results are exact whenever representable. *)
Theorem C01_signed_exact : forall a b,
    (in_i64 a -> in_i64 b -> in_i64 (a + b) -> AddInt64 a b = a + b) /\
    (in_i64 a -> in_i64 b -> in_i64 (a - b) -> SubInt a b = a - b) /\
    (in_i32 a -> in_i32 b -> in_i32 (a + b) -> AddInt32 a b = a + b).
Proof. exact c01_signed. Qed.
Print Assumptions C01_signed_exact.

(** C01: what happens on signed overflow, in either direction. *)
Theorem C01_signed_overflow_value : forall a b,
    (in_i64 a -> in_i64 b -> ~ in_i64 (a + b) -> AddInt64 a b = max_i64) /\
    (in_i64 a -> in_i64 b -> ~ in_i64 (a - b) -> SubInt a b = min_i64) /\
    (in_i32 a -> in_i32 b -> ~ in_i32 (a + b) -> AddInt32 a b = max_i32).
Proof. exact c01_signed_overflow. Qed.
Print Assumptions C01_signed_overflow_value.

Example C01_signed_overflow_value_ex : AddInt32 2147483600 100 = 2147483647 /\ AddInt32 (-2147483600) (-100) = 2147483647
  /\ AddInt32 (-5) 3 = -2.
Proof. vm_compute. repeat split. Qed.

(** Finding: unlike the unsigned functions, signed addition is not a clamp:
    a negative overflow is answered by the largest positive number. *)
Theorem C01_signed_clamp_refuted :
  exists a b, in_i64 a /\ in_i64 b /\ AddInt64 a b <> sat min_i64 max_i64 (a + b).
Proof. exact c01_signed_clamp_fails. Qed.
Print Assumptions C01_signed_clamp_refuted.

(** C01: monotonicity in every argument. *)
Theorem C01_monotone : forall a b a' b', in_u64 a -> in_u64 b -> in_u64 a' -> in_u64 b' ->
    a <= a' -> b <= b' ->
    AddUint64 a b <= AddUint64 a' b' /\ MulUint64 a b <= MulUint64 a' b' /\
    SubUint64 a b' <= SubUint64 a' b.
Proof. exact c01_mono. Qed.
Print Assumptions C01_monotone.

(** C02: an error is reported exactly on overflow, and otherwise the result is exact. *)
Theorem C02_overflow_reported_exactly : forall a b, in_u64 a -> in_u64 b ->
    (snd (AddUint64WithErr a b) = false <-> a + b <= max_u64) /\
    (snd (AddUint64WithErr a b) = false -> fst (AddUint64WithErr a b) = a + b) /\
    (snd (MulUint64WithErr a b) = false <-> a * b <= max_u64) /\
    (snd (MulUint64WithErr a b) = false -> fst (MulUint64WithErr a b) = a * b).
Proof. exact c02_exact. Qed.
Print Assumptions C02_overflow_reported_exactly.

Example C02_ex : MulUint64WithErr 4294967296 4294967296 = (0, true) /\
  MulUint64WithErr 4294967296 4294967295 = (18446744069414584320, false) /\
  snd (AddUint64WithErr 18446744073709551615 1) = true.
Proof. vm_compute. repeat split. Qed.
