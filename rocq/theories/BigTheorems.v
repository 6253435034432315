(** Big integers: properties C07 and C11. *)
From Verif Require Import VmModel BigSpec WpProofs BigProofs ExEnv.

(** C07, allocation: the handle was not in use, it holds the given value, and
    nothing else of the store changes. *)
Theorem C07_alloc_fresh : forall `{E : env} fuel z h,
  running h -> Z.of_nat (size (h_big h)) < 4294967296 ->
  exists h' d, vmApi fuel (A_bigIntNew z) h = (h', OOk d) /\ only_big h h' /\
    h_big h !! d = None /\ h_big h' = <[d := i64 z]> (h_big h).
Proof. intros. apply c07_new; assumption. Qed.
Print Assumptions C07_alloc_fresh.

(** the contract has invented handle 1, so the second allocation skips it *)
Example C07_ex_alloc :
  let h := set_h_big {[ 0 := 5; 1 := 7 ]} (ex_running [] (mkWorld ∅ ∅)) in
  running h /\
  (vmApi (E := exEnv []) 0 (A_bigIntNew 9) h).2 = OOk 2 /\
  (vmApi (E := exEnv []) 0 (A_bigIntNew 9) (set_h_big {[ 2 := 5; 1 := 7 ]} h)).2 = OOk 3.
Proof. split; [eexists _, _; split; reflexivity|]. split; vm_compute; reflexivity. Qed.

(** C07, writing: the destination handle holds the result computed from the old
    values of the sources (also when they coincide with it), no other handle
    changes, nothing else of the host but the gas used changes. *)
Theorem C07_write_only_destination : forall `{E : env} fuel c d r h,
  running h -> big_write c (bval (h_big h)) = Some (d, Some r) ->
  exists h', vmApi fuel c h = (h', OOk 0) /\ only_big h h' /\ bp_of h' = bp_of h /\
    forall x, bval (h_big h') x = if x =? d then r else bval (h_big h) x.
Proof. intros. eapply c07_write; eassumption. Qed.
Print Assumptions C07_write_only_destination.

(** C07, reading gives what the handle holds, and changes no handle. *)
Theorem C07_read_value : forall `{E : env} fuel c r h,
  running h -> big_read c (bval (h_big h)) = Some r ->
  exists h', vmApi fuel c h = (h', OOk r) /\ only_big h h' /\
    forall x, bval (h_big h') x = bval (h_big h) x.
Proof. intros. eapply c07_read; eassumption. Qed.
Print Assumptions C07_read_value.

(** C07, any sequence of writing operations behaves like assignments to
    variables. *)
Theorem C07_sequences : forall `{E : env} fuel cs h v,
  running h -> big_run cs (bval (h_big h)) = Some v ->
  exists h', api_seq fuel cs h = (h', OOk tt) /\ only_big h h' /\ bp_of h' = bp_of h /\
    forall x, bval (h_big h') x = v x.
Proof. intros * H1 H2. eapply c07_sequence; [exact H1| |exact H2]. reflexivity. Qed.
Print Assumptions C07_sequences.

Example C07_ex_sequence :
  let cs := [A_bigIntSetInt64 1 20; A_bigIntMul 1 1 1; A_bigIntSub (-3) 2 1; A_bigIntTDiv 1 (-3) 1] in
  exists v, big_run cs (bval ∅) = Some v /\ v 1 = -1 /\ v (-3) = -400 /\ v 2 = 0.
Proof. eexists. split; [reflexivity|]. repeat split. Qed.

(** C11, failing operations: divisor 0, negative operands of bitwise
    operations, negative shift counts or shifted values.  The execution is
    failed and every handle keeps its value. *)
Theorem C11_fails_safely : forall `{E : env} fuel c d h,
  running h -> big_write c (bval (h_big h)) = Some (d, None) ->
  exists h', vmApi fuel c h = (h', OOk 0) /\ bp_of h' = BreakpointExecutionFailed /\
    o_code (h_out h') = RcExecutionFailed /\
    forall x, bval (h_big h') x = bval (h_big h) x.
Proof. intros. eapply c11_fail; eassumption. Qed.
Print Assumptions C11_fails_safely.

(** C11, truncated division: after the two operations on a non-zero divisor the
    destinations hold q and r with the stated laws. *)
Theorem C11_truncated_laws : forall `{E : env} fuel dq dr a b h,
  running h -> let A := bval (h_big h) (i32 a) in let B := bval (h_big h) (i32 b) in
  B <> 0 ->
  exists q r hq hr,
    vmApi fuel (A_bigIntTDiv dq a b) h = (hq, OOk 0) /\ bval (h_big hq) (i32 dq) = q /\
    vmApi fuel (A_bigIntTMod dr a b) h = (hr, OOk 0) /\ bval (h_big hr) (i32 dr) = r /\
    bp_of hq = bp_of h /\ bp_of hr = bp_of h /\
    A = B * q + r /\ Z.abs r < Z.abs B /\ (r = 0 \/ Z.sgn r = Z.sgn A).
Proof. intros. apply c11_truncated; assumption. Qed.
Print Assumptions C11_truncated_laws.

(** C11, Euclidean division. *)
Theorem C11_euclidean_laws : forall `{E : env} fuel dq dr a b h,
  running h -> let A := bval (h_big h) (i32 a) in let B := bval (h_big h) (i32 b) in
  B <> 0 ->
  exists q r hq hr,
    vmApi fuel (A_bigIntEDiv dq a b) h = (hq, OOk 0) /\ bval (h_big hq) (i32 dq) = q /\
    vmApi fuel (A_bigIntEMod dr a b) h = (hr, OOk 0) /\ bval (h_big hr) (i32 dr) = r /\
    bp_of hq = bp_of h /\ bp_of hr = bp_of h /\
    A = B * q + r /\ 0 <= r < Z.abs B.
Proof. intros. apply c11_euclidean; assumption. Qed.
Print Assumptions C11_euclidean_laws.

(** -7 divided by -2, into the divisor's own handle; and a division by zero *)
Example C11_ex_aliased :
  let h := set_h_big {[ 0 := -7; 1 := -2; 2 := 0 ]} (ex_running [] (mkWorld ∅ ∅)) in
  let q := (vmApi (E := exEnv []) 0 (A_bigIntEDiv 1 0 1) h).1 in
  let f := (vmApi (E := exEnv []) 0 (A_bigIntEMod 0 0 2) h).1 in
  bval (h_big q) 1 = 4 /\ bval (h_big f) 0 = -7 /\ bp_of f = BreakpointExecutionFailed.
Proof. vm_compute. auto. Qed.
