(** C91, C92: calls into and out of a wasm instance, on the side of Go. *)
From Verif Require Import Base WasmerModel WasmerSpec WasmerProofs ExWasmer.
From stdpp Require Import gmap.
From Coq Require Import Lia.
Local Open Scope Z_scope.

(** C91: the function is called exactly if there are as many arguments as it
    takes, each of a type it takes; then every argument that fits arrives; and
    there is an error if it was not called or failed.  Missing: arguments that
    do not fit (C91_truncated_refuted) and those refused although they do
    (C91_unsigned_refuted). *)
Theorem C91_call_partial :
  forall sig arity func args called r, wrapper sig arity func args = (called, r) ->
  ((exists inputs, called = Some inputs) <-> length args = length sig /\ Forall2 takes sig args) /\
  (forall inputs, called = Some inputs ->
     Forall2 (fun at_ c => arrives (fst at_) (snd at_) c) (combine args sig) inputs /\ length inputs = length sig /\
     (func inputs = None -> r = WErr)) /\
  (called = None -> r = WErr).
Proof. exact called_exact. Qed.
Print Assumptions C91_call_partial.

Example C91_call_partial_ex :
  wrapper [cWasmI32; cWasmI64] 1 second some_args =
    (Some [mkCValue cWasmI32 200; mkCValue cWasmI64 (2 ^ 64 - 5)], WOk (mkWValue (2 ^ 64 - 5) TypeI64)) /\
  fits 32 200 /\ fits 64 (-5) /\
  wrapper [cWasmI32] 1 second some_args = (None, WErr) /\ wrapper [cWasmI32; cWasmF64] 1 second some_args = (None, WErr).
Proof. split; [vm_compute; reflexivity|]. unfold fits. split; [lia|]. split; [lia|]. split; vm_compute; reflexivity. Qed.

(** C91: the result is what the function gave back, read with either method; a
    function without result gives none; floating point numbers are errors. *)
Theorem C91_result :
  forall sig arity func args inputs r outs,
  wrapper sig arity func args = (Some inputs, r) -> func inputs = Some outs -> length outs = arity ->
  (outs = [] -> exists v, r = WOk v /\ wv_type v = TypeVoid) /\
  (forall c, outs = [c] -> cv_tag c = cWasmI32 -> exists v, r = WOk v /\ wv_type v = TypeI32 /\
     ToI32 v = signed 32 (cv_bits c) /\ ToI64 v = signed 32 (cv_bits c)) /\
  (forall c, outs = [c] -> cv_tag c = cWasmI64 -> exists v, r = WOk v /\ wv_type v = TypeI64 /\
     ToI64 v = signed 64 (cv_bits c)) /\
  (forall c, outs = [c] -> cv_tag c = cWasmF32 \/ cv_tag c = cWasmF64 -> r = WErr).
Proof. exact result_exact. Qed.
Print Assumptions C91_result.

Example C91_result_ex :
  exists inputs r, wrapper [cWasmI32; cWasmI32] 1 second [GNum Gint8 1; GNum Gint32 (-7)] = (Some inputs, r) /\
    exists c, second inputs = Some [c] /\ cv_tag c = cWasmI32 /\ signed 32 (cv_bits c) = -7.
Proof. eexists _, _. split; [reflexivity|]. eexists. split; [reflexivity|]. split; vm_compute; reflexivity. Qed.

(** C91: an integer that is too large arrives as another one. *)
Theorem C91_truncated_refuted :
  forall func, exists n m, 0 <= n < 2 ^ 63 /\ 0 <= m < 2 ^ 64 /\
  fst (wrapper [cWasmI32] 0 func [GNum Gint n]) = Some [mkCValue cWasmI32 1] /\ n <> 1 /\
  (exists c, fst (wrapper [cWasmI64] 0 func [GNum Guint m]) = Some [c] /\ signed 64 (cv_bits c) = m - 2 ^ 64).
Proof.
  intros func. exists (2 ^ 32 + 1), (2 ^ 63). split; [lia|]. split; [lia|]. split; [|split; [lia|]].
  - unfold wrapper. cbn [validateGivenArguments length Nat.eqb negb].
    change (createWasmInputsFromArguments _ _) with (WOk [mkCValue cWasmI32 1]). cbv beta iota. destruct (func [mkCValue cWasmI32 1]); reflexivity.
  - exists (mkCValue cWasmI64 (2 ^ 63)). split; [|reflexivity].
    unfold wrapper. cbn [validateGivenArguments length Nat.eqb negb].
    change (createWasmInputsFromArguments _ _) with (WOk [mkCValue cWasmI64 (2 ^ 63)]). cbv beta iota. destruct (func [mkCValue cWasmI64 (2 ^ 63)]); reflexivity.
Qed.
Print Assumptions C91_truncated_refuted.

Example C91_truncated_refuted_ex : ~ fits 32 (2 ^ 32 + 1) /\ ~ fits 64 (2 ^ 63).
Proof. unfold fits. lia. Qed.

(** C91: unsigned numbers of the width of the parameter are refused, whatever
    they are; so is an int64 for an i32. *)
Theorem C91_unsigned_refuted :
  forall func arity n,
  wrapper [cWasmI32] arity func [GNum Guint32 n] = (None, WErr) /\
  wrapper [cWasmI64] arity func [GNum Guint64 n] = (None, WErr) /\
  wrapper [cWasmI32] arity func [GNum Gint64 n] = (None, WErr).
Proof. intros func arity n. split; [|split]; reflexivity. Qed.
Print Assumptions C91_unsigned_refuted.

Example C91_unsigned_refuted_ex : fits 32 1 /\ fits 64 1.
Proof. unfold fits. lia. Qed.

(** C91: of several results all but the first are lost. *)
Theorem C91_results_refuted :
  exists func, wrapper [] 2 func [] = (Some [], WOk (I32 1)) /\
    func [] = Some [mkCValue cWasmI32 1; mkCValue cWasmI64 2].
Proof.
  exists (fun _ => Some [mkCValue cWasmI32 1; mkCValue cWasmI64 2]). split; reflexivity.
Qed.
Print Assumptions C91_results_refuted.

Example C91_results_refuted_ex : (1 < length [mkCValue cWasmI32 1; mkCValue cWasmI64 2])%nat.
Proof. cbn. lia. Qed.

(** C92: exactly the functions with a context, integers, and at most one integer
    as result are registered. *)
Theorem C92_accepted :
  forall name impl g i,
  (exists i', Append name impl g i = Some i') <->
  exists ins outs tin tout, g = Func (KPointer :: ins) outs /\ Forall2 typed ins tin /\ Forall2 typed outs tout /\
    (length outs <= 1)%nat.
Proof.
  intros name impl g i. split.
  - intros [i' H]. apply append_exact in H as (ins & outs & tin & tout & H1 & H2 & H3 & H4 & _). eauto 10.
  - intros (ins & outs & tin & tout & H1 & H2 & H3 & H4). eexists. apply append_exact. eauto 10.
Qed.
Print Assumptions C92_accepted.

Example C92_accepted_ex :
  (exists i', Append (str "finish") (str "f") finish NewImports = Some i') /\
  Append (str "finish") (str "f") (Func [KInt32] []) NewImports = None /\
  Append (str "finish") (str "f") (Func [KPointer] [KInt32; KInt32]) NewImports = None.
Proof. split; [eexists; reflexivity|]. split; reflexivity. Qed.

(** C92: a function that is registered is there under its name, in the namespace
    that was set, with its own signature; all others are as before. *)
Theorem C92_registered :
  forall name impl g i i', Append name impl g i = Some i' ->
  is_namespace i' = is_namespace i /\
  (exists im, import_at i' (is_namespace i) name = Some im /\ im_impl im = impl /\ im_namespace im = is_namespace i /\
     exists ins outs, g = Func (KPointer :: ins) outs /\ Forall2 typed ins (im_in im) /\ Forall2 typed outs (im_out im)) /\
  (forall ns name', ns <> is_namespace i \/ name' <> name -> import_at i' ns name' = import_at i ns name').
Proof. exact append_at. Qed.
Print Assumptions C92_registered.

Example C92_registered_ex :
  Append (str "finish") (str "g") finish (Namespace (str "other") one_import) = Some two_imports /\
  import_at two_imports (str "env") (str "finish") = Some (mkImport (str "f") [cWasmI32; cWasmI32] [] (str "env")).
Proof. split; [reflexivity|vm_compute; reflexivity]. Qed.

(** C92: the names are those of the functions registered, and a new function is
    counted once. *)
Theorem C92_names : forall i x, x ∈ Names i <-> exists ns im, import_at i ns x = Some im.
Proof. exact names_spec. Qed.
Print Assumptions C92_names.

Example C92_names_ex : import_at one_import (str "env") (str "finish") <> None.
Proof. vm_compute. discriminate. Qed.

Theorem C92_count :
  Count NewImports = 0%nat /\
  forall name impl g i i', Append name impl g i = Some i' ->
  Count i' = match import_at i (is_namespace i) name with Some _ => Count i | None => S (Count i) end.
Proof. split; [reflexivity|exact count_append]. Qed.
Print Assumptions C92_count.

Example C92_count_ex : Count one_import = 1%nat /\ Count two_imports = 2%nat.
Proof. split; vm_compute; reflexivity. Qed.

(** C92: a second function of the same name takes the place of the first,
    without an error. *)
Theorem C92_twice_refuted :
  forall name impl impl' ins outs i i',
  Append name impl (Func ins outs) i = Some i' ->
  exists i'', Append name impl' (Func ins outs) i' = Some i'' /\ Count i'' = Count i' /\
    exists im, import_at i'' (is_namespace i) name = Some im /\ im_impl im = impl'.
Proof. exact append_twice. Qed.
Print Assumptions C92_twice_refuted.

Example C92_twice_refuted_ex : Append (str "finish") (str "f") finish NewImports = Some one_import.
Proof. reflexivity. Qed.
