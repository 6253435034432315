(** C87: code runs on an instance of its own, warm or not. *)
From Verif Require Import Base WarmModel WarmSpec WarmProofs WarmLiveProofs WarmLeakProofs ExWarm.
From stdpp Require Import list.
Local Open Scope Z_scope.

(** ** C87: whatever transactions a node serves, all code sees what it would see
    if it were started on a new instance of its own, of the right code, with
    nothing used and the memory new, and if nobody else touched that instance
    until it has ended ([alone]); afterwards no instance is left.  True if no
    instances are kept warm. *)
Theorem C87_cold : forall `{E : warm_env}, we_warm = false -> forall ts,
  fst (warm_transactions ts no_instances) = map alone_tx ts /\
  unfreed (snd (warm_transactions ts no_instances)) = [].
Proof. exact @cold. Qed.
Print Assumptions C87_cold.

(** twelve levels, of which the last are refused, and refused deployments *)
Example C87_cold_ex :
  let E := some_env false in
  let l := alone_tx (to_call (str "a") (str "code") 1000 (tower 12)) in
  we_warm = false /\ length l = 41%nat /\
  last l = Some (Found (mkWInst (str "code") 11 1000 0 [Byte.x07] false)) /\
  List.filter (fun s => match s with Refused => true | _ => false end) l = replicate 11 Refused.
Proof.
  cbv zeta. split_and!; [reflexivity|vm_compute; reflexivity|vm_compute; reflexivity|vm_compute; reflexivity].
Qed.

(** With a warm instance: if code is started at most once for each address.
    What is missing: addresses that come again, see the refutations. *)
Theorem C87_distinct_partial : forall `{E : warm_env} ts, NoDup (concat (map invoked_tx ts)) ->
  fst (warm_transactions ts no_instances) = map alone_tx ts.
Proof. exact @distinct. Qed.
Print Assumptions C87_distinct_partial.

Example C87_distinct_ex :
  let E := some_env true in
  let ts := [to_deploy (str "a") (str "A") 10 (Invoke (str "b") (str "B") 5 false None Return (Compute 3 0 [] Return));
             to_call (str "c") (str "C") 10 Return] in
  NoDup (concat (map invoked_tx ts)) /\
  fst (warm_transactions ts no_instances) =
    [[Started (new_inst (str "A") 10); Started (new_inst (str "B") 5); Found (new_inst (str "A") 10)];
     [Started (new_inst (str "C") 10)]].
Proof. cbv zeta. split; [apply (bool_decide_unpack _); vm_compute; exact I|vm_compute; reflexivity]. Qed.

(** If there is no compiled code at hand, then nobody is given an instance that
    was freed, warm or not.  What is missing: with compiled code, see below. *)
Theorem C87_uncached_partial : forall `{E : warm_env} ts, List.Forall uncached_tx ts ->
  List.Forall (List.Forall intact) (fst (warm_transactions ts no_instances)).
Proof. exact @uncached_intact. Qed.
Print Assumptions C87_uncached_partial.

(** the same round trip, without the compiled code *)
Example C87_uncached_ex :
  let E := some_env true in
  let t := to_call (str "alice") (str "A") 100
    (Invoke (str "bob") (str "B") 100 false None
      (Invoke (str "alice") (str "A") 50 false None
         (Invoke (str "carol") (str "C") 20 false None Return Return)
         Return)
      (Compute 7 0 [Byte.x01] Return)) in
  uncached_tx t /\
  last (fst (warm_transaction t no_instances)) = Some (Found (mkWInst (str "A") 0 100 0 [Byte.x00; Byte.x00] false)).
Proof. cbv zeta. split; [repeat split|vm_compute; reflexivity]. Qed.

(** The claim is false with a warm instance and compiled code at hand: when the
    contract is called back and the warm instance changes meanwhile, its
    instance is freed under its feet. *)
Theorem C87_freed_refuted : exists (E : warm_env) t w,
  last (fst (warm_transaction t no_instances)) = Some (Found w) /\ wi_freed w = true.
Proof.
  exists (some_env true), (to_call (str "alice") (str "A") 100 round_trip). eexists.
  split; vm_compute; reflexivity.
Qed.
Print Assumptions C87_freed_refuted.

(** The second transaction with an address, even one that deploys other code
    ([new2], [c2]), starts the code of the first, on the memory this has left;
    that [c2] need not compile or be valid. *)
Theorem C87_second_refuted : forall `{E : warm_env}, we_warm = true -> 0 < we_max ->
  forall a c1 c2 g1 g2 new1 new2 cached points brk mem,
  we_compiles c1 = true -> (new1 = true -> we_valid c1 = true) ->
  fst (warm_transactions
    [mkWarmTx a c1 g1 new1 None (Compute points brk mem Return) false;
     mkWarmTx a c2 g2 new2 cached Return false] no_instances) =
  [[Started (mkWInst c1 0 g1 0 (we_mem c1) false); Found (mkWInst c1 0 g1 0 (we_mem c1) false)];
   [Started (mkWInst c1 0 g2 0 mem false)]].
Proof. exact @second. Qed.
Print Assumptions C87_second_refuted.

(** deployed as "A", upgraded to code that is not valid, without an error *)
Example C87_second_ex :
  let E := some_env true in
  let ts := [to_deploy (str "a") (str "A") 10 (Compute 1 0 [Byte.x09] Return); to_deploy (str "a") [Byte.xff] 10 Return] in
  own_instance 0 [Byte.xff] 10 true None = None /\
  fst (warm_transactions ts no_instances) <> map alone_tx ts /\
  nth 1 (fst (warm_transactions ts no_instances)) [] = [Started (mkWInst (str "A") 0 10 0 [Byte.x09] false)].
Proof. cbv zeta. split_and!; [vm_compute; reflexivity|vm_compute; discriminate|vm_compute; reflexivity]. Qed.

(** A contract that is called back finds the gas counter, the limit and the
    memory of the inner call when it goes on: what it had used is forgotten. *)
Theorem C87_called_back_refuted : forall `{E : warm_env}, we_warm = true -> 0 < we_max ->
  forall a c gas inner points brk mem ipoints ibrk imem, 1 < we_max -> we_compiles c = true ->
  fst (warm_transaction
    (mkWarmTx a c gas false None
      (Compute points brk mem (Invoke a c inner false None (Compute ipoints ibrk imem Return) (Compute 0 0 [] Return))) false) no_instances) =
  [Started (mkWInst c 0 gas 0 (we_mem c) false);
   Found (mkWInst c 0 gas 0 (we_mem c) false);
   Started (mkWInst c 0 inner 0 mem false);
   Found (mkWInst c 0 inner 0 mem false);
   Found (mkWInst c ipoints inner ibrk imem false)].
Proof. exact @called_back. Qed.
Print Assumptions C87_called_back_refuted.

(** 90 of 100 used, then one more in a call back: 1 used *)
Example C87_called_back_ex :
  let E := some_env true in
  last (fst (warm_transaction (to_call (str "a") (str "A") 100
    (Compute 90 0 [] (Invoke (str "a") (str "A") 5 false None (Compute 1 0 [] Return) (Compute 0 0 [] Return)))) no_instances)) =
  Some (Found (mkWInst (str "A") 1 5 0 [] false)).
Proof. vm_compute. reflexivity. Qed.

(** Instances that were warm are never freed: two contracts called in turn leave
    as many instances as there were calls. *)
Theorem C87_left_refuted : forall `{E : warm_env}, we_warm = true -> 0 < we_max ->
  forall a b code n, we_compiles code = true -> a <> b ->
  length (unfreed (snd (warm_transactions (in_turn a b code n) no_instances))) = (2 * n)%nat.
Proof. exact @leak. Qed.
Print Assumptions C87_left_refuted.

Example C87_left_ex :
  let E := some_env true in
  we_warm = true /\ 0 < we_max /\ we_compiles (str "A") = true /\
  length (unfreed (snd (warm_transactions (in_turn (str "a") (str "b") (str "A") 7) no_instances))) = 14%nat.
Proof. cbv zeta. split_and!; vm_compute; reflexivity. Qed.
