(** Proofs about the big-integer operations. *)
From Verif Require Import VmModel BigSpec WpProofs.
From Coq Require Import ZifyBool ZifyNat ZifyN.

(** * States reached by big-integer operations *)
Definition bst (i : nat) (x : inst) (m : gmap Z Z) (h : host) : host := with_inst i x (set_h_big m h).

Lemma bst_running h i x x' m : running_as h i x -> running_as (bst i x' m h) i x'.
Proof. intros [H1 H2]. split; [exact H1|]. unfold bst, with_inst. cbn. apply lookup_insert. Qed.

Lemma bst_start h i x : running_as h i x -> h = bst i x (h_big h) h.
Proof.
  intros H. unfold bst. replace (set_h_big (h_big h) h) with h by (destruct h; reflexivity).
  symmetry. apply with_inst_same, H.
Qed.

Lemma bst_with_inst i x x' m h : with_inst i x' (bst i x m h) = bst i x' m h.
Proof. apply with_inst_with_inst. Qed.

Definition touch (y : Z) (m : gmap Z Z) : gmap Z Z := fst (big_get m y).

Lemma bval_touch m y z : bval (touch y m) z = bval m z.
Proof.
  unfold touch, big_get, bval. destruct (m !! y) eqn:Hy; [reflexivity|]. cbn.
  destruct (decide (y = z)) as [->|Hne].
  - rewrite lookup_insert, Hy. reflexivity.
  - rewrite lookup_insert_ne by exact Hne. reflexivity.
Qed.

Lemma bval_insert m y v z : bval (<[y := v]> m) z = if z =? y then v else bval m z.
Proof.
  unfold bval. destruct (z =? y) eqn:Hz.
  - apply Z.eqb_eq in Hz. subst. rewrite lookup_insert. reflexivity.
  - apply Z.eqb_neq in Hz. rewrite lookup_insert_ne by congruence. reflexivity.
Qed.

Section big.
Context `{E : env} (ed : edf) (es : call_input -> M unit).
Notation run := (run_cmd ed es).

Lemma run_use_b g k h i x x' m : running_as h i x ->
  run (use g k) (bst i x' m h) = run k (bst i (set_in_points (more_points (in_points x') g) x') m h).
Proof.
  intros H. erewrite run_use by (eapply bst_running, H). rewrite bst_with_inst. reflexivity.
Qed.

Lemma run_use_0 g k h i x : running_as h i x ->
  run (use g k) h = run k (bst i (set_in_points (more_points (in_points x) g) x) (h_big h) h).
Proof.
  intros H. rewrite (run_use ed es g k _ _ _ H). unfold bst.
  replace (set_h_big (h_big h) h) with h by (destruct h; reflexivity). reflexivity.
Qed.

Lemma run_get_b y k h i x x' m : running_as h i x ->
  run (act (QBigGet y) k) (bst i x' m h) = run (k (bval m y)) (bst i x' (touch y m) h).
Proof.
  intros H. erewrite run_act; [reflexivity|]. cbn [interp].
  unfold touch, big_get, bval, big_op, bst, with_inst. destruct h. cbn. destruct (m !! y); reflexivity.
Qed.

Lemma run_set_b y v k h i x x' m : running_as h i x ->
  run (act (QBigSet y v) k) (bst i x' m h) = run (k tt) (bst i x' (<[y := v]> m) h).
Proof.
  intros H. erewrite run_act; [|reflexivity]. unfold bst. destruct h. reflexivity.
Qed.

Lemma run_extra_b vs k h i x x' m : running_as h i x ->
  exists p, run (extra_gas vs k) (bst i x' m h) = run k (bst i (set_in_points p x') m h).
Proof.
  intros H. revert x'. induction vs as [|v vs IH]; intros x'; cbn [extra_gas].
  - exists (in_points x'). destruct x'; reflexivity.
  - destruct (32 <? bitLen v / 8).
    + erewrite run_use_b by exact H. destruct (IH (set_in_points (more_points (in_points x') (MulUint64 (e_cost E DataCopyPerByte) (bitLen v / 8))) x')) as [p Hp].
      exists p. rewrite Hp. destruct x'; reflexivity.
    + apply IH.
Qed.

Lemma run_fault_b e r h i x x' m : running_as h i x ->
  run (fault e r) (bst i x' m h) = (faulted e (bst i x' m h) i x', OOk r).
Proof. intros H. apply run_fault, (bst_running _ _ _ _ _ H). Qed.

(** the outcome of a writing operation *)
Definition wrote (h : host) (i : nat) (x : inst) (d : Z) (r : option Z) (o : host * outc Z) : Prop :=
  match r with
  | Some v => exists p m, o = (bst i (set_in_points p x) m h, OOk 0) /\
      forall z, bval m z = if z =? d then v else bval (h_big h) z
  | None => exists p m e, o = (faulted e (bst i (set_in_points p x) m h) i (set_in_points p x), OOk 0) /\
      forall z, bval m z = bval (h_big h) z
  end.

Lemma op2_wrote c cd f d a b h i x : running_as h i x ->
  exists r, (match f (bval (h_big h) a) (bval (h_big h) b) with
             | ROk v => r = Some v | RErr _ => r = None | RPanic => False end -> 
             wrote h i x d r (run (bigInt_op2 c cd f d a b) h)) /\
            match f (bval (h_big h) a) (bval (h_big h) b) with
             | ROk v => r = Some v | RErr _ => r = None | RPanic => True end.
Proof.
  intros H. destruct (f (bval (h_big h) a) (bval (h_big h) b)) as [v|e|] eqn:Hf.
  - exists (Some v). split; [|reflexivity]. intros _. unfold bigInt_op2, charge, wrote.
    rewrite (run_use_0 _ _ _ _ _ H), !(run_get_b _ _ _ _ _ _ _ H).
    edestruct run_extra_b as [p Hp]; [exact H|]. rewrite Hp.
    rewrite !bval_touch, Hf. cbn [res_or_fault]. rewrite (run_set_b _ _ _ _ _ _ _ _ H).
    eexists p, _. split; [cbn [run_cmd]; unfold ret; destruct x; reflexivity|].
    intros z. rewrite bval_insert, !bval_touch. reflexivity.
  - exists None. split; [|reflexivity]. intros _. unfold bigInt_op2, charge, wrote.
    rewrite (run_use_0 _ _ _ _ _ H), !(run_get_b _ _ _ _ _ _ _ H).
    edestruct run_extra_b as [p Hp]; [exact H|]. rewrite Hp.
    rewrite !bval_touch, Hf. cbn [res_or_fault]. rewrite (run_fault_b _ _ _ _ _ _ _ H).
    eexists p, _, e. split; [destruct x; reflexivity|]. intros z. rewrite !bval_touch. reflexivity.
  - exists None. split; [intros []|exact I].
Qed.

Lemma op1_wrote f d a h i x : running_as h i x ->
  exists r, (match f (bval (h_big h) a) with
             | ROk v => r = Some v | RErr _ => r = None | RPanic => False end -> 
             wrote h i x d r (run (bigInt_op1 f d a) h)) /\
            match f (bval (h_big h) a) with
             | ROk v => r = Some v | RErr _ => r = None | RPanic => True end.
Proof.
  intros H. destruct (f (bval (h_big h) a)) as [v|e|] eqn:Hf.
  - exists (Some v). split; [|reflexivity]. intros _. unfold bigInt_op1, charge, wrote.
    rewrite (run_use_0 _ _ _ _ _ H), !(run_get_b _ _ _ _ _ _ _ H).
    edestruct run_extra_b as [p Hp]; [exact H|]. rewrite Hp.
    rewrite !bval_touch, Hf. cbn [res_or_fault]. rewrite (run_set_b _ _ _ _ _ _ _ _ H).
    eexists p, _. split; [cbn [run_cmd]; unfold ret; destruct x; reflexivity|].
    intros z. rewrite bval_insert, !bval_touch. reflexivity.
  - exists None. split; [|reflexivity]. intros _. unfold bigInt_op1, charge, wrote.
    rewrite (run_use_0 _ _ _ _ _ H), !(run_get_b _ _ _ _ _ _ _ H).
    edestruct run_extra_b as [p Hp]; [exact H|]. rewrite Hp.
    rewrite !bval_touch, Hf. cbn [res_or_fault]. rewrite (run_fault_b _ _ _ _ _ _ _ H).
    eexists p, _, e. split; [destruct x; reflexivity|]. intros z. rewrite !bval_touch. reflexivity.
  - exists None. split; [intros []|exact I].
Qed.

Lemma shift_wrote f d a n h i x : running_as h i x ->
  wrote h i x d (if (bval (h_big h) a <? 0) || (n <? 0) then None else Some (f (bval (h_big h) a) n))
    (run (bigInt_shift f d a n) h).
Proof.
  intros H. unfold bigInt_shift, charge, wrote.
  rewrite (run_use_0 _ _ _ _ _ H), !(run_get_b _ _ _ _ _ _ _ H).
  edestruct run_extra_b as [p Hp]; [exact H|]. rewrite Hp. rewrite !bval_touch.
  destruct ((bval (h_big h) a <? 0) || (n <? 0)) eqn:Hn.
  - rewrite (run_fault_b _ _ _ _ _ _ _ H). eexists p, _, _. split; [destruct x; reflexivity|].
    intros z. rewrite !bval_touch. reflexivity.
  - rewrite (run_set_b _ _ _ _ _ _ _ _ H).
    edestruct run_extra_b as [p' Hp']; [exact H|]. rewrite Hp'.
    eexists p', _. split; [cbn [run_cmd]; unfold ret; destruct x; reflexivity|].
    intros z. rewrite bval_insert, !bval_touch. reflexivity.
Qed.

Lemma op2_case c cd f d a b h i x r : running_as h i x ->
  match f (bval (h_big h) a) (bval (h_big h) b) with
  | ROk v => r = Some v | RErr _ => r = None | RPanic => False end ->
  wrote h i x d r (run (bigInt_op2 c cd f d a b) h).
Proof.
  intros H Hr. destruct (op2_wrote c cd f d a b h i x H) as [r' [H1 H2]].
  assert (r = r') as ->. { destruct (f _ _); [congruence|congruence|contradiction]. }
  apply H1, Hr.
Qed.
Lemma op1_case f d a h i x r : running_as h i x ->
  match f (bval (h_big h) a) with
  | ROk v => r = Some v | RErr _ => r = None | RPanic => False end ->
  wrote h i x d r (run (bigInt_op1 f d a) h).
Proof.
  intros H Hr. destruct (op1_wrote f d a h i x H) as [r' [H1 H2]].
  assert (r = r') as ->. { destruct (f _); [congruence|congruence|contradiction]. }
  apply H1, Hr.
Qed.

Lemma big_write_wrote c d r h i x : running_as h i x ->
  big_write c (bval (h_big h)) = Some (d, r) -> wrote h i x d r (run (api c) h).
Proof.
  intros H Hw. destruct c; cbn [big_write] in Hw; try discriminate; cbn [api].
  all: try (injection Hw as <- <-).
  - (* SetInt64 *) unfold bigIntSetInt64, charge, wrote. rewrite (run_use_0 _ _ _ _ _ H), (run_set_b _ _ _ _ _ _ _ _ H).
    eexists _, _. split; [reflexivity|]. intros z. apply bval_insert.
  - apply op2_case; [exact H|reflexivity].
  - apply op2_case; [exact H|reflexivity].
  - apply op2_case; [exact H|reflexivity].
  - apply op2_case; [exact H|]. unfold div_guard, big_quo. destruct (_ =? 0); reflexivity.
  - apply op2_case; [exact H|]. unfold div_guard, big_rem. destruct (_ =? 0); reflexivity.
  - apply op2_case; [exact H|]. unfold div_guard, big_div. destruct (_ =? 0); reflexivity.
  - apply op2_case; [exact H|]. unfold div_guard, big_mod. destruct (_ =? 0); reflexivity.
  - apply op1_case; [exact H|reflexivity].
  - apply op1_case; [exact H|reflexivity].
  - apply op1_case; [exact H|]. destruct (_ <? 0); reflexivity.
  - apply op2_case; [exact H|]. unfold bit_guard. destruct (_ || _); reflexivity.
  - apply op2_case; [exact H|]. unfold bit_guard. destruct (_ || _); reflexivity.
  - apply op2_case; [exact H|]. unfold bit_guard. destruct (_ || _); reflexivity.
  - pose proof (shift_wrote Z.shiftr (i32 destinationHandle) (i32 op) (i32 bits) h i x H) as Hs.
    destruct ((bval (h_big h) (i32 op) <? 0) || (i32 bits <? 0)) eqn:Hb; [exact Hs|].
    rewrite Z.shiftr_div_pow2 in Hs by lia. exact Hs.
  - pose proof (shift_wrote Z.shiftl (i32 destinationHandle) (i32 op) (i32 bits) h i x H) as Hs.
    destruct ((bval (h_big h) (i32 op) <? 0) || (i32 bits <? 0)) eqn:Hb; [exact Hs|].
    rewrite Z.shiftl_mul_pow2 in Hs by lia. exact Hs.
Qed.

Lemma sgn_cmp a b : match a ?= b with Lt => -1 | Eq => 0 | Gt => 1 end = Z.sgn (a - b).
Proof. destruct (a ?= b) eqn:H; [apply Z.compare_eq in H|rewrite Z.compare_lt_iff in H|rewrite Z.compare_gt_iff in H]; lia. Qed.

Lemma big_read_reads c r h i x : running_as h i x ->
  big_read c (bval (h_big h)) = Some r ->
  exists p m, run (api c) h = (bst i (set_in_points p x) m h, OOk r) /\
    forall z, bval m z = bval (h_big h) z.
Proof.
  intros H Hr. destruct c; cbn [big_read] in Hr; try discriminate; injection Hr as <-; cbn [api].
  - unfold bigIntIsInt64, charge. rewrite (run_use_0 _ _ _ _ _ H), (run_get_b _ _ _ _ _ _ _ H).
    eexists _, _. split; [reflexivity|]. intros z. apply bval_touch.
  - unfold bigIntGetInt64, charge. rewrite (run_use_0 _ _ _ _ _ H), (run_get_b _ _ _ _ _ _ _ H).
    eexists _, _. split; [reflexivity|]. intros z. apply bval_touch.
  - unfold bigIntSign, charge. rewrite (run_use_0 _ _ _ _ _ H), (run_get_b _ _ _ _ _ _ _ H).
    edestruct run_extra_b as [p Hp]; [exact H|]. rewrite Hp.
    eexists p, _. split; [cbn [run_cmd]; unfold ret; destruct x; reflexivity|]. intros z. apply bval_touch.
  - unfold bigIntCmp, charge. rewrite (run_use_0 _ _ _ _ _ H), !(run_get_b _ _ _ _ _ _ _ H).
    edestruct run_extra_b as [p Hp]; [exact H|]. rewrite Hp. rewrite !bval_touch, sgn_cmp.
    eexists p, _. split; [cbn [run_cmd]; unfold ret; destruct x; reflexivity|]. intros z. rewrite !bval_touch. reflexivity.
Qed.
End big.

(** * Fresh handles *)
Lemma i32_i32_add a b : i32 (i32 a + b) = i32 (a + b).
Proof.
  unfold i32. f_equal.
  replace ((a + 2147483648) mod 4294967296 - 2147483648 + b + 2147483648)
    with ((a + 2147483648) mod 4294967296 + b) by lia.
  rewrite Zplus_mod_idemp_l. f_equal. lia.
Qed.
Lemma i32_inj a b : i32 a = i32 b -> exists q, a - b = q * 4294967296.
Proof.
  unfold i32. intros H.
  exists ((a + 2147483648) / 4294967296 - (b + 2147483648) / 4294967296).
  pose proof (Z.div_mod (a + 2147483648) 4294967296 ltac:(lia)).
  pose proof (Z.div_mod (b + 2147483648) 4294967296 ltac:(lia)). lia.
Qed.

Lemma put_handle_spec (m : gmap Z Z) n a :
  exists k, (k <= n)%nat /\ put_handle m n (i32 a) = i32 (a + Z.of_nat k) /\
    (forall j, (j < k)%nat -> is_Some (m !! i32 (a + Z.of_nat j))) /\
    ((k < n)%nat -> m !! i32 (a + Z.of_nat k) = None).
Proof.
  revert a. induction n as [|n IH]; intros a; cbn [put_handle].
  - exists 0%nat. rewrite Z.add_0_r. repeat split; lia.
  - destruct (bool_decide (is_Some (m !! i32 a))) eqn:Hb.
    + apply bool_decide_eq_true in Hb.
      assert (i32 (i32 a + 1) = i32 (a + 1)) as -> by apply i32_i32_add.
      destruct (IH (a + 1)) as (k & Hk & -> & H1 & H2). exists (S k). split; [lia|].
      split; [f_equal; lia|]. split.
      * intros [|j] Hj; [rewrite Z.add_0_r; exact Hb|]. specialize (H1 j ltac:(lia)).
        replace (a + Z.of_nat (S j)) with (a + 1 + Z.of_nat j) by lia. exact H1.
      * intros Hlt. replace (a + Z.of_nat (S k)) with (a + 1 + Z.of_nat k) by lia. apply H2. lia.
    + apply bool_decide_eq_false in Hb. exists 0%nat. rewrite Z.add_0_r.
      split; [lia|]. split; [reflexivity|]. split; [lia|]. intros _. apply eq_None_not_Some, Hb.
Qed.

Lemma put_handle_fresh (m : gmap Z Z) : Z.of_nat (size m) < 4294967296 ->
  m !! put_handle m (size m) (i32 (Z.of_nat (size m))) = None.
Proof.
  intros Hs. set (n := size m) in *.
  destruct (put_handle_spec m n (Z.of_nat n)) as (k & Hk & -> & H1 & H2).
  destruct (decide (k < n)%nat) as [Hlt|Hge]; [apply H2, Hlt|].
  assert (k = n) as -> by lia. destruct (m !! _) as [v|] eqn:Hv; [|reflexivity]. exfalso.
  set (f := fun j : nat => i32 (Z.of_nat n + Z.of_nat j)).
  set (l := f <$> seq 0 (S n)).
  assert (Hnd : NoDup l).
  { apply NoDup_fmap_2_strong; [|apply NoDup_seq].
    intros a b Ha Hb Hab. apply elem_of_seq in Ha, Hb. unfold f in Hab. apply i32_inj in Hab as [q Hq].
    assert (q = 0) by lia. lia. }
  assert (Hsub : list_to_set l ⊆ dom m).
  { intros z Hz. rewrite elem_of_list_to_set in Hz. unfold l in Hz. apply elem_of_list_fmap in Hz as (j & -> & Hj).
    apply elem_of_seq in Hj. apply elem_of_dom. unfold f.
    destruct (decide (j < n)%nat); [apply H1; lia|]. assert (j = n) as -> by lia. exists v. exact Hv. }
  apply subseteq_size in Hsub. rewrite size_list_to_set in Hsub by exact Hnd.
  unfold l in Hsub. rewrite fmap_length, seq_length in Hsub.
  rewrite size_dom in Hsub. unfold n in Hsub. lia.
Qed.

Lemma bigIntNew_fresh `{E : env} ed es z h i x :
  running_as h i x -> Z.of_nat (size (h_big h)) < 4294967296 ->
  exists p d, run_cmd ed es (api (A_bigIntNew z)) h = (bst i (set_in_points p x) (<[d := i64 z]> (h_big h)) h, OOk d) /\
    h_big h !! d = None.
Proof.
  intros H Hs. cbn [api]. unfold bigIntNew, charge. rewrite (run_use_0 _ _ _ _ _ _ _ H).
  erewrite run_act by reflexivity.
  eexists _, _. split; [|apply (put_handle_fresh _ Hs)].
  unfold bst. destruct h. reflexivity.
Qed.

(** * Statements over [vmApi] *)

(** the host differs at most in the big integers and the running instance *)
Definition only_big (h h' : host) : Prop :=
  exists i x m, h_cur h = Some i /\ h' = set_h_insts (<[i := x]> (h_insts h)) (set_h_big m h).

Definition bp_of (h : host) : Z :=
  match h_cur h with Some i => match h_insts h !! i with Some x => in_bp x | None => 0 end | None => 0 end.

Lemma bp_bst h i x m : h_cur h = Some i -> bp_of (bst i x m h) = in_bp x.
Proof. intros H. unfold bp_of, bst, with_inst. cbn. rewrite H, lookup_insert. reflexivity. Qed.

Lemma c07_write `{E : env} fuel c d r h :
  running h -> big_write c (bval (h_big h)) = Some (d, Some r) ->
  exists h', vmApi fuel c h = (h', OOk 0) /\ only_big h h' /\ bp_of h' = bp_of h /\
    forall x, bval (h_big h') x = if x =? d then r else bval (h_big h) x.
Proof.
  intros (i & x & H) Hw.
  destruct (big_write_wrote (vmDest fuel) (vmSame fuel) _ _ _ _ _ _ H Hw) as (p & m & Ho & Hm).
  eexists. split; [exact Ho|]. split; [|split].
  - exists i, (set_in_points p x), m. split; [apply H|reflexivity].
  - rewrite bp_bst by apply H. destruct H as [H1 H2]. unfold bp_of. rewrite H1, H2. reflexivity.
  - intros z. cbn. apply Hm.
Qed.

Lemma c11_fail `{E : env} fuel c d h :
  running h -> big_write c (bval (h_big h)) = Some (d, None) ->
  exists h', vmApi fuel c h = (h', OOk 0) /\ bp_of h' = BreakpointExecutionFailed /\
    o_code (h_out h') = RcExecutionFailed /\
    forall x, bval (h_big h') x = bval (h_big h) x.
Proof.
  intros (i & x & H) Hw.
  destruct (big_write_wrote (vmDest fuel) (vmSame fuel) _ _ _ _ _ _ H Hw) as (p & m & e & Ho & Hm).
  eexists. split; [exact Ho|]. split; [|split].
  - unfold bp_of, faulted, with_inst. cbn. destruct H as [H1 _]. rewrite H1, lookup_insert. reflexivity.
  - reflexivity.
  - intros z. cbn. apply Hm.
Qed.

Lemma c07_read `{E : env} fuel c r h :
  running h -> big_read c (bval (h_big h)) = Some r ->
  exists h', vmApi fuel c h = (h', OOk r) /\ only_big h h' /\
    forall x, bval (h_big h') x = bval (h_big h) x.
Proof.
  intros (i & x & H) Hw.
  destruct (big_read_reads (vmDest fuel) (vmSame fuel) _ _ _ _ _ H Hw) as (p & m & Ho & Hm).
  eexists. split; [exact Ho|]. split.
  - exists i, (set_in_points p x), m. split; [apply H|reflexivity].
  - intros z. cbn. apply Hm.
Qed.

Lemma c07_new `{E : env} fuel z h :
  running h -> Z.of_nat (size (h_big h)) < 4294967296 ->
  exists h' d, vmApi fuel (A_bigIntNew z) h = (h', OOk d) /\ only_big h h' /\
    h_big h !! d = None /\ h_big h' = <[d := i64 z]> (h_big h).
Proof.
  intros (i & x & H) Hs.
  destruct (bigIntNew_fresh (vmDest fuel) (vmSame fuel) z _ _ _ H Hs) as (p & d & Ho & Hd).
  eexists _, d. split; [exact Ho|]. split; [|split; [exact Hd|reflexivity]].
  eexists i, _, _. split; [apply H|reflexivity].
Qed.

(** sequences of API calls, ignoring results *)
Fixpoint api_seq `{E : env} (fuel : nat) (cs : list api_call) : M unit :=
  match cs with
  | [] => ret tt
  | c :: cs => vmApi fuel c ;;; api_seq fuel cs
  end.

Lemma only_big_trans a b c : only_big a b -> only_big b c -> only_big a c.
Proof.
  intros (i & x & m & H1 & ->) (j & y & n & H2 & ->). cbn in H2.
  assert (j = i) as -> by congruence. exists i, y, n. split; [exact H1|].
  change (set_h_insts (<[i:=y]> (<[i:=x]> (h_insts a))) (set_h_big n a) =
          set_h_insts (<[i:=y]> (h_insts a)) (set_h_big n a)).
  rewrite insert_insert. reflexivity.
Qed.

Lemma only_big_refl h : running h -> only_big h h.
Proof.
  intros (i & x & H1 & H2). exists i, x, (h_big h). split; [exact H1|].
  rewrite insert_id by exact H2. destruct h; reflexivity.
Qed.

Lemma only_big_running h h' : only_big h h' -> running h'.
Proof. intros (i & x & m & H & ->). exists i, x. split; [exact H|]. cbn. apply lookup_insert. Qed.

Lemma big_write_ext c v w : (forall x, v x = w x) -> big_write c v = big_write c w.
Proof. intros H. destruct c; cbn; rewrite ?H; reflexivity. Qed.

Lemma c07_sequence `{E : env} fuel cs v h :
  running h -> (forall x, v x = bval (h_big h) x) ->
  forall v', big_run cs v = Some v' ->
  exists h', api_seq fuel cs h = (h', OOk tt) /\ only_big h h' /\ bp_of h' = bp_of h /\
    forall x, bval (h_big h') x = v' x.
Proof.
  revert v h. induction cs as [|c cs IH]; intros v h Hr Hv v' Hb; cbn [big_run] in Hb.
  - injection Hb as <-. exists h. split; [reflexivity|]. split; [apply only_big_refl, Hr|].
    split; [reflexivity|]. intros x. symmetry. apply Hv.
  - destruct (big_write c v) as [[d [r|]]|] eqn:Hw; try discriminate.
    rewrite (big_write_ext _ _ _ Hv) in Hw.
    destruct (c07_write fuel c d r h Hr Hw) as (h1 & Ho & Hb1 & Hp & Hx).
    edestruct IH with (h := h1) as (h2 & Ho2 & Hb2 & Hp2 & Hx2); [apply (only_big_running _ _ Hb1)| |exact Hb|].
    { intros x. cbn. rewrite Hx, Hv. reflexivity. }
    exists h2. split.
    + cbn [api_seq]. rewrite (bind_ok _ _ _ _ _ Ho). exact Ho2.
    + split; [exact (only_big_trans _ _ _ Hb1 Hb2)|]. split; [congruence|exact Hx2].
Qed.

(** * Division *)
Lemma tdiv_law a b : b <> 0 ->
  a = b * Z.quot a b + Z.rem a b /\ Z.abs (Z.rem a b) < Z.abs b /\ 0 <= Z.rem a b * a.
Proof.
  intros Hb. split; [apply Z.quot_rem'|]. split; [apply Z.rem_bound_abs, Hb|].
  apply Z.rem_sign_mul, Hb.
Qed.
Lemma ediv_law a b : b <> 0 ->
  a = b * (Z.sgn b * (a / Z.abs b)) + a mod Z.abs b /\ 0 <= a mod Z.abs b < Z.abs b.
Proof.
  intros Hb. split; [|apply Z.mod_pos_bound; lia].
  replace (b * (Z.sgn b * (a / Z.abs b))) with (Z.abs b * (a / Z.abs b)) by (rewrite <- (Z.sgn_abs b) at 1; ring).
  apply Z.div_mod. lia.
Qed.

Lemma c11_truncated `{E : env} fuel dq dr a b h :
  running h -> let A := bval (h_big h) (i32 a) in let B := bval (h_big h) (i32 b) in
  B <> 0 ->
  exists q r hq hr,
    vmApi fuel (A_bigIntTDiv dq a b) h = (hq, OOk 0) /\ bval (h_big hq) (i32 dq) = q /\
    vmApi fuel (A_bigIntTMod dr a b) h = (hr, OOk 0) /\ bval (h_big hr) (i32 dr) = r /\
    bp_of hq = bp_of h /\ bp_of hr = bp_of h /\
    A = B * q + r /\ Z.abs r < Z.abs B /\ (r = 0 \/ Z.sgn r = Z.sgn A).
Proof.
  intros Hr A B HB. assert (HB' : (B =? 0) = false) by lia.
  edestruct (c07_write fuel (A_bigIntTDiv dq a b)) as (hq & Hq & _ & Pq & Xq); [exact Hr|cbn; fold A B; rewrite HB'; reflexivity|].
  edestruct (c07_write fuel (A_bigIntTMod dr a b)) as (hr & Hm & _ & Pr & Xr); [exact Hr|cbn; fold A B; rewrite HB'; reflexivity|].
  specialize (Xq (i32 dq)). specialize (Xr (i32 dr)). rewrite Z.eqb_refl in Xq, Xr.
  destruct (tdiv_law A B HB) as (L1 & L2 & L3).
  exists (Z.quot A B), (Z.rem A B), hq, hr. repeat split; try assumption.
  nia.
Qed.

Lemma c11_euclidean `{E : env} fuel dq dr a b h :
  running h -> let A := bval (h_big h) (i32 a) in let B := bval (h_big h) (i32 b) in
  B <> 0 ->
  exists q r hq hr,
    vmApi fuel (A_bigIntEDiv dq a b) h = (hq, OOk 0) /\ bval (h_big hq) (i32 dq) = q /\
    vmApi fuel (A_bigIntEMod dr a b) h = (hr, OOk 0) /\ bval (h_big hr) (i32 dr) = r /\
    bp_of hq = bp_of h /\ bp_of hr = bp_of h /\
    A = B * q + r /\ 0 <= r < Z.abs B.
Proof.
  intros Hr A B HB. assert (HB' : (B =? 0) = false) by lia.
  edestruct (c07_write fuel (A_bigIntEDiv dq a b)) as (hq & Hq & _ & Pq & Xq); [exact Hr|cbn; fold A B; rewrite HB'; reflexivity|].
  edestruct (c07_write fuel (A_bigIntEMod dr a b)) as (hr & Hm & _ & Pr & Xr); [exact Hr|cbn; fold A B; rewrite HB'; reflexivity|].
  specialize (Xq (i32 dq)). specialize (Xr (i32 dr)). rewrite Z.eqb_refl in Xq, Xr.
  destruct (ediv_law A B HB) as (L1 & L2).
  exists (Z.sgn B * (A / Z.abs B)), (A mod Z.abs B), hq, hr. repeat split; try assumption; apply L2.
Qed.
