(** Proofs about MathModel. *)
From Verif Require Import Base MathModel.
From Coq Require Import ZifyBool.

Ltac wrap_unfold :=
  unfold in_u64, in_i64, in_i32, u64, i64, i32, u64_mod, max_u64, max_i64, min_i64, max_i32, min_i32 in *.

(** Wrap of a sum/difference that exceeds the range by at most one word. *)
Lemma u64_add_cases a b : in_u64 a -> in_u64 b ->
  (a + b <= max_u64 /\ u64 (a + b) = a + b) \/ (a + b > max_u64 /\ u64 (a + b) = a + b - u64_mod).
Proof.
  wrap_unfold. intros Ha Hb.
  destruct (Z_le_gt_dec (a + b) 18446744073709551615) as [L|L].
  - left. split; [lia|]. apply Z.mod_small. lia.
  - right. split; [lia|]. symmetry. apply Z.mod_unique with 1; lia.
Qed.

Lemma wrap_signed_cases z w h : w = 2 * h -> 0 < h -> -w <= z < w ->
  ((-h <= z < h /\ (z + h) mod w - h = z) \/ (z >= h /\ (z + h) mod w - h = z - w)
    \/ (z < -h /\ (z + h) mod w - h = z + w)).
Proof.
  intros E H R.
  destruct (Z_lt_ge_dec z (-h)) as [L|L].
  - right; right. split; [lia|].
    rewrite <- (Z.mod_unique (z + h) w (-1) (z + h + w)); lia.
  - destruct (Z_lt_ge_dec z h) as [L2|L2].
    + left. split; [lia|]. rewrite Z.mod_small; lia.
    + right; left. split; [lia|].
      rewrite <- (Z.mod_unique (z + h) w 1 (z + h - w)); lia.
Qed.

Lemma add_err_exact a b : in_u64 a -> in_u64 b ->
  AddUint64WithErr a b = (u64 (a + b), negb (a + b <=? max_u64)) /\
  (a + b <= max_u64 -> u64 (a + b) = a + b).
Proof.
  intros Ha Hb. unfold AddUint64WithErr.
  destruct (u64_add_cases a b Ha Hb) as [[L E]|[L E]]; rewrite E;
    wrap_unfold.
  - replace (a <=? a + b) with true by lia. replace (b <=? a + b) with true by lia. simpl.
    replace (a + b <=? 18446744073709551615) with true by lia. split; [reflexivity|lia].
  - replace (a <=? a + b - 18446744073709551616) with false by lia. simpl.
    replace (a + b <=? 18446744073709551615) with false by lia. split; [reflexivity|lia].
Qed.

Lemma add_u64_sat a b : in_u64 a -> in_u64 b -> AddUint64 a b = Z.min (a + b) max_u64.
Proof.
  intros Ha Hb. unfold AddUint64. destruct (add_err_exact a b Ha Hb) as [E1 E2]. rewrite E1.
  destruct (a + b <=? max_u64) eqn:L; simpl.
  - rewrite E2 by lia. lia.
  - lia.
Qed.

Lemma sub_u64_sat a b : in_u64 a -> in_u64 b -> SubUint64 a b = Z.max (a - b) 0.
Proof.
  intros Ha Hb. unfold SubUint64. destruct (a <? b) eqn:L; [lia|].
  rewrite u64_id; [lia|]. unfold in_u64 in *. lia.
Qed.

Lemma mul_err_exact a b : in_u64 a -> in_u64 b ->
  MulUint64WithErr a b = if a * b <=? max_u64 then (a * b, false) else (0, true).
Proof.
  intros Ha Hb. unfold MulUint64WithErr.
  destruct (a =? 0) eqn:A0.
  { apply Z.eqb_eq in A0. subst a. simpl. reflexivity. }
  destruct (b =? 0) eqn:B0.
  { apply Z.eqb_eq in B0. subst b. rewrite Z.mul_0_r. reflexivity. }
  cbn [orb].
  destruct (a * b <=? max_u64) eqn:L.
  - rewrite u64_id by (unfold in_u64 in *; nia).
    rewrite Z.div_mul by lia. rewrite Z.eqb_refl. reflexivity.
  - replace (a =? u64 (a * b) / b) with false; [reflexivity|].
    symmetry. apply Z.eqb_neq. intros E.
    assert (Hlt : u64 (a * b) < a * b).
    { pose proof (u64_range (a * b)). unfold in_u64 in *. lia. }
    assert (u64 (a * b) / b < a); [|lia].
    apply Z.div_lt_upper_bound; [unfold in_u64 in *; lia|]. lia.
Qed.

Lemma mul_u64_sat a b : in_u64 a -> in_u64 b -> MulUint64 a b = Z.min (a * b) max_u64.
Proof.
  intros Ha Hb. unfold MulUint64. rewrite mul_err_exact by assumption.
  destruct (a * b <=? max_u64) eqn:L; lia.
Qed.

Lemma add_i64_exact a b : in_i64 a -> in_i64 b ->
  AddInt64 a b = if bool_decide (in_i64 (a + b)) then a + b else max_i64.
Proof.
  intros Ha Hb. unfold AddInt64.
  assert (C := wrap_signed_cases (a + b) u64_mod 9223372036854775808 eq_refl ltac:(lia)
    ltac:(wrap_unfold; lia)).
  unfold i64. case_bool_decide as D; wrap_unfold.
  - destruct C as [[? E]|[[? ?]|[? ?]]]; try lia. rewrite E.
    replace (Bool.eqb (a <? a + b) (0 <? b)) with true by lia. reflexivity.
  - destruct C as [[? E]|[[? E]|[? E]]]; [lia| |]; rewrite E.
    + replace (Bool.eqb (a <? a + b - 18446744073709551616) (0 <? b)) with false by lia. reflexivity.
    + replace (Bool.eqb (a <? a + b + 18446744073709551616) (0 <? b)) with false by lia. reflexivity.
Qed.

Lemma add_i32_err_exact a b : in_i32 a -> in_i32 b ->
  AddInt32WithError a b = if bool_decide (in_i32 (a + b)) then (a + b, false) else (0, true).
Proof.
  intros Ha Hb. unfold AddInt32WithError.
  assert (C := wrap_signed_cases (a + b) 4294967296 2147483648 eq_refl ltac:(lia)
    ltac:(wrap_unfold; lia)).
  unfold i32. case_bool_decide as D; wrap_unfold.
  - destruct C as [[? E]|[[? ?]|[? ?]]]; try lia. rewrite E.
    replace (Bool.eqb (a <? a + b) (0 <? b)) with true by lia. reflexivity.
  - destruct C as [[? E]|[[? E]|[? E]]]; [lia| |]; rewrite E.
    + replace (Bool.eqb (a <? a + b - 4294967296) (0 <? b)) with false by lia. reflexivity.
    + replace (Bool.eqb (a <? a + b + 4294967296) (0 <? b)) with false by lia. reflexivity.
Qed.

Lemma add_i32_exact a b : in_i32 a -> in_i32 b ->
  AddInt32 a b = if bool_decide (in_i32 (a + b)) then a + b else max_i32.
Proof.
  intros Ha Hb. unfold AddInt32. rewrite add_i32_err_exact by assumption.
  case_bool_decide; reflexivity.
Qed.

Lemma sub_int_exact a b : in_i64 a -> in_i64 b ->
  SubInt a b = if bool_decide (in_i64 (a - b)) then a - b else min_i64.
Proof.
  intros Ha Hb. unfold SubInt.
  assert (C := wrap_signed_cases (a - b) u64_mod 9223372036854775808 eq_refl ltac:(lia)
    ltac:(wrap_unfold; lia)).
  unfold i64. case_bool_decide as D; wrap_unfold.
  - destruct C as [[? E]|[[? ?]|[? ?]]]; try lia. rewrite E.
    replace (Bool.eqb (a - b <? a) (0 <? b)) with true by lia. reflexivity.
  - destruct C as [[? E]|[[? E]|[? E]]]; [lia| |]; rewrite E.
    + replace (Bool.eqb (a - b - 18446744073709551616 <? a) (0 <? b)) with false by lia. reflexivity.
    + replace (Bool.eqb (a - b + 18446744073709551616 <? a) (0 <? b)) with false by lia. reflexivity.
Qed.

Lemma add_u64_mono a a' b b' : in_u64 a -> in_u64 b -> in_u64 a' -> in_u64 b' ->
  a <= a' -> b <= b' -> AddUint64 a b <= AddUint64 a' b'.
Proof. intros. rewrite !add_u64_sat by assumption. lia. Qed.
Lemma mul_u64_mono a a' b b' : in_u64 a -> in_u64 b -> in_u64 a' -> in_u64 b' ->
  a <= a' -> b <= b' -> MulUint64 a b <= MulUint64 a' b'.
Proof. intros. rewrite !mul_u64_sat by assumption. unfold in_u64 in *. nia. Qed.
Lemma sub_u64_mono a a' b b' : in_u64 a -> in_u64 b -> in_u64 a' -> in_u64 b' ->
  a <= a' -> b' <= b -> SubUint64 a b <= SubUint64 a' b'.
Proof. intros. rewrite !sub_u64_sat by assumption. lia. Qed.

Lemma add_u64_range a b : in_u64 a -> in_u64 b -> in_u64 (AddUint64 a b).
Proof. intros. rewrite add_u64_sat by assumption. wrap_unfold. lia. Qed.
Lemma sub_u64_range a b : in_u64 a -> in_u64 b -> in_u64 (SubUint64 a b).
Proof. intros. rewrite sub_u64_sat by assumption. wrap_unfold. lia. Qed.
Lemma mul_u64_range a b : in_u64 a -> in_u64 b -> in_u64 (MulUint64 a b).
Proof. intros. rewrite mul_u64_sat by assumption. wrap_unfold. nia. Qed.

(** Statements used by MathTheorems. *)
Lemma c01_unsigned : forall a b, in_u64 a -> in_u64 b ->
    AddUint64 a b = sat 0 max_u64 (a + b) /\
    SubUint64 a b = sat 0 max_u64 (a - b) /\
    MulUint64 a b = sat 0 max_u64 (a * b).
Proof.
  intros a b Ha Hb. rewrite add_u64_sat, sub_u64_sat, mul_u64_sat by assumption.
  unfold sat. wrap_unfold. repeat split; nia.
Qed.

Lemma c01_signed : forall a b,
    (in_i64 a -> in_i64 b -> in_i64 (a + b) -> AddInt64 a b = a + b) /\
    (in_i64 a -> in_i64 b -> in_i64 (a - b) -> SubInt a b = a - b) /\
    (in_i32 a -> in_i32 b -> in_i32 (a + b) -> AddInt32 a b = a + b).
Proof.
  intros a b. split; [|split]; intros Ha Hb H.
  - rewrite add_i64_exact by assumption. case_bool_decide; tauto.
  - rewrite sub_int_exact by assumption. case_bool_decide; tauto.
  - rewrite add_i32_exact by assumption. case_bool_decide; tauto.
Qed.

Lemma c01_signed_overflow : forall a b,
    (in_i64 a -> in_i64 b -> ~ in_i64 (a + b) -> AddInt64 a b = max_i64) /\
    (in_i64 a -> in_i64 b -> ~ in_i64 (a - b) -> SubInt a b = min_i64) /\
    (in_i32 a -> in_i32 b -> ~ in_i32 (a + b) -> AddInt32 a b = max_i32).
Proof.
  intros a b. split; [|split]; intros Ha Hb H.
  - rewrite add_i64_exact by assumption. case_bool_decide; tauto.
  - rewrite sub_int_exact by assumption. case_bool_decide; tauto.
  - rewrite add_i32_exact by assumption. case_bool_decide; tauto.
Qed.

Lemma c01_signed_clamp_fails : exists a b, in_i64 a /\ in_i64 b /\ AddInt64 a b <> sat min_i64 max_i64 (a + b).
Proof. exists min_i64, (-1). split; [|split]; wrap_unfold; [lia|lia|vm_compute; discriminate]. Qed.

Lemma c01_mono : forall a b a' b', in_u64 a -> in_u64 b -> in_u64 a' -> in_u64 b' ->
    a <= a' -> b <= b' ->
    AddUint64 a b <= AddUint64 a' b' /\ MulUint64 a b <= MulUint64 a' b' /\
    SubUint64 a b' <= SubUint64 a' b.
Proof.
  intros. split; [|split].
  - apply add_u64_mono; assumption.
  - apply mul_u64_mono; assumption.
  - apply sub_u64_mono; assumption.
Qed.

Lemma c02_exact : forall a b, in_u64 a -> in_u64 b ->
    (snd (AddUint64WithErr a b) = false <-> a + b <= max_u64) /\
    (snd (AddUint64WithErr a b) = false -> fst (AddUint64WithErr a b) = a + b) /\
    (snd (MulUint64WithErr a b) = false <-> a * b <= max_u64) /\
    (snd (MulUint64WithErr a b) = false -> fst (MulUint64WithErr a b) = a * b).
Proof.
  intros a b Ha Hb. destruct (add_err_exact a b Ha Hb) as [E1 E2]. rewrite E1.
  rewrite mul_err_exact by assumption. simpl.
  destruct (a + b <=? max_u64) eqn:L1; destruct (a * b <=? max_u64) eqn:L2; simpl; split_and!;
    intros; try lia; try (split; intros; try lia; discriminate); try discriminate; auto with lia.
Qed.
