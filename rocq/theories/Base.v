(** Common vocabulary of the model: machine integers, bytes, byte strings.

    Go's fixed-width integers are represented by [Z] together with explicit
    wrap-around functions; Go byte slices and strings are [list byte] (there is
    no distinction between a nil slice and an empty slice here; where the code
    tests for nil the model uses [option]). *)
From Coq Require Export ZArith Lia Bool List String.
From Coq Require Import Strings.Byte ZifyBool ZifyNat ZifyN.
From stdpp Require Export base tactics option list countable gmap.
Export ListNotations.

Open Scope Z_scope.

(** * Machine integers *)

Definition u64_mod : Z := 18446744073709551616.
Definition max_u64 : Z := 18446744073709551615.
Definition max_i64 : Z := 9223372036854775807.
Definition min_i64 : Z := -9223372036854775808.
Definition max_i32 : Z := 2147483647.
Definition min_i32 : Z := -2147483648.

Definition in_u64 (z : Z) : Prop := 0 <= z <= max_u64.
Definition in_i64 (z : Z) : Prop := min_i64 <= z <= max_i64.
Definition in_i32 (z : Z) : Prop := min_i32 <= z <= max_i32.
Definition in_u32 (z : Z) : Prop := 0 <= z < 4294967296.

(** Go conversions uint64(x), int64(x), uint32(x), int32(x): reduction modulo
    the word size into the target range (Go spec, "Conversions"). *)
Definition u64 (z : Z) : Z := z mod u64_mod.
Definition i64 (z : Z) : Z := (z + 9223372036854775808) mod u64_mod - 9223372036854775808.
Definition u32 (z : Z) : Z := z mod 4294967296.
Definition i32 (z : Z) : Z := (z + 2147483648) mod 4294967296 - 2147483648.

(** Specification vocabulary: clamping into an interval. *)
Definition sat (lo hi z : Z) : Z := Z.max lo (Z.min hi z).

(** * Bytes *)

Notation byte := Coq.Init.Byte.byte.
Notation bytes := (list byte).

Global Instance byte_eq_dec : EqDecision byte := Byte.byte_eq_dec.

(** Numeric value of a byte, and the byte of a number modulo 256 (Go's byte(n)). *)
Definition bz (x : byte) : Z := Z.of_N (Byte.to_N x).
Definition zb (z : Z) : byte := default Byte.x00 (Byte.of_N (Z.to_N (z mod 256))).

Lemma byte_of_to_N x : Byte.of_N (Byte.to_N x) = Some x.
Proof. destruct x; reflexivity. Qed.

Lemma bz_range x : 0 <= bz x < 256.
Proof. unfold bz. pose proof (Byte.to_N_bounded x). lia. Qed.

Lemma zb_bz x : zb (bz x) = x.
Proof.
  unfold zb. pose proof (bz_range x). rewrite Z.mod_small by lia.
  unfold bz. rewrite N2Z.id, byte_of_to_N. reflexivity.
Qed.

Lemma bz_zb z : bz (zb z) = z mod 256.
Proof.
  unfold zb. pose proof (Z.mod_pos_bound z 256 ltac:(lia)) as H.
  destruct (Byte.of_N (Z.to_N (z mod 256))) eqn:E; simpl.
  - apply Byte.to_of_N in E. unfold bz. rewrite E. lia.
  - apply Byte.of_N_None_iff in E. lia.
Qed.

Lemma bz_inj x y : bz x = bz y -> x = y.
Proof. intros E. rewrite <- (zb_bz x), <- (zb_bz y), E. reflexivity. Qed.

Global Instance byte_countable : Countable byte :=
  inj_countable Byte.to_N Byte.of_N byte_of_to_N.

(** String literals of the source, as byte strings. *)
Definition str (s : string) : bytes := String.list_byte_of_string s.

(** Length of a byte string as an integer (Go's [len]). *)
Definition blen (l : bytes) : Z := Z.of_nat (length l).

(** [n] zero bytes (Go's [make([]byte, n)]). *)
Definition zeros (n : Z) : bytes := replicate (Z.to_nat n) Byte.x00.

(** Go's bytes.HasPrefix / strings.HasPrefix. *)
Fixpoint has_prefix (p l : bytes) : bool :=
  match p, l with
  | [], _ => true
  | a :: p', b :: l' => bool_decide (a = b) && has_prefix p' l'
  | _ :: _, [] => false
  end.

Lemma has_prefix_spec p l : has_prefix p l = true <-> exists r, l = p ++ r.
Proof.
  revert l. induction p as [|a p IH]; intros l; simpl.
  - split; eauto.
  - destruct l as [|b l].
    + split; [discriminate|]. intros [r E]. discriminate.
    + rewrite andb_true_iff, IH, bool_decide_eq_true. split.
      * intros [-> [r ->]]. eauto.
      * intros [r E]. injection E as -> ->. eauto.
Qed.

Lemma blen_nonneg l : 0 <= blen l.
Proof. unfold blen. lia. Qed.

Lemma blen_app a b : blen (a ++ b) = blen a + blen b.
Proof. unfold blen. rewrite app_length. lia. Qed.

Lemma blen_zeros n : 0 <= n -> blen (zeros n) = n.
Proof. intros. unfold blen, zeros. rewrite replicate_length. lia. Qed.

(** Wrap functions are the identity on their own range. *)
Lemma u64_id z : in_u64 z -> u64 z = z.
Proof. unfold in_u64, u64, u64_mod, max_u64. intros. apply Z.mod_small. lia. Qed.
Lemma i64_id z : in_i64 z -> i64 z = z.
Proof. unfold in_i64, i64, u64_mod, max_i64, min_i64. intros. rewrite Z.mod_small; lia. Qed.
Lemma u32_id z : in_u32 z -> u32 z = z.
Proof. unfold in_u32, u32. intros. apply Z.mod_small. lia. Qed.
Lemma i32_id z : in_i32 z -> i32 z = z.
Proof. unfold in_i32, i32, max_i32, min_i32. intros. rewrite Z.mod_small; lia. Qed.
Lemma u64_range z : in_u64 (u64 z).
Proof. unfold in_u64, u64, u64_mod, max_u64. pose proof (Z.mod_pos_bound z 18446744073709551616). lia. Qed.
Lemma i64_range z : in_i64 (i64 z).
Proof. unfold in_i64, i64, u64_mod, max_i64, min_i64.
  pose proof (Z.mod_pos_bound (z + 9223372036854775808) 18446744073709551616). lia. Qed.
Lemma i32_range z : in_i32 (i32 z).
Proof. unfold in_i32, i32, max_i32, min_i32.
  pose proof (Z.mod_pos_bound (z + 2147483648) 4294967296). lia. Qed.
Lemma u32_range z : in_u32 (u32 z).
Proof. unfold in_u32, u32. pose proof (Z.mod_pos_bound z 4294967296). lia. Qed.
