(** What an argument vector in memory means (no model functions here). *)
From Verif Require Export MemSpec.

(** [d] lies in [l] at offset [off]. *)
Definition laid_at (l : bytes) (off : Z) (d : bytes) : Prop :=
  exists pre post, l = pre ++ d ++ post /\ blen pre = off.

(** 32-bit little-endian form of a number. *)
Definition le32 (n : Z) : bytes := [zb n; zb (n / 256); zb (n / 65536); zb (n / 16777216)].

(** Signed 32-bit little-endian number found at an offset of memory. *)
Definition le32_at (l : bytes) (off : Z) : Z :=
  let b := fun i => bz (default Byte.x00 (l !! (Z.to_nat off + i)%nat)) in
  i32 (b 0%nat + 256 * b 1%nat + 65536 * b 2%nat + 16777216 * b 3%nat).

(** The [n] lengths found at offset [off]. *)
Definition arg_lens (l : bytes) (off : Z) (n : nat) : list Z :=
  (fun i : nat => le32_at l (off + 4 * Z.of_nat i)) <$> seq 0 n.

(** Consecutive windows of the given lengths, starting at [off]. *)
Fixpoint arg_windows (l : bytes) (off : Z) (lens : list Z) : list bytes :=
  match lens with
  | [] => []
  | n :: ns => window l off n :: arg_windows l (off + n) ns
  end.

(** Every length is non-negative and every non-empty argument starts in memory. *)
Fixpoint args_readable (l : bytes) (off : Z) (lens : list Z) : Prop :=
  match lens with
  | [] => True
  | n :: ns => 0 <= n /\ (n = 0 \/ 0 <= off <= blen l) /\ args_readable l (off + n) ns
  end.

(** The vector (n, lenOff, dataOff) can be read from memory [l]. *)
Definition vector_readable (l : bytes) (n lenOff dataOff : Z) : Prop :=
  0 <= n /\ (n = 0 \/ 0 <= lenOff <= blen l) /\
  args_readable l dataOff (arg_lens l lenOff (Z.to_nat n)).
