(** Specification vocabulary for contract memory (no model functions here). *)
From Verif Require Export Base.

(** The [len] bytes a reader expects at offset [off] of a memory [l], where
    addresses past the end read as zero. *)
Definition window (l : bytes) (off len : Z) : bytes :=
  (fun i => default Byte.x00 (l !! (Z.to_nat off + i)%nat)) <$> seq 0 (Z.to_nat len).

(** [l'] is [l] with the bytes at [off], [off+1], ... replaced by [data], where
    [l'] may be longer than [l] and every added byte not covered by [data] is 0. *)
Definition written (l l' : bytes) (off : Z) (data : bytes) : Prop :=
  forall i : nat, (i < length l')%nat ->
    l' !! i =
      if (Z.to_nat off <=? i)%nat && (i <? Z.to_nat off + length data)%nat
      then data !! (i - Z.to_nat off)%nat
      else Some (default Byte.x00 (l !! i)).
