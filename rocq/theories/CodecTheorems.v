(** Number encodings: properties C09, C10, C55. *)
From Verif Require Import CodecModel CodecSpec CodecProofs.

(** C09.  Unsigned numbers: encoding is inverted by decoding and is as short as possible. *)
Theorem C09_unsigned_roundtrip : forall z, 0 <= z ->
  bigIntFromUnsignedBytes (bigIntUnsignedBytes z) = z /\ be_value (bigIntUnsignedBytes z) = z /\
  (forall l, be_value l = z -> (length (bigIntUnsignedBytes z) <= length l)%nat).
Proof. exact c09_unsigned_roundtrip. Qed.
Print Assumptions C09_unsigned_roundtrip.

(** C09.  Signed numbers, all integers. *)
Theorem C09_signed_roundtrip : forall z,
  bigIntFromSignedBytes (bigIntSignedBytes z) = z /\ twos_value (bigIntSignedBytes z) = z /\
  (forall l, twos_value l = z -> (length (bigIntSignedBytes z) <= length l)%nat).
Proof. exact c09_signed_roundtrip. Qed.
Print Assumptions C09_signed_roundtrip.

(** C09.  Decoders compute the positional value of every byte string. *)
Theorem C09_decoders : forall l,
  bigIntFromUnsignedBytes l = be_value l /\ bigIntFromSignedBytes l = twos_value l.
Proof. exact c09_decoders. Qed.
Print Assumptions C09_decoders.

(** C09.  Decoding and re-encoding is the identity exactly on shortest strings. *)
Theorem C09_canonical : forall l,
  (bigIntUnsignedBytes (bigIntFromUnsignedBytes l) = l <->
   (forall l', bigIntFromUnsignedBytes l' = bigIntFromUnsignedBytes l -> (length l <= length l')%nat)) /\
  (bigIntSignedBytes (bigIntFromSignedBytes l) = l <->
   (forall l', bigIntFromSignedBytes l' = bigIntFromSignedBytes l -> (length l <= length l')%nat)).
Proof. intros l. exact (conj (c09_unsigned_canonical l) (c09_signed_canonical l)). Qed.
Print Assumptions C09_canonical.

(** C09.  64-bit values survive a store and a load, for both API pairs. *)
Theorem C09_small_roundtrip : forall v, in_i64 v ->
  smallIntLoadUnsigned (smallIntUnsignedBytes v) = ROk v /\
  smallIntLoadSigned (smallIntSignedBytes v) = ROk v.
Proof. intros v H. exact (conj (c09_small_unsigned v H) (c09_small_signed v H)). Qed.
Print Assumptions C09_small_roundtrip.

(** C09.  64-bit loads reject exactly the out-of-range values and otherwise give the value. *)
Theorem C09_load_range : forall data,
  (smallIntLoadUnsigned data = RErr ErrStorageValueOutOfRange <-> max_u64 < be_value data) /\
  (smallIntLoadSigned data = RErr ErrStorageValueOutOfRange <-> ~ in_i64 (twos_value data)) /\
  (forall v, smallIntLoadUnsigned data = ROk v -> v = i64 (be_value data)) /\
  (forall v, smallIntLoadSigned data = ROk v -> v = twos_value data).
Proof. exact c09_load_range. Qed.
Print Assumptions C09_load_range.

(** C09.  Call arguments read as 64-bit numbers. *)
Theorem C09_arguments : forall args id, Z.of_nat (length args) <= max_i32 -> in_i32 id ->
  match (if id <? 0 then None else args !! Z.to_nat id) with
  | None => smallIntGetUnsignedArgument args id = RErr ErrArgIndexOutOfRange /\
            smallIntGetSignedArgument args id = RErr ErrArgIndexOutOfRange
  | Some a =>
      (smallIntGetUnsignedArgument args id =
         if bool_decide (be_value a <= max_u64) then ROk (i64 (be_value a)) else RErr ErrArgOutOfRange) /\
      (smallIntGetSignedArgument args id =
         if bool_decide (in_i64 (twos_value a)) then ROk (twos_value a) else RErr ErrArgOutOfRange)
  end.
Proof. exact c09_args. Qed.
Print Assumptions C09_arguments.

Example C09_ex1 : bigIntUnsignedBytes 256 = [Byte.x01; Byte.x00].
Proof. reflexivity. Qed.
Example C09_ex2 : bigIntSignedBytes 128 = [Byte.x00; Byte.x80] /\ bigIntSignedBytes (-128) = [Byte.x80]
  /\ bigIntSignedBytes (-129) = [Byte.xff; Byte.x7f] /\ bigIntSignedBytes 0 = [].
Proof. repeat split. Qed.
Example C09_ex3 : smallIntGetSignedArgument [str "ab"; [Byte.xff]] 1 = ROk (-1).
Proof. reflexivity. Qed.

(** C10.  Signed and 64-bit API pairs never change the number, and the unsigned pair does
    not change non-negative numbers; what is missing is refuted below. *)
Theorem C10_pairs_partial :
  (forall z, bigIntFromSignedBytes (bigIntSignedBytes z) = z) /\
  (forall z, 0 <= z -> bigIntFromUnsignedBytes (bigIntUnsignedBytes z) = z) /\
  (forall v, in_i64 v -> smallIntLoadUnsigned (smallIntUnsignedBytes v) = ROk v) /\
  (forall v, in_i64 v -> smallIntLoadSigned (smallIntSignedBytes v) = ROk v) /\
  (forall ts, in_i64 ts -> 0 <= ts -> timelockFromBytes (timelockBytes ts) = ts).
Proof.
  exact (conj twos_decode_encode (conj (fun z H => proj1 (c09_unsigned_roundtrip z H))
    (conj c09_small_unsigned (conj c09_small_signed i64_abs_range)))).
Qed.
Print Assumptions C10_pairs_partial.

(** C10 fails for bigIntStorageStoreUnsigned/LoadUnsigned and
    bigIntGetUnsignedBytes/SetUnsignedBytes: every negative number comes back positive. *)
Theorem C10_unsigned_pair_refuted : forall z, z < 0 ->
  bigIntFromUnsignedBytes (bigIntUnsignedBytes z) = - z.
Proof. intros z H. rewrite (c10_negative_unsigned z). exact (Z.abs_neq z (Z.lt_le_incl _ _ H)). Qed.
Print Assumptions C10_unsigned_pair_refuted.

(** C10 fails for setStorageLock/getStorageLock with a negative time stamp. *)
Theorem C10_timelock_refuted : exists ts, in_i64 ts /\ timelockFromBytes (timelockBytes ts) <> ts.
Proof. exists (-1). split; [unfold in_i64, min_i64, max_i64; lia|discriminate]. Qed.
Print Assumptions C10_timelock_refuted.

Example C10_ex : bigIntFromUnsignedBytes (bigIntUnsignedBytes (-7)) = 7.
Proof. reflexivity. Qed.

(** C55.  Padding keeps the value and gives exactly the requested width. *)
Theorem C55_pad : forall d size, in_i64 size -> blen d <= max_i64 ->
  exists d', PadBytesLeft (Some d) size = Some d' /\ be_value d' = be_value d /\
  (d <> [] -> blen d' = Z.max size (blen d)) /\ (exists k, d' = zeros k ++ d).
Proof. exact c55_pad. Qed.
Print Assumptions C55_pad.

(** C55.  Reversal. *)
Theorem C55_inverse : forall d, InverseBytes (InverseBytes d) = d /\
  forall i, (i < length d)%nat -> InverseBytes d !! i = d !! (length d - 1 - i)%nat.
Proof. exact c55_inverse. Qed.
Print Assumptions C55_inverse.

(** C55.  LEB128. *)
Theorem C55_leb128 : forall n, in_u64 n ->
  leb_value (U64ToLEB128 n) = n /\ leb_wf (U64ToLEB128 n) /\
  (forall l, leb_wf l -> leb_value l = n -> (length (U64ToLEB128 n) <= length l)%nat).
Proof. exact c55_leb. Qed.
Print Assumptions C55_leb128.

(** C55.  Guarded slices. *)
Theorem C55_guarded_slice : forall data off len, in_i32 off -> in_i32 len -> blen data < max_i32 ->
  (forall d, GuardedGetBytesSlice data off len = ROk d <->
     0 <= off /\ 0 <= len /\ off + len <= blen data /\
     d = take (Z.to_nat len) (drop (Z.to_nat off) data)) /\
  GuardedGetBytesSlice data off len <> RPanic.
Proof. exact c55_slice. Qed.
Print Assumptions C55_guarded_slice.

Example C55_ex1 : PadBytesLeft (Some (str "a")) 3 = Some ([Byte.x00; Byte.x00] ++ str "a").
Proof. reflexivity. Qed.
Example C55_ex2 : InverseBytes (str "abc") = str "cba".
Proof. reflexivity. Qed.
Example C55_ex3 : U64ToLEB128 624485 = [Byte.xe5; Byte.x8e; Byte.x26].
Proof. reflexivity. Qed.
Example C55_ex4 : GuardedGetBytesSlice (str "hello") 1 3 = ROk (str "ell").
Proof. reflexivity. Qed.
