From Verif Require Import CodecModel CodecSpec MathProofs.
From Coq Require Import ZifyBool ZifyNat ZifyN.

Lemma be_decode_app a b : be_decode (a ++ b) = be_decode a * 256 ^ blen b + be_decode b.
Proof.
  unfold be_decode. revert a. induction b as [|x b IH] using rev_ind; intros a.
  - rewrite app_nil_r. change (blen []) with 0. simpl. lia.
  - rewrite app_assoc, fold_left_app, (fold_left_app _ b [x]). simpl. rewrite IH.
    unfold blen. rewrite app_length. simpl.
    replace (Z.of_nat (length b + 1)) with (Z.of_nat (length b) + 1) by lia.
    rewrite Z.pow_add_r by lia. unfold blen. lia.
Qed.

Lemma be_decode_cons x l : be_decode (x :: l) = bz x * 256 ^ blen l + be_decode l.
Proof. change (x :: l) with ([x] ++ l). rewrite be_decode_app. reflexivity. Qed.

Lemma be_decode_value l : be_decode l = be_value l.
Proof. induction l as [|x l IH]; [reflexivity|]. rewrite be_decode_cons, IH. reflexivity. Qed.

Lemma twos_decode_value l : twos_decode l = twos_value l.
Proof.
  destruct l as [|x l]; [reflexivity|]. unfold twos_decode, twos_value.
  rewrite be_decode_value. destruct (128 <=? bz x); lia.
Qed.

Lemma blen_cons x (l : bytes) : blen (x :: l) = blen l + 1.
Proof. unfold blen. simpl. lia. Qed.

Lemma be_decode_bound l : 0 <= be_decode l < 256 ^ blen l.
Proof.
  induction l as [|x l IH].
  - unfold be_decode, blen. simpl. lia.
  - rewrite be_decode_cons, blen_cons. pose proof (bz_range x). pose proof (blen_nonneg l).
    rewrite Z.pow_add_r by lia. nia.
Qed.

Lemma be_digits_decode fuel z acc : 0 <= z -> z < 256 ^ Z.of_nat fuel ->
  be_decode (be_digits fuel z acc) = z * 256 ^ blen acc + be_decode acc.
Proof.
  revert z acc. induction fuel as [|f IH]; intros z acc Hz Hb.
  - simpl in Hb. assert (z = 0) by lia. subst. simpl. lia.
  - simpl. destruct (Z.leb_spec z 0).
    + assert (z = 0) by lia. subst. lia.
    + replace (Z.of_nat (S f)) with (Z.of_nat f + 1) in Hb by lia.
      rewrite Z.pow_add_r in Hb by lia.
      rewrite IH.
      * rewrite be_decode_cons, blen_cons, bz_zb.
        rewrite Z.pow_add_r by (pose proof (blen_nonneg acc); lia).
        pose proof (Z.div_mod z 256). nia.
      * apply Z.div_pos; lia.
      * apply Z.div_lt_upper_bound; lia.
Qed.

Lemma be_fuel z : 0 <= z -> z < 256 ^ Z.of_nat (S (Z.to_nat (Z.log2 z))).
Proof.
  intros Hz. destruct (decide (z = 0)) as [->|].
  - simpl. lia.
  - pose proof (Z.log2_spec z ltac:(lia)) as [_ H].
    pose proof (Z.log2_nonneg z).
    replace (Z.of_nat (S (Z.to_nat (Z.log2 z)))) with (Z.succ (Z.log2 z)) by lia.
    eapply Z.lt_le_trans; [exact H|]. apply Z.pow_le_mono_l. lia.
Qed.

Lemma be_decode_encode z : be_decode (be_encode z) = Z.abs z.
Proof.
  unfold be_encode. rewrite be_digits_decode.
  - unfold blen, be_decode. simpl. lia.
  - lia.
  - apply be_fuel. lia.
Qed.

(** No leading zero: the encoding is empty or starts with a non-zero byte. *)
Definition no_lead0 (l : bytes) : Prop := match l with [] => True | f :: _ => bz f <> 0 end.

Lemma be_digits_lead fuel z acc : 0 < z -> z < 256 ^ Z.of_nat fuel -> no_lead0 (be_digits fuel z acc).
Proof.
  revert z acc. induction fuel as [|f IH]; intros z acc Hz Hb.
  - simpl in Hb. lia.
  - simpl. destruct (Z.leb_spec z 0); [lia|].
    replace (Z.of_nat (S f)) with (Z.of_nat f + 1) in Hb by lia.
    rewrite Z.pow_add_r in Hb by lia.
    destruct (decide (z < 256)).
    + rewrite (Z.div_small z 256) by lia. destruct f; simpl; rewrite bz_zb, Z.mod_small; lia.
    + apply IH.
      * assert (1 <= z / 256) by (apply Z.div_le_lower_bound; lia). lia.
      * apply Z.div_lt_upper_bound; lia.
Qed.

Lemma be_encode_lead z : no_lead0 (be_encode z).
Proof.
  destruct (decide (z = 0)) as [->|].
  - exact I.
  - unfold be_encode. apply be_digits_lead; [lia|]. apply be_fuel. lia.
Qed.

(** A byte string without leading zero is determined by its value. *)
Lemma no_lead0_bound l : l <> [] -> no_lead0 l -> 256 ^ (blen l - 1) <= be_decode l.
Proof.
  destruct l as [|x l]; [congruence|]. intros _ H. simpl in H.
  rewrite be_decode_cons, blen_cons. pose proof (bz_range x). pose proof (be_decode_bound l).
  replace (blen l + 1 - 1) with (blen l) by lia. nia.
Qed.

Lemma be_minimal l l' : no_lead0 l -> be_decode l' = be_decode l -> (length l <= length l')%nat.
Proof.
  intros H E. destruct (decide (l = [])) as [->|Hne]; [simpl; lia|].
  pose proof (no_lead0_bound l Hne H) as H1. pose proof (be_decode_bound l') as H2.
  destruct (decide (length l <= length l')%nat); [assumption|].
  assert (256 ^ blen l' <= 256 ^ (blen l - 1)). { apply Z.pow_le_mono_r; unfold blen; lia. }
  lia.
Qed.

Lemma be_inj_len l l' : length l = length l' -> be_decode l = be_decode l' -> l = l'.
Proof.
  revert l'. induction l as [|x l IH]; intros [|y l'] HL HE; try (simpl in HL; lia); [reflexivity|].
  rewrite !be_decode_cons in HE.
  assert (HL' : length l = length l') by (simpl in HL; lia).
  assert (HB : blen l = blen l') by (unfold blen; lia).
  rewrite HB in HE.
  pose proof (be_decode_bound l) as B1. pose proof (be_decode_bound l') as B2. rewrite HB in B1.
  assert (bz x = bz y) by nia.
  f_equal; [apply bz_inj; assumption|apply IH; [assumption|nia]].
Qed.

Lemma be_encode_decode l : no_lead0 l -> be_encode (be_decode l) = l.
Proof.
  intros H. pose proof (be_decode_bound l) as B.
  assert (E : be_decode (be_encode (be_decode l)) = be_decode l).
  { rewrite be_decode_encode. lia. }
  apply be_inj_len; [|assumption].
  pose proof (be_minimal _ l (be_encode_lead (be_decode l)) (eq_sym E)).
  pose proof (be_minimal l _ H E). lia.
Qed.

Lemma be_encode_nil z : be_encode z = [] <-> z = 0.
Proof.
  split.
  - intros E. pose proof (be_decode_encode z) as D. rewrite E in D. unfold be_decode in D. simpl in D. lia.
  - intros ->. reflexivity.
Qed.

(** * Two's complement *)

Lemma be_decode_bnot l : be_decode (map bnot l) = 256 ^ blen l - 1 - be_decode l.
Proof.
  induction l as [|x l IH]; [reflexivity|].
  cbn [map]. rewrite !be_decode_cons, IH, blen_cons.
  assert (HL : blen (map bnot l) = blen l) by (unfold blen; rewrite map_length; reflexivity).
  rewrite HL. unfold bnot. rewrite bz_zb. pose proof (bz_range x).
  rewrite Z.mod_small by lia. rewrite Z.pow_add_r by (pose proof (blen_nonneg l); lia). nia.
Qed.

Lemma twos_decode_cons f l : twos_decode (f :: l) =
  if 128 <=? bz f then be_decode (f :: l) - 256 ^ blen (f :: l) else be_decode (f :: l).
Proof. reflexivity. Qed.

Lemma bz0 : bz (zb 0) = 0. Proof. reflexivity. Qed.
Lemma bz255 : bz (zb 255) = 255. Proof. reflexivity. Qed.
Lemma bnot_bz x : bz (bnot x) = 255 - bz x.
Proof. unfold bnot. rewrite bz_zb. pose proof (bz_range x). apply Z.mod_small. lia. Qed.

Lemma twos_decode_encode z : twos_decode (twos_encode z) = z.
Proof.
  unfold twos_encode. destruct (Z.eqb_spec z 0) as [->|Hz]; [reflexivity|].
  destruct (Z.ltb_spec 0 z).
  - pose proof (be_decode_encode z) as D. rewrite Z.abs_eq in D by lia.
    destruct (be_encode z) as [|f l] eqn:E.
    { apply be_encode_nil in E. lia. }
    destruct (Z.leb_spec 128 (bz f)) as [H8|H8].
    + rewrite twos_decode_cons, bz0. change (128 <=? 0) with false.
      cbn iota. rewrite be_decode_cons, bz0, D. lia.
    + rewrite twos_decode_cons. destruct (Z.leb_spec 128 (bz f)); [lia|]. assumption.
  - pose proof (be_decode_encode (- z - 1)) as D. rewrite Z.abs_eq in D by lia.
    destruct (be_encode (- z - 1)) as [|f l] eqn:E.
    { apply be_encode_nil in E. assert (z = -1) by lia. subst. reflexivity. }
    pose proof (be_decode_bnot (f :: l)) as B. rewrite D in B.
    cbn [map] in *. rewrite bnot_bz. pose proof (bz_range f).
    assert (HL : blen (bnot f :: map bnot l) = blen (f :: l))
      by (unfold blen; simpl; rewrite map_length; reflexivity).
    destruct (Z.ltb_spec (255 - bz f) 128).
    + rewrite twos_decode_cons, bz255. change (128 <=? 255) with true. cbn iota.
      rewrite be_decode_cons, bz255, B, (blen_cons (zb 255)), HL.
      rewrite (Z.pow_add_r 256 (blen (f :: l)) 1) by (pose proof (blen_nonneg (f :: l)); lia).
      lia.
    + rewrite twos_decode_cons, bnot_bz. destruct (Z.leb_spec 128 (255 - bz f)); [|lia].
      rewrite B, HL. lia.
Qed.

(** Range of the values of a given length. *)
Lemma twos_decode_bound l : l <> [] ->
  - (128 * 256 ^ (blen l - 1)) <= twos_decode l < 128 * 256 ^ (blen l - 1).
Proof.
  destruct l as [|f l]; [congruence|]. intros _.
  rewrite twos_decode_cons, be_decode_cons, blen_cons.
  replace (blen l + 1 - 1) with (blen l) by lia.
  rewrite Z.pow_add_r by (pose proof (blen_nonneg l); lia).
  pose proof (be_decode_bound l). pose proof (bz_range f).
  destruct (Z.leb_spec 128 (bz f)); nia.
Qed.

Lemma twos_encode_len z : z <> 0 ->
  twos_encode z <> [] /\
  (length (twos_encode z) = 1%nat \/
   128 * 256 ^ (blen (twos_encode z) - 2) <= z \/
   z < - (128 * 256 ^ (blen (twos_encode z) - 2))).
Proof.
  intros Hz. unfold twos_encode. destruct (Z.eqb_spec z 0); [lia|].
  destruct (Z.ltb_spec 0 z).
  - pose proof (be_decode_encode z) as D. rewrite Z.abs_eq in D by lia.
    pose proof (be_encode_lead z) as HN.
    destruct (be_encode z) as [|f l] eqn:E.
    { apply be_encode_nil in E. lia. }
    simpl in HN. pose proof (bz_range f).
    rewrite be_decode_cons in D. pose proof (be_decode_bound l).
    destruct (Z.leb_spec 128 (bz f)) as [H8|H8]; (split; [discriminate|]).
    + right. left. rewrite !blen_cons. replace (blen l + 1 + 1 - 2) with (blen l) by lia. nia.
    + destruct l as [|g l]; [left; reflexivity|]. right. left.
      rewrite !blen_cons in *. replace (blen l + 1 + 1 - 2) with (blen l) by lia.
      rewrite Z.pow_add_r in * by (pose proof (blen_nonneg l); lia). nia.
  - pose proof (be_decode_encode (- z - 1)) as D. rewrite Z.abs_eq in D by lia.
    pose proof (be_encode_lead (- z - 1)) as HN.
    destruct (be_encode (- z - 1)) as [|f l] eqn:E.
    { split; [discriminate|]. left. reflexivity. }
    simpl in HN. pose proof (bz_range f). cbn [map]. rewrite bnot_bz.
    rewrite be_decode_cons in D. pose proof (be_decode_bound l).
    assert (HL : blen (map bnot l) = blen l) by (unfold blen; rewrite map_length; reflexivity).
    destruct (Z.ltb_spec (255 - bz f) 128); (split; [discriminate|]).
    + right. right. rewrite !blen_cons, HL. replace (blen l + 1 + 1 - 2) with (blen l) by lia. nia.
    + destruct l as [|g l]; [left; reflexivity|]. right. right.
      rewrite blen_cons, HL, blen_cons. rewrite blen_cons in D, H1. replace (blen l + 1 + 1 - 2) with (blen l) by lia.
      rewrite Z.pow_add_r in * by (pose proof (blen_nonneg l); lia). nia.
Qed.

Lemma twos_minimal z l : twos_decode l = z -> (length (twos_encode z) <= length l)%nat.
Proof.
  intros E. destruct (decide (z = 0)) as [->|Hz]; [simpl; lia|].
  pose proof (twos_encode_len z Hz) as [Hne HL].
  destruct l as [|f l]; [simpl in E; lia|].
  pose proof (twos_decode_bound (f :: l) ltac:(discriminate)) as B. rewrite E in B.
  destruct HL as [->|HL]; [simpl; lia|].
  destruct (decide (length (twos_encode z) <= length (f :: l))%nat) as [|HX]; [assumption|].
  exfalso.
  assert (256 ^ (blen (f :: l) - 1) <= 256 ^ (blen (twos_encode z) - 2)).
  { apply Z.pow_le_mono_r; [lia|]. unfold blen. lia. }
  lia.
Qed.

Lemma twos_inj_len l l' : length l = length l' -> twos_decode l = twos_decode l' -> l = l'.
Proof.
  intros HL E. apply be_inj_len; [assumption|].
  destruct l as [|f l], l' as [|f' l']; try (simpl in HL; lia).
  rewrite !twos_decode_cons in E.
  assert (HB : blen (f :: l) = blen (f' :: l')) by (unfold blen; lia).
  rewrite HB in E.
  pose proof (be_decode_bound (f :: l)). pose proof (be_decode_bound (f' :: l')). rewrite HB in *.
  destruct (Z.leb_spec 128 (bz f)), (Z.leb_spec 128 (bz f')); lia.
Qed.

(** * Statements for the theorems *)

Lemma c09_unsigned_roundtrip z : 0 <= z ->
  bigIntFromUnsignedBytes (bigIntUnsignedBytes z) = z /\ be_value (bigIntUnsignedBytes z) = z /\
  (forall l, be_value l = z -> (length (bigIntUnsignedBytes z) <= length l)%nat).
Proof.
  intros Hz. unfold bigIntFromUnsignedBytes, bigIntUnsignedBytes. rewrite <- be_decode_value.
  split; [|split].
  - rewrite be_decode_encode. lia.
  - rewrite be_decode_encode. lia.
  - intros l E. rewrite <- be_decode_value in E. apply be_minimal; [apply be_encode_lead|]. rewrite be_decode_encode. lia.
Qed.

Lemma c09_signed_roundtrip z :
  bigIntFromSignedBytes (bigIntSignedBytes z) = z /\ twos_value (bigIntSignedBytes z) = z /\
  (forall l, twos_value l = z -> (length (bigIntSignedBytes z) <= length l)%nat).
Proof.
  rewrite <- twos_decode_value.
  split; [apply twos_decode_encode|]. split; [apply twos_decode_encode|].
  intros l E. rewrite <- twos_decode_value in E. apply twos_minimal. assumption.
Qed.

Lemma c09_decoders l :
  bigIntFromUnsignedBytes l = be_value l /\ bigIntFromSignedBytes l = twos_value l.
Proof. split; [apply be_decode_value|apply twos_decode_value]. Qed.

(** Decoding then encoding gives the shortest string with the same value; it is the
    string itself exactly when that string is as short as possible. *)
Lemma c09_unsigned_canonical l :
  bigIntUnsignedBytes (bigIntFromUnsignedBytes l) = l <->
  (forall l', bigIntFromUnsignedBytes l' = bigIntFromUnsignedBytes l -> (length l <= length l')%nat).
Proof.
  unfold bigIntUnsignedBytes, bigIntFromUnsignedBytes. split.
  - intros E l' E'. apply be_minimal; [rewrite <- E; apply be_encode_lead|assumption].
  - intros H. pose proof (be_decode_bound l).
    assert (E : be_decode (be_encode (be_decode l)) = be_decode l) by (rewrite be_decode_encode; lia).
    apply be_inj_len; [|assumption].
    pose proof (H _ E). pose proof (be_minimal _ l (be_encode_lead (be_decode l)) (eq_sym E)). lia.
Qed.

Lemma c09_signed_canonical l :
  bigIntSignedBytes (bigIntFromSignedBytes l) = l <->
  (forall l', bigIntFromSignedBytes l' = bigIntFromSignedBytes l -> (length l <= length l')%nat).
Proof.
  unfold bigIntSignedBytes, bigIntFromSignedBytes. split.
  - intros E l' E'. rewrite <- E. apply twos_minimal. rewrite E'. reflexivity.
  - intros H.
    pose proof (twos_decode_encode (twos_decode l)) as E.
    apply twos_inj_len; [|assumption].
    pose proof (H _ E). pose proof (twos_minimal (twos_decode l) l eq_refl). lia.
Qed.

Lemma is_uint64_spec z : is_uint64 z = true <-> in_u64 z.
Proof. unfold is_uint64, in_u64. lia. Qed.
Lemma is_int64_spec z : is_int64 z = true <-> in_i64 z.
Proof. unfold is_int64, in_i64. lia. Qed.

Lemma i64_of_u64 v : in_i64 v -> i64 (u64 v) = v.
Proof.
  unfold in_i64, i64, u64, u64_mod, max_i64, min_i64. intros H.
  destruct (decide (0 <= v)).
  - rewrite (Z.mod_small v) by lia. rewrite Z.mod_small; lia.
  - replace (v mod 18446744073709551616) with (v + 18446744073709551616).
    + replace (v + 18446744073709551616 + 9223372036854775808)
        with ((v + 9223372036854775808) + 1 * 18446744073709551616) by lia.
      rewrite Z.mod_add by lia. rewrite Z.mod_small; lia.
    + symmetry. rewrite <- (Z.mod_add v 1) by lia. rewrite Z.mod_small; lia.
Qed.

Lemma c09_small_unsigned v : in_i64 v ->
  smallIntLoadUnsigned (smallIntUnsignedBytes v) = ROk v.
Proof.
  intros Hv. unfold smallIntLoadUnsigned, smallIntUnsignedBytes.
  rewrite be_decode_encode. pose proof (u64_range v) as R.
  rewrite Z.abs_eq by (unfold in_u64 in R; lia).
  rewrite (proj2 (is_uint64_spec _) R). f_equal. apply i64_of_u64. assumption.
Qed.

Lemma c09_small_signed v : in_i64 v -> smallIntLoadSigned (smallIntSignedBytes v) = ROk v.
Proof.
  intros Hv. unfold smallIntLoadSigned, smallIntSignedBytes. rewrite twos_decode_encode.
  rewrite (proj2 (is_int64_spec _) Hv). reflexivity.
Qed.

Lemma c09_load_range data :
  (smallIntLoadUnsigned data = RErr ErrStorageValueOutOfRange <-> max_u64 < be_value data) /\
  (smallIntLoadSigned data = RErr ErrStorageValueOutOfRange <-> ~ in_i64 (twos_value data)) /\
  (forall v, smallIntLoadUnsigned data = ROk v -> v = i64 (be_value data)) /\
  (forall v, smallIntLoadSigned data = ROk v -> v = twos_value data).
Proof.
  rewrite <- be_decode_value, <- twos_decode_value.
  unfold smallIntLoadUnsigned, smallIntLoadSigned, is_uint64, is_int64, in_i64.
  pose proof (be_decode_bound data). split; [|split; [|split]].
  3:{ destruct ((0 <=? be_decode data) && (be_decode data <=? max_u64)); intros v E; [injection E as <-; reflexivity|discriminate]. }
  3:{ destruct ((min_i64 <=? twos_decode data) && (twos_decode data <=? max_i64)); intros v E; [injection E as <-; reflexivity|discriminate]. }
  - destruct ((0 <=? be_decode data) && (be_decode data <=? max_u64)) eqn:E; split; try discriminate; try reflexivity; lia.
  - destruct ((min_i64 <=? twos_decode data) && (twos_decode data <=? max_i64)) eqn:E; split;
      try discriminate; try reflexivity; try lia.
Qed.

Lemma gindex_arg (args : list bytes) id a : 0 <= id -> args !! Z.to_nat id = Some a -> gindex args id = ROk a.
Proof. intros H E. unfold gindex. destruct (Z.ltb_spec id 0); [lia|]. rewrite E. reflexivity. Qed.

Lemma c09_args args id : Z.of_nat (length args) <= max_i32 -> in_i32 id ->
  match (if id <? 0 then None else args !! Z.to_nat id) with
  | None => smallIntGetUnsignedArgument args id = RErr ErrArgIndexOutOfRange /\
            smallIntGetSignedArgument args id = RErr ErrArgIndexOutOfRange
  | Some a =>
      (smallIntGetUnsignedArgument args id =
         if bool_decide (be_value a <= max_u64) then ROk (i64 (be_value a)) else RErr ErrArgOutOfRange) /\
      (smallIntGetSignedArgument args id =
         if bool_decide (in_i64 (twos_value a)) then ROk (twos_value a) else RErr ErrArgOutOfRange)
  end.
Proof.
  intros HL Hid. unfold smallIntGetUnsignedArgument, smallIntGetSignedArgument, arg_at.
  rewrite i32_id by (unfold in_i32, max_i32, min_i32 in *; lia).
  destruct (Z.ltb_spec id 0); [split; reflexivity|]. simpl.
  destruct (args !! Z.to_nat id) as [a|] eqn:E.
  - rewrite <- be_decode_value, <- twos_decode_value. pose proof (lookup_lt_Some _ _ _ E).
    destruct (Z.leb_spec (Z.of_nat (length args)) id); [lia|].
    rewrite (gindex_arg _ _ a) by assumption. simpl.
    pose proof (be_decode_bound a). split.
    + destruct (is_uint64 (be_decode a)) eqn:U; case_bool_decide; try reflexivity;
        unfold is_uint64 in U; lia.
    + destruct (is_int64 (twos_decode a)) eqn:U; case_bool_decide as D; try reflexivity;
        unfold is_int64, in_i64 in *; lia.
  - apply lookup_ge_None_1 in E. destruct (Z.leb_spec (Z.of_nat (length args)) id); [split; reflexivity|lia].
Qed.

Lemma c10_negative_unsigned z : bigIntFromUnsignedBytes (bigIntUnsignedBytes z) = Z.abs z.
Proof. apply be_decode_encode. Qed.

Lemma i64_abs_range ts : in_i64 ts -> 0 <= ts -> timelockFromBytes (timelockBytes ts) = ts.
Proof.
  intros H Hn. unfold timelockFromBytes, timelockBytes. rewrite be_decode_encode.
  rewrite Z.abs_eq by lia. apply i64_id. assumption.
Qed.

(** * Helpers *)

Lemma be_decode_zeros n l : be_decode (zeros n ++ l) = be_decode l.
Proof.
  rewrite be_decode_app. assert (H : be_decode (zeros n) = 0).
  { unfold zeros. induction (Z.to_nat n) as [|k IH]; [reflexivity|].
    simpl replicate. rewrite be_decode_cons, IH. reflexivity. }
  rewrite H. lia.
Qed.

Lemma c55_pad d size : in_i64 size -> blen d <= max_i64 ->
  exists d', PadBytesLeft (Some d) size = Some d' /\ be_value d' = be_value d /\
  (d <> [] -> blen d' = Z.max size (blen d)) /\ (exists k, d' = zeros k ++ d).
Proof.
  intros Hs Hd. destruct d as [|x d].
  - exists []. simpl. split; [reflexivity|]. split; [reflexivity|]. split; [congruence|].
    exists 0. reflexivity.
  - unfold PadBytesLeft. pose proof (blen_nonneg (x :: d)).
    rewrite sub_int_exact by (unfold in_i64, max_i64, min_i64 in *; lia).
    destruct (Z.leb_spec (if bool_decide (in_i64 (size - blen (x :: d))) then size - blen (x :: d) else min_i64) 0)
      as [Hle|Hgt]; case_bool_decide as HD.
    + exists (x :: d). split; [reflexivity|]. split; [reflexivity|]. split; [intros _; lia|].
      exists 0. reflexivity.
    + exists (x :: d). split; [reflexivity|]. split; [reflexivity|].
      split; [intros _; unfold in_i64, max_i64, min_i64 in *; lia|]. exists 0. reflexivity.
    + exists (zeros (size - blen (x :: d)) ++ x :: d). split; [reflexivity|].
      split; [rewrite <- !be_decode_value; apply be_decode_zeros|].
      split; [|eexists; reflexivity]. intros _. rewrite blen_app, blen_zeros by lia. lia.
    + unfold min_i64 in Hgt. lia.
Qed.

Lemma inverse_loop_rev d acc : inverse_loop d acc = rev d ++ acc.
Proof.
  revert acc. induction d as [|x d IH]; intros acc; [reflexivity|].
  simpl. rewrite IH, <- app_assoc. reflexivity.
Qed.

Lemma c55_inverse d : InverseBytes (InverseBytes d) = d /\
  forall i, (i < length d)%nat -> InverseBytes d !! i = d !! (length d - 1 - i)%nat.
Proof.
  assert (E : forall d, InverseBytes d = rev d).
  { intros e. unfold InverseBytes. rewrite inverse_loop_rev, app_nil_r. reflexivity. }
  split.
  - rewrite !E. apply rev_involutive.
  - intros i Hi. rewrite E. rewrite rev_alt. change (rev_append d []) with (reverse d).
    rewrite reverse_lookup by assumption. f_equal. lia.
Qed.

Lemma land127 n : Z.land n 127 = n mod 128.
Proof. change 127 with (Z.ones 7). rewrite Z.land_ones by lia. reflexivity. Qed.

Lemma lor128 b : 0 <= b < 128 -> Z.lor b 128 = b + 128.
Proof.
  intros H. assert (HZ : Z.land b 128 = 0); [|rewrite <- Z.lxor_lor, <- Z.add_nocarry_lxor by assumption; lia].
  change 128 with (2 ^ 7). apply Z.bits_inj'. intros n Hn.
  rewrite Z.land_spec, Z.bits_0, Z.pow2_bits_eqb by lia.
  destruct (Z.eqb_spec 7 n) as [<-|]; [|rewrite andb_false_r; reflexivity].
  rewrite andb_true_r. apply Z.testbit_false; [lia|].
  rewrite Z.div_small by (simpl; lia). reflexivity.
Qed.

Lemma leb_loop_ok fuel n : 0 <= n < 128 ^ Z.of_nat fuel -> (0 < fuel)%nat ->
  leb_value (leb_loop fuel n) = n /\ leb_wf (leb_loop fuel n) /\
  (n = 0 -> length (leb_loop fuel n) = 1%nat) /\
  (forall k : nat, n < 128 ^ Z.of_nat k -> (0 < k)%nat -> (length (leb_loop fuel n) <= k)%nat).
Proof.
  revert n. induction fuel as [|f IH]; intros n Hn Hf; [lia|].
  cbn [leb_loop]. rewrite land127, Z.shiftr_div_pow2 by lia. change (2 ^ 7) with 128.
  pose proof (Z.mod_pos_bound n 128 ltac:(lia)) as Hm. pose proof (Z.div_mod n 128 ltac:(lia)) as Hdm.
  rewrite lor128 by lia.
  destruct (Z.eqb_spec (n / 128) 0) as [E|E].
  - cbn [leb_value leb_wf length]. rewrite bz_zb.
    rewrite (Z.mod_small (n mod 128) 256) by lia. rewrite Z.mod_mod by lia.
    split; [lia|]. split; [lia|]. split; [reflexivity|]. intros k _ Hk. lia.
  - assert (0 <= n / 128) by (apply Z.div_pos; lia).
    replace (Z.of_nat (S f)) with (Z.of_nat f + 1) in Hn by lia. rewrite Z.pow_add_r in Hn by lia.
    assert (n / 128 < 128 ^ Z.of_nat f) by (apply Z.div_lt_upper_bound; lia).
    assert (0 < f)%nat. { destruct f; [simpl in *; lia|lia]. }
    destruct (IH (n / 128) ltac:(lia) ltac:(assumption)) as (V & W & _ & M).
    cbn [leb_value leb_wf length]. rewrite bz_zb.
    rewrite (Z.mod_small (n mod 128 + 128) 256) by lia.
    split; [|split; [|split]].
    + rewrite V. replace (n mod 128 + 128) with (n mod 128 + 1 * 128) by lia.
      rewrite Z.mod_add, Z.mod_mod by lia. lia.
    + destruct (leb_loop f (n / 128)) as [|c r]; [destruct W|]. split; [lia|assumption].
    + intros ->. cbv in E. congruence.
    + intros k Hk Hk0. destruct k as [|k]; [lia|].
      replace (Z.of_nat (S k)) with (Z.of_nat k + 1) in Hk by lia. rewrite Z.pow_add_r in Hk by lia.
      assert (n / 128 < 128 ^ Z.of_nat k) by (apply Z.div_lt_upper_bound; lia).
      assert (0 < k)%nat. { destruct k; [simpl in *; lia|lia]. }
      specialize (M k ltac:(assumption) ltac:(assumption)). lia.
Qed.

Lemma leb_value_bound l : 0 <= leb_value l < 128 ^ Z.of_nat (length l).
Proof.
  induction l as [|b r IH]; [simpl; lia|]. cbn [leb_value length].
  replace (Z.of_nat (S (length r))) with (Z.of_nat (length r) + 1) by lia. rewrite Z.pow_add_r by lia.
  pose proof (Z.mod_pos_bound (bz b) 128 ltac:(lia)). lia.
Qed.

Lemma leb_wf_nonempty l : leb_wf l -> (0 < length l)%nat.
Proof. destruct l; simpl; [tauto|lia]. Qed.

Lemma c55_leb n : in_u64 n ->
  leb_value (U64ToLEB128 n) = n /\ leb_wf (U64ToLEB128 n) /\
  (forall l, leb_wf l -> leb_value l = n -> (length (U64ToLEB128 n) <= length l)%nat).
Proof.
  intros Hn. unfold U64ToLEB128.
  destruct (leb_loop_ok 10 n) as (V & W & _ & M); [unfold in_u64, max_u64 in Hn; simpl; lia|lia|].
  split; [exact V|]. split; [exact W|]. intros l Hw <-.
  apply M; [apply leb_value_bound|apply leb_wf_nonempty; assumption].
Qed.

Lemma c55_slice data off len : in_i32 off -> in_i32 len -> blen data < max_i32 ->
  (forall d, GuardedGetBytesSlice data off len = ROk d <->
     0 <= off /\ 0 <= len /\ off + len <= blen data /\
     d = take (Z.to_nat len) (drop (Z.to_nat off) data)) /\
  GuardedGetBytesSlice data off len <> RPanic.
Proof.
  intros Ho Hl Hd. unfold GuardedGetBytesSlice. pose proof (blen_nonneg data).
  rewrite (u32_id (blen data)) by (unfold in_u32, max_i32 in *; lia).
  rewrite add_i32_exact by assumption.
  destruct (Z.ltb_spec off 0); [split; [|discriminate]; intros d; split; [discriminate|lia]|].
  cbn [orb].
  rewrite (u32_id off) by (unfold in_u32, in_i32, max_i32, min_i32 in *; lia).
  destruct (Z.ltb_spec (blen data) off); [split; [|discriminate]; intros d; split; [discriminate|lia]|].
  cbn [orb].
  case_bool_decide as D.
  - destruct (decide (off + len < 0)).
    { split; [|destruct (blen data <? u32 (off + len)); [discriminate|]; destruct (Z.ltb_spec len 0); [discriminate|lia]].
      intros d. split; [|lia].
      destruct (blen data <? u32 (off + len)); [discriminate|]. destruct (Z.ltb_spec len 0); [discriminate|lia]. }
    rewrite u32_id by (unfold in_u32, in_i32, max_i32, min_i32 in *; lia).
    destruct (Z.ltb_spec (blen data) (off + len)); [split; [|discriminate]; intros d; split; [discriminate|lia]|].
    destruct (Z.ltb_spec len 0); [split; [|discriminate]; intros d; split; [discriminate|lia]|].
    rewrite slice_ok by lia. replace (off + len - off) with len by lia.
    split; [|discriminate]. intros d. split.
    + intros E. injection E as <-. auto.
    + intros (_ & _ & _ & ->). reflexivity.
  - assert (max_i32 < off + len) by (unfold in_i32, max_i32, min_i32 in *; lia).
    change (u32 max_i32) with max_i32.
    destruct (Z.ltb_spec (blen data) max_i32).
    { split; [|discriminate]. intros d. split; [discriminate|lia]. }
    lia.
Qed.
