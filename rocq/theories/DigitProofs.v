(** The text of call data, for C49. *)
From Verif Require Import CallDataModel CallDataProofs DigitSpec.

Lemma digit_text n : 0 <= n < 16 -> 48 <= bz (hex_digit n) <= 57 \/ 97 <= bz (hex_digit n) <= 102.
Proof.
  intros H.
  assert (C : n = 0 \/ n = 1 \/ n = 2 \/ n = 3 \/ n = 4 \/ n = 5 \/ n = 6 \/ n = 7 \/ n = 8 \/ n = 9 \/
    n = 10 \/ n = 11 \/ n = 12 \/ n = 13 \/ n = 14 \/ n = 15) by lia.
  repeat (destruct C as [->|C]; [vm_compute; intuition discriminate|]). subst n. vm_compute; intuition discriminate.
Qed.

Lemma encode_text l : Forall (fun b => 48 <= bz b <= 57 \/ 97 <= bz b <= 102) (hex_encode l) /\
  length (hex_encode l) = (2 * length l)%nat.
Proof.
  induction l as [|b l [IH IL]]; [split; [constructor|reflexivity]|].
  change (hex_encode (b :: l)) with (hex_digit (bz b `div` 16) :: hex_digit (bz b `mod` 16) :: hex_encode l).
  pose proof (bz_range b).
  split; [|cbn [length]; rewrite IL; lia].
  constructor; [|constructor; [|exact IH]]; apply digit_text.
  - split; [apply Z.div_pos; lia|apply Z.div_lt_upper_bound; lia].
  - apply Z.mod_pos_bound; lia.
Qed.

Lemma make_text f args : exists t, makeCallData f args = f ++ t /\
  Forall (fun b => b = sepByte \/ 48 <= bz b <= 57 \/ 97 <= bz b <= 102) t /\
  length t = (length args + 2 * length (concat args))%nat.
Proof.
  exists (args_data args). split; [reflexivity|].
  induction args as [|a args [IH IL]]; [split; [constructor|reflexivity]|].
  change (args_data (a :: args)) with ((sepByte :: hex_encode a) ++ args_data args).
  destruct (encode_text a) as [T L]. split.
  - apply Forall_app. split; [|exact IH]. constructor; [auto|]. eapply Forall_impl; [exact T|]. intros; right; assumption.
  - rewrite app_length, IL. cbn [length concat]. rewrite L, app_length. lia.
Qed.

Lemma lower_value b : hex_value (lower b) = hex_value b.
Proof. destruct b; reflexivity. Qed.
Lemma lower_sep b : lower b = sepByte <-> b = sepByte.
Proof.
  assert (X : Byte.eqb (lower b) sepByte = Byte.eqb b sepByte) by (destruct b; reflexivity).
  split; intros H.
  - apply Byte.byte_dec_bl. rewrite <- X, H. reflexivity.
  - rewrite H. reflexivity.
Qed.
Lemma value_lower b x : hex_value b = Some x -> lower b = hex_digit x /\ 0 <= x < 16.
Proof.
  assert (X : match hex_value b with
              | Some y => Byte.eqb (lower b) (hex_digit y) && ((0 <=? y) && (y <? 16))
              | None => true
              end = true) by (destruct b; reflexivity).
  intros H. rewrite H in X. apply andb_true_iff in X as [X1 X2]. split; [apply Byte.byte_dec_bl, X1|lia].
Qed.

Lemma two_ind (P : bytes -> Prop) :
  P [] -> (forall a, P [a]) -> (forall a b l, P l -> P (a :: b :: l)) -> forall l, P l.
Proof.
  intros H0 H1 H2. assert (forall n l, (length l < n)%nat -> P l) as X.
  { induction n as [|n IH]; intros l L; [lia|]. destruct l as [|a [|b l]]; auto. apply H2, IH. cbn in L. lia. }
  intros l. apply (X (S (length l))). lia.
Qed.

Lemma decode_lower l : hex_decode (map lower l) = hex_decode l.
Proof.
  induction l as [|a|a b l IH] using two_ind; try reflexivity.
  cbn [map hex_decode]. rewrite !lower_value, IH. reflexivity.
Qed.
Lemma decode_text l a : hex_decode l = Some a -> map lower l = hex_encode a.
Proof.
  revert a. induction l as [|x|x y l IH] using two_ind; intros a; cbn [hex_decode].
  - intros X; inversion X. reflexivity.
  - discriminate.
  - destruct (hex_value x) as [u|] eqn:Hu; [|discriminate]. destruct (hex_value y) as [v|] eqn:Hv; [|discriminate].
    destruct (hex_decode l) as [r|]; [|discriminate]. intros X; inversion X; subst.
    destruct (value_lower _ _ Hu) as [Lu Ru]. destruct (value_lower _ _ Hv) as [Lv Rv].
    change (hex_encode (zb (16 * u + v) :: r)) with
      (hex_digit (bz (zb (16 * u + v)) `div` 16) :: hex_digit (bz (zb (16 * u + v)) `mod` 16) :: hex_encode r).
    cbn [map]. rewrite Lu, Lv, (IH _ eq_refl). rewrite bz_zb. rewrite (Z.mod_small (16 * u + v)) by lia.
    replace ((16 * u + v) `div` 16) with u by (apply Z.div_unique with v; lia).
    replace ((16 * u + v) `mod` 16) with v by (apply Z.mod_unique with u; lia). reflexivity.
Qed.

Lemma split_join d : exists f ts, split_at d = f :: ts /\ d = f ++ (ts ≫= fun t => sepByte :: t) /\
  Forall (fun b => b <> sepByte) f.
Proof.
  induction d as [|b d (f & ts & Hs & Hd & Hf)]; [exists [], []; split_and!; auto|].
  cbn [split_at]. destruct (bool_decide_reflect (b = sepByte)) as [->|N].
  - exists [], (f :: ts). rewrite Hs. split_and!; auto. cbn. f_equal. exact Hd.
  - exists (b :: f), ts. rewrite Hs. split_and!; auto. cbn. f_equal. exact Hd.
Qed.

Lemma tokens_text ts args : mapM hex_decode ts = Some args ->
  map lower (ts ≫= fun t => sepByte :: t) = args_data args.
Proof.
  revert args. induction ts as [|t ts IH]; intros args; [intros X; inversion X; reflexivity|].
  cbn [mapM]. destruct (hex_decode t) as [a|] eqn:Ha; [|discriminate]. cbn.
  destruct (mapM hex_decode ts) as [as_|]; [|discriminate]. cbn. intros X; inversion X; subst.
  change (args_data (a :: as_)) with (sepByte :: hex_encode a ++ args_data as_).
  rewrite map_app, (IH _ eq_refl), (decode_text _ _ Ha). reflexivity.
Qed.

Lemma text_tokens args : forall t f, Forall (fun b => b <> sepByte) f -> map lower t = args_data args ->
  exists ts, split_at (f ++ t) = f :: ts /\ mapM hex_decode ts = Some args.
Proof.
  induction args as [|a args IH]; intros t f Hf Ht.
  - apply map_eq_nil in Ht as ->. rewrite app_nil_r. exists []. split; [apply split_at_end, Hf|reflexivity].
  - change (args_data (a :: args)) with (sepByte :: hex_encode a ++ args_data args) in Ht.
    destruct t as [|b t]; [discriminate|]. cbn [map] in Ht. injection Ht as Hb Ht.
    apply lower_sep in Hb as ->. apply map_eq_app in Ht as (t1 & t2 & -> & H1 & H2).
    assert (N : Forall (fun b => b <> sepByte) t1).
    { apply List.Forall_forall. intros b Hb E. apply lower_sep in E.
      pose proof (hex_no_sep a) as S. rewrite <- H1 in S. rewrite List.Forall_forall in S.
      apply (S (lower b)); [apply in_map, Hb|exact E]. }
    destruct (IH t2 t1 N H2) as (ts & Hs & Hm). exists (t1 :: ts).
    rewrite (split_at_app f _ Hf), Hs. split; [reflexivity|].
    cbn [mapM]. rewrite <- decode_lower, H1, hex_roundtrip. cbn. rewrite Hm. reflexivity.
Qed.

Lemma parse_text d f args : ParseData d = ROk (f, args) <->
  f <> [] /\ Forall (fun b => b <> sepByte) f /\ exists t, d = f ++ t /\ map lower t = makeCallData [] args.
Proof.
  unfold ParseData. split.
  - destruct (split_join d) as (f' & ts & -> & Hd & Hf). destruct f' as [|x f']; [discriminate|].
    destruct (mapM hex_decode ts) as [a|] eqn:Hm; [|discriminate]. intros X; inversion X; subst.
    split_and!; [discriminate|exact Hf|]. eexists. split; [reflexivity|]. apply tokens_text, Hm.
  - intros (Hn & Hf & t & -> & Ht). destruct (text_tokens args t f Hf Ht) as (ts & -> & Hm).
    destruct f as [|x f]; [contradiction|]. rewrite Hm. reflexivity.
Qed.
