(** Proofs about the notations of scenario files. *)
From Coq Require Import Sorted.
From Verif Require Import Base CodecSpec CodecModel CodecProofs CallDataModel CallDataProofs
  JsonModel JsonProofs MandosModel MandosSpec.
From Coq Require Import ZifyBool ZifyNat ZifyN.

(** * Prefixes and parts *)

Lemma strip_some p : forall t r, strip p t = Some r <-> t = p ++ r.
Proof.
  induction p as [|a p IH]; intros t r; cbn [strip app].
  - split; [intros [= ->]; done|intros ->; done].
  - destruct t as [|b t]; [split; discriminate|].
    destruct (is_spec a b) as [->|H].
    + rewrite IH. split; [intros ->; done|intros [= ->]; done].
    + split; [discriminate|]. intros [= <- _]. done.
Qed.
Lemma strip_app p r : strip p (p ++ r) = Some r.
Proof. by apply strip_some. Qed.
Lemma strip_none p t : strip p t = None <-> ~ starts p t.
Proof.
  split.
  - intros H [r Hr]. apply strip_some in Hr. congruence.
  - intros H. destruct (strip p t) as [r|] eqn:E; [|done].
    apply strip_some in E. destruct H. by exists r.
Qed.

Lemma split_one sep t : sep ∉ t -> split_on sep t = [t].
Proof.
  induction t as [|c t IH]; intros H; [done|]. cbn.
  rewrite is_neq by (intros ->; apply H; left).
  rewrite IH by (intros H'; apply H; by right). done.
Qed.
Lemma split_more sep t r : sep ∉ t -> split_on sep (t ++ sep :: r) = t :: split_on sep r.
Proof.
  induction t as [|c t IH]; intros H; cbn; [by rewrite is_eq|].
  rewrite is_neq by (intros ->; apply H; left).
  rewrite IH by (intros H'; apply H; by right). done.
Qed.
Lemma split_nonempty sep t : split_on sep t <> [].
Proof.
  destruct t as [|c t]; cbn; [done|]. destruct (is c sep); [done|].
  destruct (split_on sep t); done.
Qed.
Lemma joined_cons t ts : ts <> [] -> joined (t :: ts) = t ++ bar :: joined ts.
Proof. destruct ts; done. Qed.
Lemma split_joined ts : ts <> [] -> Forall (fun t => bar ∉ t) ts ->
  split_on bar (joined ts) = ts.
Proof.
  intros Hn H. induction H as [|t ts Ht Hts IH]; [done|].
  destruct ts as [|t' ts]; [by apply split_one|].
  rewrite joined_cons by done. rewrite split_more by done. by rewrite IH.
Qed.
Lemma joined_split t :
  joined (split_on bar t) = t /\ Forall (fun t => bar ∉ t) (split_on bar t).
Proof.
  induction t as [|c t [IH1 IH2]]; cbn.
  - split; [done|]. constructor; [apply not_elem_of_nil|constructor].
  - pose proof (split_nonempty bar t) as Hn. destruct (is_spec c bar) as [->|Hc].
    + rewrite joined_cons by done. rewrite IH1. split; [done|].
      constructor; [apply not_elem_of_nil|done].
    + destruct (split_on bar t) as [|x xs]; [done|]. apply Forall_cons in IH2 as [H1 H2].
      split.
      * rewrite <- IH1. destruct xs; done.
      * constructor; [|done]. rewrite elem_of_cons. intros [H|H]; done.
Qed.
Lemma split_single t x : split_on bar t = [x] -> x = t /\ bar ∉ t.
Proof.
  intros H. destruct (joined_split t) as [H1 H2]. rewrite H in H1, H2. cbn in H1. subst x.
  split; [done|]. by apply Forall_cons in H2 as [H2 _].
Qed.

(** * Hexadecimal *)

Lemma hex_char_iff b v : hex_value b = Some v <-> hex_char b v.
Proof.
  unfold hex_value, hex_char. pose proof (bz_range b). cbv zeta.
  destruct ((48 <=? bz b) && (bz b <=? 57)) eqn:H1; [|destruct ((97 <=? bz b) && (bz b <=? 102)) eqn:H2; [|destruct ((65 <=? bz b) && (bz b <=? 70)) eqn:H3]];
    (split; [intros [= <-] || intros [=]|intros Hd; f_equal]); lia.
Qed.
Lemma hex_text_iff : forall l a, hex_decode l = Some a <-> hex_text l a.
Proof.
  assert (Hw : forall n l a, (length l <= n)%nat -> hex_decode l = Some a <-> hex_text l a).
  { induction n as [|n IH]; intros l a Hn.
    - destruct l; [|cbn in Hn; lia]. cbn [hex_decode]. split; [intros [= <-]; constructor|inversion 1; reflexivity].
    - destruct l as [|b1 [|b2 l]]; cbn [hex_decode].
      + split; [intros [= <-]; constructor|inversion 1; reflexivity].
      + split; [discriminate|inversion 1].
      + split.
        * destruct (hex_value b1) as [x|] eqn:H1; [|discriminate]. destruct (hex_value b2) as [y|] eqn:H2; [|discriminate].
          destruct (hex_decode l) as [r|] eqn:H3; [|discriminate]. intros [= <-]. apply hex_char_iff in H1, H2.
          assert (0 <= x < 16) by (unfold hex_char in H1; lia).
          assert (0 <= y < 16) by (unfold hex_char in H2; lia).
          apply (ht_byte b1 b2 x y); [assumption..| |].
          { rewrite bz_zb. apply Z.mod_small. lia. }
          { apply IH; [cbn in Hn; lia|exact H3]. }
        * inversion 1 as [|? ? x y z ? l' D1 D2 Hz Hl]; subst. apply hex_char_iff in D1, D2. rewrite D1, D2.
          apply IH in Hl; [|cbn in Hn; lia]. rewrite Hl, <- Hz, zb_bz. reflexivity. }
  intros l a. apply (Hw (length l)). lia.
Qed.
Lemma hex_text_even l a : hex_text l a -> Nat.odd (length l) = false.
Proof. induction 1; [done|]. done. Qed.
Lemma hex_text_chars l a : hex_text l a -> Forall (fun c => exists v, hex_char c v) l.
Proof. induction 1; repeat constructor; eauto. Qed.

(** * Digits *)

Lemma scan_value base ds : 0 < base <= 10 -> forall acc z,
  scan_digits base acc ds = Some z <->
  exists vs, Forall2 (fun c v => bz c = 48 + v /\ 0 <= v < base) ds vs
    /\ z = acc * base ^ Z.of_nat (length vs) + place_value base vs.
Proof.
  intros Hb. induction ds as [|c ds IH]; intros acc z; cbn [scan_digits].
  - split.
    + intros [= ->]. exists []. split; [constructor|]. cbn [length place_value].
      rewrite Z.pow_0_r. lia.
    + intros (vs & H & ->). inversion H; subst. cbn [length place_value].
      rewrite Z.pow_0_r. f_equal. lia.
  - unfold digit_of. cbv zeta. pose proof (bz_range c).
    destruct ((0 <=? bz c - 48) && (bz c - 48 <? base)) eqn:E.
    + rewrite IH. split.
      * intros (vs & H1 & ->). exists (bz c - 48 :: vs). split.
        { constructor; [lia|done]. }
        cbn [length place_value]. rewrite Nat2Z.inj_succ, Z.pow_succ_r by lia. ring.
      * intros (vs & H1 & ->). inversion H1 as [|? v ? vs' [H2 H3] H4]; subst.
        exists vs'. split; [done|]. cbn [length place_value].
        replace (bz c - 48) with v by lia.
        rewrite Nat2Z.inj_succ, Z.pow_succ_r by lia. ring.
    + split; [discriminate|]. intros (vs & H1 & _).
      inversion H1 as [|? v ? vs' [H2 H3] H4]; subst. lia.
Qed.
Lemma scan_numeral base ds z : 0 < base <= 10 ->
  scan_natural base ds = Some z <-> numeral base ds z.
Proof.
  intros Hb. unfold scan_natural, numeral. destruct ds as [|c ds].
  - split; [discriminate|]. intros [H _]. done.
  - rewrite scan_value by done. split.
    + intros (vs & H & ->). split; [done|]. exists vs. split; [done|]. lia.
    + intros (_ & vs & H & ->). exists vs. split; [done|]. lia.
Qed.
Lemma numeral_head base c ds z : numeral base (c :: ds) z -> c <> Byte.x2d /\ c <> Byte.x2b.
Proof.
  intros (_ & vs & H & _). inversion H as [|? v ? ? [H1 H2] _]; subst.
  split; intros ->; [change (bz Byte.x2d) with 45 in H1|change (bz Byte.x2b) with 43 in H1]; lia.
Qed.
Lemma SetString_iff base t z : 0 < base <= 10 ->
  SetString base t = Some z <-> signed_numeral base t z.
Proof.
  intros Hb. unfold SetString, signed_numeral. destruct t as [|c r].
  - split; [discriminate|]. intros [[H _]|[(ds & H & _)|(ds & n & H & _)]]; done.
  - destruct (is_spec c Byte.x2d) as [->|H1]; [|destruct (is_spec c Byte.x2b) as [->|H2]].
    + split.
      * destruct (scan_natural base r) as [n|] eqn:E; [|discriminate]. intros [= <-].
        apply scan_numeral in E; [|done]. right. right. eauto.
      * intros [H|[(ds & [=] & _)|(ds & n & [= ->] & H & ->)]].
        { apply numeral_head in H. tauto. }
        apply scan_numeral in H; [|done]. by rewrite H.
    + rewrite scan_numeral by done. split.
      * intros H. right. left. eauto.
      * intros [H|[(ds & [= ->] & H)|(ds & n & [=] & _)]]; [|done].
        apply numeral_head in H. tauto.
    + rewrite scan_numeral by done. split; [by left|].
      intros [H|[(ds & [= -> ->] & H)|(ds & n & [= -> ->] & _)]]; done.
Qed.

Lemma is_group_spec c : reflect (c = Byte.x5f \/ c = Byte.x2c) (is_group c).
Proof.
  unfold is_group. destruct (is_spec c Byte.x5f) as [H|H]; cbn [orb]; [constructor; auto|].
  destruct (is_spec c Byte.x2c) as [H'|H']; constructor; tauto.
Qed.
Lemma ungroup_iff t : forall ds, ungroup t = ds <-> grouped t ds.
Proof.
  induction t as [|c t IH]; intros ds; cbn [ungroup List.filter].
  - split; [intros <-; constructor|inversion 1; done].
  - fold (ungroup t). destruct (is_group_spec c) as [H|H]; cbn [negb].
    + rewrite IH. split.
      * intros H'. by apply gr_group.
      * inversion 1; subst; [tauto|done].
    + split.
      * intros <-. apply gr_char; [tauto|tauto|]. by apply IH.
      * inversion 1; subst; [|tauto]. f_equal. by apply IH.
Qed.

(** * Bytes of numbers *)

Lemma shortest_iff b n : 0 <= n -> shortest b n <-> b = be_encode n.
Proof.
  intros Hn. unfold shortest. rewrite <- be_decode_value. split.
  - intros [<- H]. symmetry. apply be_encode_decode.
    unfold no_lead0. destruct b as [|x b]; [done|]. cbn in H.
    intros H0. apply H. f_equal. rewrite <- (zb_bz x), H0. done.
  - intros ->. rewrite be_decode_encode. split; [lia|].
    pose proof (be_encode_lead n) as H. unfold no_lead0 in H.
    destruct (be_encode n) as [|x b]; [done|]. cbn. intros [= ->]. by apply H.
Qed.
Lemma be_encode_abs z : be_encode z = be_encode (Z.abs z).
Proof. unfold be_encode. by rewrite Z.abs_involutive. Qed.

Lemma unsigned_iff t b : interpretUnsignedNumber t = MOk b <-> magnitude t b.
Proof.
  unfold interpretUnsignedNumber.
  assert (Hhex : forall x h, x = Byte.x78 \/ x = Byte.x58 -> t = Byte.x30 :: x :: h ->
    (if Nat.odd (length h) then of_hex (hex_decode (Byte.x30 :: h)) else of_hex (hex_decode h)) = MOk b
    <-> magnitude t b).
  { intros x h Hx ->. split.
    - destruct (Nat.odd (length h)).
      + destruct (hex_decode (Byte.x30 :: h)) as [b'|] eqn:E; [|discriminate].
        intros [= ->]. apply hex_text_iff in E. by apply mag_hex_odd.
      + destruct (hex_decode h) as [b'|] eqn:E; [|discriminate].
        intros [= ->]. apply hex_text_iff in E. by apply mag_hex.
    - inversion 1 as [x' h' b' Hx' Hh|x' h' b' Hx' Hh|x' t' ds z b' Hx' Hg Hs Hb|t' ds z b' Hg Hs Hz Hb]; subst.
      + rewrite (hex_text_even _ _ Hh). apply hex_text_iff in Hh. by rewrite Hh.
      + pose proof (hex_text_even _ _ Hh) as Ho. cbn [length] in Ho.
        rewrite Nat.odd_succ, <- Nat.negb_odd in Ho.
        destruct (Nat.odd (length h)); [|done]. apply hex_text_iff in Hh. by rewrite Hh.
      + exfalso. destruct Hx as [->| ->], Hx' as [H1|H1]; discriminate.
      + exfalso. apply ungroup_iff in Hg.
        assert (ds = Byte.x30 :: x :: ungroup h) as ->.
        { rewrite <- Hg. destruct Hx as [->| ->]; reflexivity. }
        destruct Hs as [(_ & vs & Hv & _)|[(ds & [=] & _)|(ds & n & [=] & _)]].
        inversion Hv as [|? ? ? ? _ Hv']; subst. inversion Hv' as [|? v ? ? [H1 H2] _]; subst.
        assert (Hd : (48 <=? bz x) && (bz x <=? 57) = true) by lia.
        destruct Hx as [->| ->]; vm_compute in Hd; discriminate. }
  assert (Hbin : forall x h, x = Byte.x62 \/ x = Byte.x42 -> t = Byte.x30 :: x :: h ->
    match SetString 2 (drop 2 (ungroup t)) with Some z => MOk (be_encode z) | None => MErr end = MOk b
    <-> magnitude t b).
  { intros x h Hx ->.
    assert (drop 2 (ungroup (Byte.x30 :: x :: h)) = ungroup h) as ->
      by (destruct Hx as [->| ->]; reflexivity).
    split.
    - destruct (SetString 2 (ungroup h)) as [z|] eqn:E; [|discriminate]. intros [= <-].
      apply SetString_iff in E; [|lia].
      apply (mag_bin x h (ungroup h) z); [done|by apply ungroup_iff|done|].
      apply shortest_iff; [lia|]. apply be_encode_abs.
    - inversion 1 as [x' h' b' Hx' Hh|x' h' b' Hx' Hh|x' t' ds z b' Hx' Hg Hs Hb|t' ds z b' Hg Hs Hz Hb]; subst.
      + exfalso. destruct Hx as [->| ->], Hx' as [H1|H1]; discriminate.
      + exfalso. destruct Hx as [->| ->], Hx' as [H1|H1]; discriminate.
      + apply ungroup_iff in Hg. rewrite Hg. apply SetString_iff in Hs; [|lia]. rewrite Hs.
        apply shortest_iff in Hb; [|lia]. rewrite Hb, be_encode_abs. done.
      + exfalso. apply ungroup_iff in Hg.
        assert (ds = Byte.x30 :: x :: ungroup h) as ->.
        { rewrite <- Hg. destruct Hx as [->| ->]; reflexivity. }
        destruct Hs as [(_ & vs & Hv & _)|[(ds & [=] & _)|(ds & n & [=] & _)]].
        inversion Hv as [|? ? ? ? _ Hv']; subst. inversion Hv' as [|? v ? ? [H1 H2] _]; subst.
        assert (Hd : (48 <=? bz x) && (bz x <=? 57) = true) by lia.
        destruct Hx as [->| ->]; vm_compute in Hd; discriminate. }
  cbv zeta.
  destruct (strip (str "0x") t) as [h|] eqn:E1.
  { apply strip_some in E1. apply (Hhex Byte.x78 h); [auto|exact E1]. }
  destruct (strip (str "0X") t) as [h|] eqn:E2.
  { apply strip_some in E2. apply (Hhex Byte.x58 h); [auto|exact E2]. }
  destruct (strip (str "0b") t) as [h|] eqn:E3.
  { apply strip_some in E3. apply (Hbin Byte.x62 h); [auto|exact E3]. }
  destruct (strip (str "0B") t) as [h|] eqn:E4.
  { apply strip_some in E4. apply (Hbin Byte.x42 h); [auto|exact E4]. }
  apply strip_none in E1, E2, E3, E4. split.
  - destruct (SetString 10 (ungroup t)) as [z|] eqn:E; [|discriminate].
    destruct (Z.ltb_spec z 0) as [Hz|Hz]; [discriminate|]. intros [= <-].
    apply SetString_iff in E; [|lia].
    apply (mag_dec t (ungroup t) z); [by apply ungroup_iff|done|done|]. by apply shortest_iff.
  - inversion 1 as [x' h' b' Hx' Hh|x' h' b' Hx' Hh|x' t' ds z b' Hx' Hg Hs Hb|t' ds z b' Hg Hs Hz Hb]; subst.
    + exfalso. destruct Hx' as [->| ->]; [apply E1|apply E2]; by exists h'.
    + exfalso. destruct Hx' as [->| ->]; [apply E1|apply E2]; by exists h'.
    + exfalso. destruct Hx' as [->| ->]; [apply E3|apply E4]; by exists t'.
    + apply ungroup_iff in Hg. rewrite Hg. apply SetString_iff in Hs; [|lia]. rewrite Hs.
      destruct (Z.ltb_spec z 0); [lia|]. apply shortest_iff in Hb; [|lia]. by rewrite Hb.
Qed.

(** A width never is zero below. *)
Lemma widened_iff w m b : (length m <= w)%nat ->
  widened w m b <-> b = CopyAlignRight m w.
Proof.
  intros H. unfold widened, CopyAlignRight.
  replace (length m - w)%nat with 0%nat by lia. rewrite drop_0. split.
  - intros (k & -> & Hl). rewrite app_length, replicate_length in Hl.
    by replace (w - length m)%nat with k by lia.
  - intros ->. exists (w - length m)%nat. split; [done|].
    rewrite app_length, replicate_length. lia.
Qed.
Lemma widened_fits w m b : widened w m b -> (length m <= w)%nat.
Proof. intros (k & -> & H). rewrite app_length in H. lia. Qed.

Lemma wide_unsigned_iff w t b : w <> 0%nat ->
  interpretUnsignedNumberFixedWidth t w = MOk b <-> wide_unsigned w t b.
Proof.
  intros Hw. unfold interpretUnsignedNumberFixedWidth.
  destruct (Nat.eqb_spec w 0); [done|]. split.
  - destruct (interpretUnsignedNumber t) as [m| | |] eqn:E; cbn [mbind']; try discriminate.
    destruct (Nat.ltb_spec w (length m)); [discriminate|]. intros [= <-].
    apply unsigned_iff in E. apply (wu w t m); [done|]. by apply widened_iff.
  - inversion 1 as [t' m b' Hm Hwi]; subst. apply unsigned_iff in Hm. rewrite Hm. cbn [mbind'].
    pose proof (widened_fits _ _ _ Hwi). destruct (Nat.ltb_spec w (length m)); [lia|].
    apply widened_iff in Hwi; [|done]. by rewrite Hwi.
Qed.

(** Sign extension. *)
Lemma twos_extend z n : (length (twos_encode z) <= n)%nat ->
  twos_decode (replicate (n - length (twos_encode z)) (if z <? 0 then Byte.xff else Byte.x00)
               ++ twos_encode z) = z.
Proof.
  intros H. assert (Hk : forall k, twos_decode (replicate k (if z <? 0 then Byte.xff else Byte.x00)
    ++ twos_encode z) = z /\ (z < 0 -> exists c r, replicate k (if z <? 0 then Byte.xff else Byte.x00)
    ++ twos_encode z = c :: r /\ 128 <= bz c) /\ (0 <= z -> forall c r, replicate k (if z <? 0 then Byte.xff else Byte.x00)
    ++ twos_encode z = c :: r -> bz c < 128)).
  { induction k as [|k (IH1 & IH2 & IH3)].
    - cbn [replicate app]. pose proof (twos_decode_encode z) as He. split; [done|].
      split.
      + intros Hz. destruct (twos_encode z) as [|c r] eqn:E; [cbn in He; lia|].
        exists c, r. split; [done|]. rewrite twos_decode_cons in He.
        pose proof (be_decode_bound (c :: r)). destruct (Z.leb_spec 128 (bz c)); lia.
      + intros Hz c r E. rewrite E in He. rewrite twos_decode_cons in He.
        pose proof (be_decode_bound (c :: r)). destruct (Z.leb_spec 128 (bz c)); lia.
    - cbn [replicate app].
      set (l := replicate k (if z <? 0 then Byte.xff else Byte.x00) ++ twos_encode z) in *.
      destruct (Z.ltb_spec z 0) as [Hz|Hz].
      + destruct (IH2 Hz) as (c & r & El & Hc). split; [|split; [|lia]].
        * rewrite twos_decode_cons, be_decode_cons, blen_cons.
          change (bz Byte.xff) with 255. change (128 <=? 255) with true. cbn iota.
          rewrite El in IH1 |- *. rewrite twos_decode_cons in IH1.
          destruct (Z.leb_spec 128 (bz c)); [|lia]. rewrite Z.pow_add_r by (try apply blen_nonneg; lia).
          lia.
        * intros _. eexists _, _. split; [reflexivity|]. change (bz Byte.xff) with 255. lia.
      + split; [|split; [lia|]].
        * rewrite twos_decode_cons, be_decode_cons. change (bz Byte.x00) with 0.
          change (128 <=? 0) with false. cbn iota.
          destruct l as [|c r]; [cbn in IH1 |- *; lia|]. rewrite twos_decode_cons in IH1.
          specialize (IH3 Hz c r eq_refl). destruct (Z.leb_spec 128 (bz c)); lia.
        * intros _ c r [= <- _]. vm_compute. done. }
  apply Hk.
Qed.

Lemma ToBytesOfLength_iff z n b : ToBytesOfLength z n = MOk b <-> twos_value b = z /\ length b = n.
Proof.
  unfold ToBytesOfLength. cbv zeta. rewrite <- twos_decode_value.
  destruct (Nat.leb_spec (length (twos_encode z)) n) as [H|H].
  - pose proof (twos_extend z n H) as Hx. split.
    + intros [= <-]. split; [done|]. rewrite app_length, replicate_length. lia.
    + intros [H1 H2]. f_equal. apply twos_inj_len; [|congruence].
      rewrite app_length, replicate_length. lia.
  - split; [discriminate|]. intros [H1 H2]. apply twos_minimal in H1. lia.
Qed.

Lemma sign_split c :
  (c = Byte.x2d \/ c = Byte.x2b) -> is c Byte.x2d || is c Byte.x2b = true.
Proof. intros [->| ->]; reflexivity. Qed.
Lemma sign_other c : c <> Byte.x2d -> c <> Byte.x2b -> is c Byte.x2d || is c Byte.x2b = false.
Proof. intros H1 H2. by rewrite !is_neq. Qed.

Lemma signed_number_iff c r m : interpretUnsignedNumber r = MOk m ->
  (c = Byte.x2d \/ c = Byte.x2b) -> forall z,
  signed_number (c :: r) z <-> z = if is c Byte.x2d then - be_decode m else be_decode m.
Proof.
  intros Hm Hc z. split.
  - intros (c' & r' & m' & [= <- <-] & Hm' & H). apply unsigned_iff in Hm'.
    rewrite Hm in Hm'. injection Hm' as <-. rewrite be_decode_value.
    destruct H as [[-> ->]|[-> ->]]; [by rewrite is_neq by done|by rewrite is_eq].
  - intros ->. exists c, r, m. split; [done|]. split; [by apply unsigned_iff|].
    rewrite be_decode_value. destruct Hc as [->| ->].
    + right. by rewrite is_eq.
    + left. by rewrite is_neq by done.
Qed.

Lemma number_iff t b : interpretNumber t 0 = MOk b <-> number t b.
Proof.
  unfold interpretNumber. destruct t as [|c r].
  { split; [discriminate|]. inversion 1 as [? ? Hm H1 H2|? z ? Hs H1 H2]; subst.
    - apply unsigned_iff in Hm. discriminate Hm.
    - destruct Hs as (c & r & m & [=] & _). }
  assert (Hc : (c = Byte.x2d \/ c = Byte.x2b) \/ (c <> Byte.x2d /\ c <> Byte.x2b)).
  { destruct (is_spec c Byte.x2d); [auto|]. destruct (is_spec c Byte.x2b); auto. }
  destruct Hc as [Hc|[H1 H2]].
  - rewrite (sign_split c Hc). cbn [Nat.eqb]. split.
    + destruct (interpretUnsignedNumber r) as [m| | |] eqn:E; cbn [mbind']; try discriminate.
      intros [= <-].
      apply (nu_signed (c :: r) (if is c Byte.x2d then - be_decode m else be_decode m)).
      * by apply (signed_number_iff c r m E Hc).
      * rewrite <- twos_decode_value. apply twos_decode_encode.
      * intros b' Hb'. rewrite <- twos_decode_value in Hb'. by apply twos_minimal.
    + inversion 1 as [? ? Hm H1 H2|? z ? Hs H1 H2]; subst.
      { exfalso. cbn in H1, H2. destruct Hc as [->| ->]; done. }
      pose proof Hs as (c' & r' & m & [= <- <-] & Hm & _).
      apply unsigned_iff in Hm. rewrite Hm. cbn [mbind'].
      apply (signed_number_iff c r m Hm Hc) in Hs. rewrite <- Hs. f_equal.
      rewrite <- twos_decode_value.
      apply twos_inj_len; [|by rewrite twos_decode_encode].
      pose proof (H2 (twos_encode (twos_value b))) as H3.
      rewrite <- twos_decode_value in H3 at 1. rewrite twos_decode_encode in H3.
      specialize (H3 eq_refl).
      pose proof (twos_minimal (twos_decode b) b eq_refl).
      rewrite <- twos_decode_value in H3. lia.
  - rewrite sign_other by done. cbn [Nat.eqb]. rewrite unsigned_iff. split.
    + intros H. apply nu_unsigned; [done|cbn; congruence|cbn; congruence].
    + inversion 1 as [? ? Hm H3 H4|? z ? Hs H3 H4]; subst; [done|].
      exfalso. destruct Hs as (c' & r' & m & [= <- <-] & _ & [[-> _]|[-> _]]); done.
Qed.
Lemma wide_signed_iff w t b : w <> 0%nat ->
  interpretNumber t w = MOk b <-> wide_signed w t b.
Proof.
  intros Hw. unfold interpretNumber. destruct t as [|c r].
  { split; [discriminate|]. inversion 1 as [? ? ? Hm H1 H2|? z ? Hs H1 H2]; subst.
    - apply unsigned_iff in Hm. discriminate Hm.
    - destruct Hs as (c & r & m & [=] & _). }
  assert (Hc : (c = Byte.x2d \/ c = Byte.x2b) \/ (c <> Byte.x2d /\ c <> Byte.x2b)).
  { destruct (is_spec c Byte.x2d); [auto|]. destruct (is_spec c Byte.x2b); auto. }
  destruct (Nat.eqb_spec w 0); [done|].
  destruct Hc as [Hc|[H1 H2]].
  - rewrite (sign_split c Hc). split.
    + destruct (interpretUnsignedNumber r) as [m| | |] eqn:E; cbn [mbind']; try discriminate.
      intros H. apply ToBytesOfLength_iff in H as [H1 H2].
      apply (ws_signed w (c :: r) (twos_value b)); [|done|done].
      apply (signed_number_iff c r m E Hc). done.
    + inversion 1 as [? ? ? Hm H1 H2|? z ? Hs H1 H2]; subst.
      { exfalso. cbn in H1, H2. destruct Hc as [->| ->]; done. }
      pose proof Hs as (c' & r' & m & [= <- <-] & Hm & _).
      apply unsigned_iff in Hm. rewrite Hm. cbn [mbind'].
      apply (signed_number_iff c r m Hm Hc) in Hs. rewrite <- Hs.
      by apply ToBytesOfLength_iff.
  - rewrite sign_other by done. rewrite wide_unsigned_iff by done. split.
    + inversion 1; subst. eapply ws_unsigned; [done|cbn; congruence|cbn; congruence|done].
    + inversion 1 as [? ? ? Hm H3 H4|? z ? Hs H3 H4]; subst; [by econstructor|].
      exfalso. destruct Hs as (c' & r' & m & [= <- <-] & _ & [[-> _]|[-> _]]); done.
Qed.

Lemma nested_iff b r : nested_as b r <-> r = with_length b.
Proof.
  unfold nested_as, with_length, CopyAlignRight.
  set (l := be_encode (Z.of_nat (length b))).
  assert (Hl : be_decode l = blen b).
  { unfold l. rewrite be_decode_encode. unfold blen. lia. }
  set (f := replicate (4 - length l) Byte.x00 ++ drop (length l - 4) l).
  assert (Hf : length f = 4%nat).
  { unfold f. rewrite app_length, replicate_length, drop_length. lia. }
  assert (Hv : be_decode f = blen b mod 2 ^ 32).
  { unfold f. change (replicate (4 - length l) Byte.x00) with (replicate (4 - length l) (zb 0)).
    assert (be_decode (replicate (4 - length l) (zb 0) ++ drop (length l - 4) l)
            = be_decode (drop (length l - 4) l)) as ->.
    { rewrite be_decode_app. assert (forall k, be_decode (replicate k (zb 0)) = 0) as Hz.
      { induction k as [|k IHk]; [done|]. cbn [replicate]. rewrite be_decode_cons, IHk.
        change (bz (zb 0)) with 0. lia. }
      rewrite Hz. lia. }
    pose proof (take_drop (length l - 4) l) as Htd.
    pose proof (be_decode_app (take (length l - 4) l) (drop (length l - 4) l)) as Ha.
    rewrite Htd, Hl in Ha.
    destruct (le_lt_dec (length l) 4) as [Hle|Hlt].
    - replace (length l - 4)%nat with 0%nat in * by lia. rewrite drop_0 in *.
      cbn [take] in Ha. change (be_decode []) with 0 in Ha.
      rewrite Z.mod_small; [lia|]. pose proof (be_decode_bound l) as Hb. rewrite Hl in Hb.
      split; [lia|]. eapply Z.lt_le_trans; [apply Hb|].
      change (2 ^ 32) with (256 ^ 4). apply Z.pow_le_mono_r; [lia|]. unfold blen. lia.
    - assert (blen (drop (length l - 4) l) = 4) as H4.
      { unfold blen. rewrite drop_length. lia. }
      rewrite H4 in Ha. rewrite Ha. change (2 ^ 32) with (256 ^ 4).
      pose proof (be_decode_bound (drop (length l - 4) l)) as Hb. rewrite H4 in Hb.
      rewrite Z.add_comm, Z.mod_add by lia. rewrite Z.mod_small by lia. done. }
  split.
  - intros (l' & -> & H1 & H2). f_equal. apply be_inj_len; [congruence|].
    rewrite (be_decode_value l'), H2. congruence.
  - intros ->. exists f. split; [done|]. split; [done|]. by rewrite <- be_decode_value.
Qed.
