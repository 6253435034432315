(** Subtrees, and texts made from bytes. *)
From Coq Require Import Sorted.
From Verif Require Import Base CodecSpec CodecModel CodecProofs CallDataModel CallDataProofs
  JsonModel JsonSpec JsonProofs JsonPrintProofs MandosModel MandosSpec MandosProofs MandosExprProofs.
From Coq Require Import ZifyBool ZifyNat ZifyN.

(** * Decimal *)

Definition digits (ds : bytes) (vs : list Z) : Prop :=
  Forall2 (fun c v => bz c = 48 + v /\ 0 <= v < 10) ds vs.

Lemma place_app a b : place_value 10 (a ++ b)
  = place_value 10 a * 10 ^ Z.of_nat (length b) + place_value 10 b.
Proof.
  induction a as [|v a IH]; cbn [app place_value]; [lia|]. rewrite IH, app_length.
  rewrite Nat2Z.inj_add, Z.pow_add_r by lia. ring.
Qed.

Lemma dec_digits_spec f : forall z acc, 0 <= z < 10 ^ Z.of_nat f ->
  exists ds vs, dec_digits f z acc = ds ++ acc /\ digits ds vs /\ place_value 10 vs = z
    /\ (z <> 0 -> ds <> []).
Proof.
  induction f as [|f IH]; intros z acc Hz.
  - cbn in Hz. exists [], []. split_and!; [done|constructor|cbn; lia|lia].
  - cbn [dec_digits]. destruct (Z.leb_spec z 0) as [H|H].
    + exists [], []. split_and!; [done|constructor|cbn; lia|lia].
    + destruct (IH (z / 10) (zb (48 + z mod 10) :: acc)) as (ds & vs & H1 & H2 & H3 & H4).
      { rewrite Nat2Z.inj_succ, Z.pow_succ_r in Hz by lia. split; [apply Z.div_pos; lia|].
        apply Z.div_lt_upper_bound; lia. }
      exists (ds ++ [zb (48 + z mod 10)]), (vs ++ [z mod 10]).
      pose proof (Z.mod_pos_bound z 10 ltac:(lia)). split_and!.
      * rewrite H1, <- app_assoc. done.
      * apply Forall2_app; [done|]. constructor; [|constructor].
        rewrite bz_zb by lia. lia.
      * rewrite place_app, H3. cbn. pose proof (Z.div_mod z 10 ltac:(lia)). lia.
      * intros _. by destruct ds.
Qed.

Lemma log2_digits z : 0 < z -> z < 10 ^ Z.of_nat (S (Z.to_nat (Z.log2 z))).
Proof.
  intros Hz. pose proof (Z.log2_spec z Hz) as [_ H]. pose proof (Z.log2_nonneg z).
  rewrite Nat2Z.inj_succ, Z2Nat.id by lia.
  eapply Z.lt_le_trans; [exact H|]. apply Z.pow_le_mono_l. lia.
Qed.

Lemma decimal_numeral z : 0 <= z -> numeral 10 (decimal z) z.
Proof.
  intros Hz. unfold decimal. destruct (Z.eqb_spec z 0) as [->|Hn].
  - split; [done|]. exists [0]. split; [|reflexivity]. constructor; [|constructor].
    change (bz Byte.x30) with 48. lia.
  - destruct (Z.ltb_spec z 0); [lia|]. rewrite Z.abs_eq by lia.
    destruct (dec_digits_spec (S (Z.to_nat (Z.log2 z))) z []) as (ds & vs & H1 & H2 & H3 & H4).
    { split; [done|]. apply log2_digits. lia. }
    rewrite H1, app_nil_r. cbn [app]. split; [by apply H4|]. exists vs. done.
Qed.

Lemma digit_char c v : bz c = 48 + v -> 0 <= v < 10 ->
  c <> Byte.x5f /\ c <> Byte.x2c /\ c <> Byte.x2b /\ c <> Byte.x2d /\ c <> bar.
Proof.
  intros H1 H2. split_and!; intros ->; revert H1.
  - change (bz Byte.x5f) with 95. lia.
  - change (bz Byte.x2c) with 44. lia.
  - change (bz Byte.x2b) with 43. lia.
  - change (bz Byte.x2d) with 45. lia.
  - change (bz bar) with 124. lia.
Qed.
Lemma numeral_chars ds z : numeral 10 ds z ->
  grouped ds ds /\ bar ∉ ds /\ head ds <> Some Byte.x2b /\ head ds <> Some Byte.x2d.
Proof.
  intros (_ & vs & H & _). induction H as [|c v ds vs [H1 H2] H IH].
  - split_and!; [constructor|apply not_elem_of_nil|done|done].
  - destruct (digit_char c v H1 H2) as (A1 & A2 & A3 & A4 & A5). destruct IH as (I1 & I2 & _).
    split_and!.
    + by constructor.
    + rewrite elem_of_cons. intros [E|E]; congruence.
    + cbn. congruence.
    + cbn. congruence.
Qed.

Lemma no_bar s : forallb (fun c => negb (is c bar)) s = true -> bar ∉ s.
Proof.
  intros H Hi. rewrite forallb_forall in H. apply elem_of_list_In, H in Hi.
  by rewrite is_eq in Hi.
Qed.

Section Texts.
  Context (files : bytes -> option bytes) (keccak : bytes -> bytes).
  Notation expr := (expr files keccak).
  Notation InterpretString := (InterpretString files keccak).

  Lemma number_expr t b : number t b -> bar ∉ t -> expr t b.
  Proof. intros H Hb. apply ex_atom; [done|]. by apply at_number. Qed.

  Lemma decimal_expr ds z b : numeral 10 ds z -> 0 <= z -> shortest b z -> expr ds b.
  Proof.
    intros H Hz Hb. destruct (numeral_chars _ _ H) as (H1 & H2 & H3 & H4).
    apply number_expr; [|done]. apply nu_unsigned; [|done|done].
    eapply mag_dec; [done| |done|done]. by left.
  Qed.

  (** * The notations one by one *)
  Lemma grouped_chars t ds n base : 0 < base <= 10 -> grouped t ds -> numeral base ds n ->
    bar ∉ t /\ head t <> Some Byte.x2b /\ head t <> Some Byte.x2d.
  Proof.
    intros Hb Hg (_ & vs & H & _). revert vs H.
    induction Hg as [|c t ds H1 H2 Hg IH|c t ds Hc Hg IH]; intros vs H.
    - split_and!; [apply not_elem_of_nil|done|done].
    - inversion H as [|? v ? vs' [A1 A2] A3]; subst.
      destruct (digit_char c v) as (B1 & B2 & B3 & B4 & B5); [done|lia|].
      destruct (IH _ A3) as (I1 & _). split_and!; cbn; [|congruence|congruence].
      rewrite elem_of_cons. intros [E|E]; congruence.
    - destruct (IH _ H) as (I1 & _). split_and!.
      + rewrite elem_of_cons. intros [E|E]; [|done]. destruct Hc; subst; discriminate.
      + cbn. destruct Hc; subst; discriminate.
      + cbn. destruct Hc; subst; discriminate.
  Qed.
  Lemma numeral_pos base ds n : 0 < base -> numeral base ds n -> 0 <= n.
  Proof.
    intros Hb (_ & vs & H & ->). induction H as [|c v ds vs [_ Hv] _ IH]; cbn [place_value]; [lia|].
    pose proof (Z.pow_nonneg base (Z.of_nat (length vs)) ltac:(lia)). nia.
  Qed.
  Lemma dec_unsigned t ds n : grouped t ds -> numeral 10 ds n ->
    interpretUnsignedNumber t = MOk (be_encode n).
  Proof.
    intros Hg Hn. pose proof (numeral_pos 10 ds n ltac:(lia) Hn). apply unsigned_iff.
    eapply mag_dec; [done|by left|done|]. by apply shortest_iff.
  Qed.

  Lemma interpret_decimal t ds n b : grouped t ds -> numeral 10 ds n -> shortest b n ->
    InterpretString t = MOk b.
  Proof.
    intros Hg Hn Hs. pose proof (numeral_pos 10 ds n ltac:(lia) Hn).
    destruct (grouped_chars t ds n 10 ltac:(lia) Hg Hn) as (H1 & H2 & H3).
    apply InterpretString_iff, number_expr; [|done]. apply nu_unsigned; [|done|done].
    eapply mag_dec; [done|by left|done|done].
  Qed.
  Lemma interpret_binary t ds n b : grouped t ds -> numeral 2 ds n -> shortest b n ->
    InterpretString (str "0b" ++ t) = MOk b.
  Proof.
    intros Hg Hn Hs. pose proof (numeral_pos 2 ds n ltac:(lia) Hn).
    destruct (grouped_chars t ds n 2 ltac:(lia) Hg Hn) as (H1 & H2 & H3).
    apply InterpretString_iff, number_expr.
    - apply nu_unsigned; [|done|done]. eapply mag_bin; [by left|done|by left|].
      by rewrite Z.abs_eq.
    - rewrite elem_of_app. intros [E|E]; [|done]. revert E. by apply no_bar.
  Qed.
  Lemma interpret_hex h b : hex_text h b -> InterpretString (str "0x" ++ h) = MOk b.
  Proof.
    intros H. apply InterpretString_iff, number_expr.
    - apply nu_unsigned; [|done|done]. by apply mag_hex; [left|].
    - rewrite elem_of_app. intros [E|E]; revert E; [by apply no_bar|]. by eapply hex_no.
  Qed.

  Definition sign (neg : bool) : byte := if neg then Byte.x2d else Byte.x2b.
  Lemma signed_value neg t ds n : grouped t ds -> numeral 10 ds n -> forall z,
    signed_number (sign neg :: t) z <-> z = if neg then - n else n.
  Proof.
    intros Hg Hn z. pose proof (numeral_pos 10 ds n ltac:(lia) Hn).
    rewrite (signed_number_iff _ _ _ (dec_unsigned t ds n Hg Hn)) by (destruct neg; auto).
    rewrite be_decode_encode, Z.abs_eq by lia. by destruct neg.
  Qed.
  Lemma interpret_signed neg t ds n b : grouped t ds -> numeral 10 ds n ->
    InterpretString (sign neg :: t) = MOk b <->
    twos_value b = (if neg then - n else n)
    /\ forall b', twos_value b' = twos_value b -> (length b <= length b')%nat.
  Proof.
    intros Hg Hn. destruct (grouped_chars t ds n 10 ltac:(lia) Hg Hn) as (H1 & H2 & H3).
    assert (Hb : bar ∉ sign neg :: t).
    { rewrite elem_of_cons. intros [E|E]; [|done]. by destruct neg. }
    assert (Hh : num_head (sign neg) = true) by (by destruct neg).
    unfold MandosModel.InterpretString.
    rewrite interpret_simple; [|done|by apply num_not_special|by apply num_not_special|done].
    rewrite simple_num by done. rewrite number_iff. split.
    - inversion 1 as [? ? Hm A1 A2|? z ? Hs A1 A2]; subst.
      + by destruct neg.
      + apply (signed_value neg t ds n Hg Hn) in Hs. split; [done|]. intros b' E. by apply A2.
    - intros [A1 A2]. eapply nu_signed; [by apply (signed_value neg t ds n Hg Hn)|done|].
      intros b' E. apply A2. congruence.
  Qed.

  Lemma width_nz u i w : width u i w -> w <> 0%nat.
  Proof. by destruct 1. Qed.
  Lemma width_unsigned u i w t : width u i w -> bar ∉ t ->
    InterpretString (u ++ t) = interpretUnsignedNumberFixedWidth t w.
  Proof.
    intros Hw Hb. unfold MandosModel.InterpretString. rewrite interpret_simple.
    - destruct Hw; reflexivity.
    - by destruct Hw.
    - destruct Hw; apply strip_none; reflexivity.
    - destruct Hw; apply strip_none; reflexivity.
    - rewrite elem_of_app. intros [E|E]; [|done]. revert E. destruct Hw; by apply no_bar.
  Qed.
  Lemma width_signed u i w t : width u i w -> bar ∉ t ->
    InterpretString (i ++ t) = interpretNumber t w.
  Proof.
    intros Hw Hb. unfold MandosModel.InterpretString. rewrite interpret_simple.
    - destruct Hw; reflexivity.
    - by destruct Hw.
    - destruct Hw; apply strip_none; reflexivity.
    - destruct Hw; apply strip_none; reflexivity.
    - rewrite elem_of_app. intros [E|E]; [|done]. revert E. destruct Hw; by apply no_bar.
  Qed.

  Lemma be_lead0 k m : be_decode (replicate k Byte.x00 ++ m) = be_decode m.
  Proof.
    induction k as [|k IH]; [done|]. cbn [replicate app]. rewrite be_decode_cons.
    change (bz Byte.x00) with 0. lia.
  Qed.
  Lemma widened_value w n b : 0 <= n -> widened w (be_encode n) b <-> length b = w /\ be_value b = n.
  Proof.
    intros Hn. rewrite <- be_decode_value. split.
    - intros (k & -> & Hl). split; [done|]. rewrite be_lead0, be_decode_encode. lia.
    - intros [Hl Hv]. exists (w - length (be_encode n))%nat.
      assert (Hm : (length (be_encode n) <= length b)%nat).
      { apply be_minimal; [apply be_encode_lead|]. rewrite be_decode_encode. lia. }
      split; [|done].
      apply be_inj_len; [rewrite app_length, replicate_length; lia|].
      rewrite be_lead0, be_decode_encode. lia.
  Qed.
  Lemma interpret_width u i w t ds n b : width u i w -> grouped t ds -> numeral 10 ds n ->
    InterpretString (u ++ t) = MOk b <-> length b = w /\ be_value b = n.
  Proof.
    intros Hw Hg Hn. destruct (grouped_chars t ds n 10 ltac:(lia) Hg Hn) as (H1 & H2 & H3).
    pose proof (numeral_pos 10 ds n ltac:(lia) Hn) as Hp.
    rewrite (width_unsigned u i w) by done. rewrite wide_unsigned_iff by (by eapply width_nz).
    rewrite <- widened_value by done. pose proof (dec_unsigned t ds n Hg Hn) as Hu. split.
    - inversion 1 as [? m ? A1 A2]; subst. apply unsigned_iff in A1. assert (m = be_encode n) as <- by congruence. done.
    - intros H. econstructor; [|done]. by apply unsigned_iff.
  Qed.
  Lemma interpret_signed_width u i w neg t ds n b : width u i w -> grouped t ds -> numeral 10 ds n ->
    InterpretString (i ++ sign neg :: t) = MOk b <->
    length b = w /\ twos_value b = if neg then - n else n.
  Proof.
    intros Hw Hg Hn. destruct (grouped_chars t ds n 10 ltac:(lia) Hg Hn) as (H1 & H2 & H3).
    rewrite (width_signed u i w).
    2: done.
    2:{ rewrite elem_of_cons. intros [E|E]; [|done]. by destruct neg. }
    rewrite wide_signed_iff by (by eapply width_nz). split.
    - inversion 1 as [? m ? A1 A2 A3|? z ? Hs A1 A2]; subst.
      + by destruct neg.
      + apply (signed_value neg t ds n Hg Hn) in Hs. done.
    - intros [A1 A2]. eapply ws_signed; [by apply (signed_value neg t ds n Hg Hn)|done|done].
  Qed.

  Lemma interpret_strings p s : p = str "str:" \/ p = str "``" \/ p = str "''" -> bar ∉ s ->
    InterpretString (p ++ s) = MOk s.
  Proof.
    intros Hp Hs. apply InterpretString_iff. apply ex_atom; [|by apply at_string].
    rewrite elem_of_app. intros [E|E]; [|done]. revert E.
    destruct Hp as [->|[->| ->]]; by apply no_bar.
  Qed.
  Lemma exprs_forall ts bs : exprs files keccak ts bs <-> Forall2 expr ts bs.
  Proof.
    split.
    - revert bs. induction ts as [|t ts IH]; intros bs; inversion 1; constructor; auto.
    - induction 1; constructor; auto.
  Qed.
  Lemma interpret_joined ts bs : Forall (fun t => bar ∉ t) ts -> ts <> [] ->
    ~ starts (str "file:") (joined ts) -> ~ starts (str "keccak256:") (joined ts) ->
    Forall2 (fun t b => InterpretString t = MOk b) ts bs ->
    InterpretString (joined ts) = MOk (concat bs).
  Proof.
    intros Hb Hn Hf Hk H. destruct ts as [|t [|t' ts]]; [done| |].
    - inversion H as [|? b ? bs' A1 A2]; subst. inversion A2; subst. cbn. by rewrite app_nil_r.
    - apply InterpretString_iff. apply ex_concat; [cbn; lia|done|done|done|].
      apply exprs_forall. eapply Forall2_impl; [exact H|]. intros x y. apply InterpretString_iff.
  Qed.

  (** * Subtrees *)
  Definition plain : json -> Prop := writable (fun _ => True).

  Lemma key_ltb_iff a : forall b, key_ltb a b = true <->
    exists p x y r s, a = p ++ x /\ b = p ++ y :: s
      /\ (x = [] \/ exists u, x = u :: r /\ bz u < bz y).
  Proof.
    induction a as [|c a IH]; intros b.
    - destruct b as [|y s]; cbn [key_ltb].
      + split; [discriminate|]. intros (p & x & y & r & s & _ & H & _). by destruct p.
      + split; [|done]. intros _. exists [], [], y, [], s. split_and!; [done|done|by left].
    - destruct b as [|d b]; cbn [key_ltb].
      + split; [discriminate|]. intros (p & x & y & r & s & _ & H & _). by destruct p.
      + rewrite orb_true_iff, andb_true_iff, IH. split.
        * intros [H|[H (p & x & y & r & s & -> & -> & Hx)]].
          { exists [], (c :: a), d, a, b. split_and!; [done|done|]. right. exists c. split; [done|lia]. }
          assert (c = d) as -> by (apply (f_equal zb) in H; [|]; [by rewrite !zb_bz in H|lia] || (rewrite <- (zb_bz c), <- (zb_bz d); f_equal; lia)).
          exists (d :: p), x, y, r, s. done.
        * intros (p & x & y & r & s & H1 & H2 & Hx). destruct p as [|e p].
          { cbn in H1, H2. subst x. injection H2 as -> ->. left.
            destruct Hx as [Hx|(u & Hx & Hlt)]; [discriminate|]. injection Hx as -> ->. lia. }
          injection H1 as -> ->. injection H2 as -> ->. right. split; [lia|].
          exists p, x, y, r, s. done.
  Qed.
  Lemma key_ltb_irrefl a : key_ltb a a = false.
  Proof. induction a as [|c a IH]; [done|]. cbn. rewrite IH. lia. Qed.
  Lemma key_ltb_trans a : forall b c, key_ltb a b = true -> key_ltb b c = true -> key_ltb a c = true.
  Proof.
    induction a as [|x a IH]; intros [|y b] [|z c]; cbn; try done.
    rewrite !orb_true_iff, !andb_true_iff. intros [H1|[H1 H2]] [H3|[H3 H4]].
    - left. lia.
    - left. lia.
    - left. lia.
    - right. split; [lia|]. by eapply IH.
  Qed.
  Lemma key_ltb_total a : forall b, a <> b -> key_ltb a b = false -> key_ltb b a = true.
  Proof.
    induction a as [|x a IH]; intros [|y b] Hn; cbn; try done.
    rewrite orb_false_iff, andb_false_iff, orb_true_iff, andb_true_iff. intros [H1 H2].
    destruct (Z.eqb_spec (bz x) (bz y)) as [E|E]; [|left; lia].
    right. split; [lia|]. destruct H2 as [H2|H2]; [done|]. apply IH; [|done].
    intros ->. apply Hn. f_equal. rewrite <- (zb_bz x), <- (zb_bz y). by rewrite E.
  Qed.

  Section Sort.
    Context {V : Type}.
    Definition before (a b : bytes * V) : Prop := key_ltb (fst a) (fst b) = true.
    Lemma insert_perm (kv : bytes * V) l : Permutation (insert_kv kv l) (kv :: l).
    Proof.
      induction l as [|x l IH]; cbn [insert_kv]; [done|].
      destruct (key_ltb (fst x) (fst kv)); [|done].
      rewrite IH. apply perm_swap.
    Qed.
    Lemma sorted_perm (m : list (bytes * V)) : Permutation (sorted_by_key m) m.
    Proof.
      induction m as [|kv m IH]; [done|]. unfold sorted_by_key in *. cbn [fold_right].
      rewrite insert_perm. by rewrite IH.
    Qed.
    Lemma insert_sorted (kv : bytes * V) l : StronglySorted before l ->
      fst kv ∉ map fst l -> StronglySorted before (insert_kv kv l).
    Proof.
      induction 1 as [|x l Hl IH Hx]; intros Hk; cbn [insert_kv].
      - repeat constructor.
      - cbn [map] in Hk. apply not_elem_of_cons in Hk as [Hk1 Hk2].
        destruct (key_ltb (fst x) (fst kv)) eqn:E.
        + constructor; [by apply IH|]. apply List.Forall_forall. intros y Hy.
          assert (y ∈ kv :: l) as Hy' by (rewrite <- (insert_perm kv l); by apply elem_of_list_In).
          apply elem_of_cons in Hy' as [->|Hy']; [done|].
          rewrite List.Forall_forall in Hx. by apply Hx, elem_of_list_In.
        + apply key_ltb_total in E; [|done].
          constructor; [by constructor|]. constructor; [done|].
          eapply List.Forall_impl; [|exact Hx]. intros y Hy. unfold before in *.
          by eapply key_ltb_trans.
    Qed.
    Lemma sorted_sorted (m : list (bytes * V)) : NoDup (map fst m) ->
      StronglySorted before (sorted_by_key m).
    Proof.
      induction m as [|kv m IH]; intros H; [constructor|].
      cbn [map] in H. apply NoDup_cons in H as [H1 H2].
      unfold sorted_by_key in *. cbn [fold_right]. apply insert_sorted; [by apply IH|].
      fold (sorted_by_key m).
      rewrite (Permutation_map fst (sorted_perm m)). done.
    Qed.
    Lemma sorted_unique (l1 l2 : list (bytes * V)) : StronglySorted before l1 ->
      StronglySorted before l2 -> Permutation l1 l2 -> l1 = l2.
    Proof.
      intros H1. revert l2. induction H1 as [|x l1 H1 IH Hx]; intros l2 H2 Hp.
      - symmetry. by apply Permutation_nil.
      - destruct H2 as [|y l2 H2 Hy]; [by apply Permutation_sym, Permutation_nil in Hp|].
        assert (x = y) as ->.
        { assert (Hin : x ∈ y :: l2) by (rewrite <- Hp; left).
          assert (Hin' : y ∈ x :: l1) by (rewrite Hp; left).
          apply elem_of_cons in Hin as [->|Hin]; [done|].
          apply elem_of_cons in Hin' as [->|Hin']; [done|].
          rewrite List.Forall_forall in Hx, Hy.
          apply elem_of_list_In, Hy in Hin. apply elem_of_list_In, Hx in Hin'.
          unfold before in Hin, Hin'. pose proof (key_ltb_trans _ _ _ Hin Hin') as Hf.
          rewrite key_ltb_irrefl in Hf. discriminate. }
        f_equal. apply IH; [done|]. by apply Permutation_cons_inv in Hp.
    Qed.
    Lemma sorted_of (m m' : list (bytes * V)) : NoDup (map fst m) ->
      Permutation m m' -> StronglySorted before m' -> sorted_by_key m = m'.
    Proof.
      intros Hd Hp Hs. apply sorted_unique; [by apply sorted_sorted|done|].
      by rewrite sorted_perm.
    Qed.
  End Sort.
  Lemma sorted_map {V W} (f : V -> W) (m : list (bytes * V)) :
    sorted_by_key (map (fun kv => (fst kv, f (snd kv))) m)
    = map (fun kv => (fst kv, f (snd kv))) (sorted_by_key m).
  Proof.
    induction m as [|kv m IH]; [done|]. unfold sorted_by_key in *. cbn [map fold_right].
    rewrite IH. generalize (fold_right insert_kv [] m). intros l.
    induction l as [|x l IHl]; [done|]. cbn [map insert_kv fst].
    destruct (key_ltb (fst x) (fst kv)); [|done]. cbn [map]. by rewrite IHl.
  Qed.
  Lemma before_iff (l : list (bytes * json)) :
    StronglySorted before l <-> StronglySorted key_before l.
  Proof.
    assert (forall a b : bytes * json, before a b <-> key_before a b) as H.
    { intros a b. apply key_ltb_iff. }
    split; induction 1 as [|x l Hl IH Hx]; constructor; auto;
      (eapply List.Forall_impl; [|exact Hx]); intros y; apply H.
  Qed.

  Notation Sub := (InterpretSubTree files keccak).
  Notation tree := (tree files keccak).
  Notation trees := (trees files keccak).

  Lemma concat_all_iff l b : Forall (fun v => forall b, Sub v = MOk b <-> tree v b) l ->
    concat_all (map Sub l) = MOk b <-> exists bs, trees l bs /\ b = concat bs.
  Proof.
    revert b. induction l as [|v l IH]; intros b H; cbn [map concat_all].
    - split.
      + intros [= <-]. exists []. split; [constructor|done].
      + intros (bs & Hb & ->). inversion Hb. done.
    - apply Forall_cons_1 in H as [H1 H2]. split.
      + destruct (Sub v) as [b1| | |] eqn:E; cbn [mbind']; try discriminate.
        destruct (concat_all (map Sub l)) as [b2| | |] eqn:E2; cbn [mbind']; try discriminate.
        intros [= <-]. destruct (proj1 (IH b2 H2) eq_refl) as (bs & Hb & ->).
        exists (b1 :: bs). split; [|done]. constructor; [by apply H1|done].
      + intros (bs & Hb & ->). inversion Hb as [|? b1 ? bs1 A1 A2]; subst.
        apply H1 in A1. rewrite A1. cbn [mbind'].
        rewrite (proj2 (IH (concat bs1) H2)); [done|]. eauto.
  Qed.

  Lemma subtree_iff v : plain v -> forall b, Sub v = MOk b <-> tree v b.
  Proof.
    revert v. apply (JsonPrintProofs.json_rec (fun v => plain v -> forall b, Sub v = MOk b <-> tree v b)).
    - intros s _ b. cbn [InterpretSubTree]. rewrite InterpretString_iff. split.
      + intros H. by constructor.
      + inversion 1. done.
    - intros x _ b. cbn. split; [discriminate|inversion 1].
    - intros l IH H b. inversion H as [| |l' Hl|]; subst.
      change (Sub (JList l)) with (concat_all (map Sub l)).
      assert (Forall (fun v => forall b, Sub v = MOk b <-> tree v b) l) as Hall.
      2:{ rewrite (concat_all_iff l b Hall).
        split; [intros (bs & H1 & ->); by constructor|]. inversion 1; eauto. }
      clear H b. induction IH as [|v l Hv _ IHl]; [constructor|].
        apply Forall_cons_1 in Hl as [A1 A2]. constructor; [by apply Hv|by apply IHl].
    - intros m IH H b. inversion H as [| | |m' Hm Hd]; subst.
      change (Sub (JMap m)) with (concat_all (map snd (sorted_by_key
          (map (fun kv => (fst kv, Sub (snd kv))) m)))).
      rewrite sorted_map, map_map. cbn [snd]. rewrite <- (map_map snd Sub).
      assert (Forall (fun v => forall b, Sub v = MOk b <-> tree v b)
                (map snd (sorted_by_key m))) as Hall.
      { assert (Forall (fun kv => forall b, Sub (snd kv) = MOk b <-> tree (snd kv) b) m) as Hm'.
        { clear H b Hd. induction IH as [|kv l Hv _ IHl]; [constructor|].
          apply Forall_cons_1 in Hm as [[_ A1] A2]. constructor; [by apply Hv|by apply IHl]. }
        rewrite <- (sorted_perm m) in Hm'. revert Hm'. generalize (sorted_by_key m).
        intros l Hl. induction Hl; constructor; auto. }
      rewrite (concat_all_iff _ b Hall). split.
      + intros (bs & H1 & ->). apply (tr_map _ _ m (sorted_by_key m)); [|by apply before_iff, sorted_sorted|done].
        symmetry. apply sorted_perm.
      + inversion 1 as [| |? m' bs Hp Hs Ht]; subst. exists bs. split; [|done].
        rewrite (sorted_of m m'); [done|done|done|by apply before_iff].
  Qed.

  Lemma subtree_order m m' : NoDup (map fst m) -> Permutation m m' ->
    Sub (JMap m) = Sub (JMap m').
  Proof.
    intros Hd Hp. cbn [InterpretSubTree]. rewrite !sorted_map. do 3 f_equal.
    apply sorted_of; [done| |].
    - rewrite sorted_perm. done.
    - apply sorted_sorted. by rewrite <- (Permutation_map fst Hp).
  Qed.
  Context (quote : bytes -> bytes).
  Notation Reconstruct := (Reconstruct quote).

  Lemma number_kept v : exists b, InterpretString (Reconstruct v NumberHint) = MOk b
    /\ be_value b = be_value v /\ head b <> Some Byte.x00.
  Proof.
    pose proof (be_decode_bound v) as Hv.
    exists (be_encode (be_decode v)).
    assert (shortest (be_encode (be_decode v)) (be_decode v)) as Hs by (apply shortest_iff; [lia|done]).
    split.
    - apply InterpretString_iff. cbn [MandosModel.Reconstruct].
      eapply decimal_expr; [apply decimal_numeral; lia|lia|done].
    - destruct Hs as [H1 H2]. split; [by rewrite <- (be_decode_value v)|done].
  Qed.
  Lemma number_exact v : head v <> Some Byte.x00 ->
    InterpretString (Reconstruct v NumberHint) = MOk v.
  Proof.
    intros H. destruct (number_kept v) as (b & -> & H1 & H2). f_equal.
    assert (forall x, shortest x (be_value v) -> x = be_encode (be_decode v)) as Hu.
    { intros x Hx. pose proof (be_decode_bound v). rewrite <- be_decode_value in Hx.
      apply shortest_iff in Hx; [done|lia]. }
    transitivity (be_encode (be_decode v)); [|symmetry]; apply Hu; by split.
  Qed.

  Lemma string_kept v : bar ∉ v -> InterpretString (Reconstruct v StrHint) = MOk v.
  Proof.
    intros H. apply InterpretString_iff. apply ex_atom.
    - cbn [MandosModel.Reconstruct]. rewrite elem_of_app. intros [E|E]; [|done].
      revert E. by apply no_bar.
    - apply at_string. by left.
  Qed.

  Lemma hex_encode_text v : hex_text (hex_encode v) v.
  Proof. apply hex_text_iff, hex_roundtrip. Qed.
  Lemma hex_no_bar v : bar ∉ hex_encode v.
  Proof. eapply hex_no; [apply hex_encode_text|reflexivity]. Qed.
  Lemma hex_encode_length v : length (hex_encode v) = (2 * length v)%nat.
  Proof. induction v as [|b v IH]; [done|]. cbn [hex_encode mbind list_bind app length] in *. fold (hex_encode v). lia. Qed.

  Lemma code_kept v : (length v <= 10)%nat -> InterpretString (Reconstruct v CodeHint) = MOk v.
  Proof.
    intros H. apply InterpretString_iff. cbn [MandosModel.Reconstruct]. unfold codePretty.
    destruct v as [|c v]; [constructor|]. set (w := c :: v) in *. clearbody w.
    rewrite hex_encode_length. destruct (Nat.ltb_spec 20 (2 * length w)); [lia|].
    apply number_expr.
    - apply nu_unsigned; [|done|done]. apply mag_hex; [by left|apply hex_encode_text].
    - change (bar ∉ Byte.x30 :: Byte.x78 :: hex_encode w). rewrite !elem_of_cons.
      intros [E|[E|E]]; [discriminate E|discriminate E|]. by apply hex_no_bar in E.
  Qed.

  (** A character that no number has, behind "0x". *)
  Lemma bad_hex n h c r : bar ∉ h -> c <> bar -> (forall v, ~ hex_char c v) ->
    interpret files keccak (S n) (str "0x" ++ h ++ c :: r) = MErr \/ n = 0%nat.
  Proof.
    intros Hh Hc Hx. destruct n as [|n]; [by right|]. left.
    set (t := str "0x" ++ h ++ c :: r).
    assert (Hbad : forall m q, interpret files keccak (S m) (str "0x" ++ h ++ c :: q) = MErr
             \/ bar ∈ q).
    { intros m q. destruct (decide (bar ∈ q)) as [Hq|Hq]; [by right|]. left.
      rewrite interpret_simple.
      - change (str "0x" ++ h ++ c :: q) with (Byte.x30 :: Byte.x78 :: h ++ c :: q).
        rewrite simple_num by reflexivity. unfold interpretNumber.
        change (is Byte.x30 Byte.x2d || is Byte.x30 Byte.x2b) with false. cbn iota.
        change (0 =? 0)%nat with true. cbn iota.
        unfold interpretUnsignedNumber.
        assert (forall l, (exists l1 l2, l = l1 ++ c :: l2) -> of_hex (hex_decode l) = MErr) as Ho.
        { intros l (l1 & l2 & ->). destruct (hex_decode (l1 ++ c :: l2)) as [a|] eqn:E; [|done].
          apply hex_text_iff, hex_text_chars in E. rewrite Forall_app, Forall_cons in E.
          destruct E as (_ & (v & Hv) & _). by apply Hx in Hv. }
        cbn -[hex_decode].
        destruct (Nat.odd _); apply Ho; [exists (Byte.x30 :: h), q|exists h, q]; done.
      - done.
      - apply num_not_special. done.
      - apply num_not_special. done.
      - change (bar ∉ Byte.x30 :: Byte.x78 :: h ++ c :: q).
        rewrite !elem_of_cons, elem_of_app, elem_of_cons.
        intros [E|[E|[E|[E|E]]]]; [discriminate E|discriminate E|done|congruence|done]. }
    destruct (decide (bar ∈ r)) as [Hr|Hr].
    2:{ destruct (Hbad (S n) r) as [H|H]; [exact H|done]. }
    apply elem_of_list_split_l in Hr as (q & r' & -> & Hq).
    unfold t.
    assert (Hs : split_on bar (str "0x" ++ h ++ c :: q ++ bar :: r')
               = (str "0x" ++ h ++ c :: q) :: split_on bar r').
    { replace (str "0x" ++ h ++ c :: q ++ bar :: r')
        with ((str "0x" ++ h ++ c :: q) ++ bar :: r') by (rewrite <- !app_assoc; done).
      apply split_more. change (bar ∉ Byte.x30 :: Byte.x78 :: h ++ c :: q).
      rewrite !elem_of_cons, elem_of_app, elem_of_cons.
      intros [E|[E|[E|[E|E]]]]; [discriminate E|discriminate E|done|congruence|done]. }
    rewrite interpret_concat.
    - rewrite Hs. cbn [concat_parts]. destruct (Hbad n q) as [H|H]; [|done].
      rewrite H. done.
    - done.
    - apply num_not_special. done.
    - apply num_not_special. done.
    - rewrite Hs. cbn [length]. pose proof (split_nonempty bar r').
      destruct (split_on bar r'); [done|]. cbn. lia.
  Qed.
  Lemma bad_text h c r : bar ∉ h -> c <> bar -> (forall v, ~ hex_char c v) ->
    InterpretString (str "0x" ++ h ++ c :: r) = MErr.
  Proof.
    intros H1 H2 H3. unfold MandosModel.InterpretString.
    destruct (bad_hex (length (str "0x" ++ h ++ c :: r)) h c r H1 H2 H3) as [H|H]; [done|].
    discriminate H.
  Qed.

  Lemma space_bad v : ~ hex_char Byte.x20 v.
  Proof. unfold hex_char. change (bz Byte.x20) with 32. lia. Qed.
  Lemma dot_bad v : ~ hex_char Byte.x2e v.
  Proof. unfold hex_char. change (bz Byte.x2e) with 46. lia. Qed.

  Lemma code_cut v : (10 < length v)%nat -> InterpretString (Reconstruct v CodeHint) = MErr.
  Proof.
    intros H. cbn [MandosModel.Reconstruct]. unfold codePretty.
    destruct v as [|c v]; [cbn in H; lia|]. set (w := c :: v) in *. clearbody w.
    rewrite hex_encode_length. destruct (Nat.ltb_spec 20 (2 * length w)); [|lia].
    change (str "...") with (Byte.x2e :: str ".."). apply bad_text; [|done|apply dot_bad].
    intros E. apply elem_of_take in E as (i & E & _).
    apply elem_of_list_lookup_2 in E. by apply hex_no_bar in E.
  Qed.
  Lemma unknown_bad v : v <> [] -> InterpretString (unknownByteArrayPretty quote v) = MErr.
  Proof.
    intros H. unfold unknownByteArrayPretty. destruct v as [|c v]; [done|].
    set (w := c :: v) in *. clearbody w.
    assert (forall r, InterpretString (str "0x" ++ hex_encode w ++ Byte.x20 :: r) = MErr) as Hb.
    { intros r. apply bad_text; [apply hex_no_bar|done|apply space_bad]. }
    destruct (canInterpretAsString w); [apply Hb|].
    destruct (length w <? 15)%nat; apply Hb.
  Qed.

  (** * Addresses *)
  Lemma trim_spec l : exists k, l = trim_right l ++ replicate k Byte.x5f.
  Proof.
    induction l as [|c l [k IH]]; [by exists 0%nat|]. cbn [trim_right].
    destruct (trim_right l) as [|d r] eqn:E.
    - destruct (is_spec c Byte.x5f) as [->|Hc].
      + exists (S k). rewrite IH. done.
      + exists k. rewrite IH. done.
    - exists k. rewrite IH. done.
  Qed.
  Lemma trim_fill l n : length l = n -> filled n (trim_right l) = l.
  Proof.
    intros <-. destruct (trim_spec l) as [k Hk]. unfold filled.
    apply list_eq. intros i. destruct (le_lt_dec (length l) i) as [Hi|Hi].
    - rewrite !lookup_ge_None_2; [done|done|]. rewrite take_length. lia.
    - rewrite lookup_take by done. rewrite Hk at 3.
      assert (Hl : length l = (length (trim_right l) + k)%nat).
      { rewrite Hk at 1. by rewrite app_length, replicate_length. }
      destruct (le_lt_dec (length (trim_right l)) i) as [Hj|Hj].
      + rewrite !lookup_app_r by done. rewrite !lookup_replicate_2 by lia. done.
      + rewrite !lookup_app_l by done. done.
  Qed.
  Lemma trim_in c l : c ∈ trim_right l -> c ∈ l.
  Proof. destruct (trim_spec l) as [k Hk]. intros H. rewrite Hk. apply elem_of_app. by left. Qed.

  Lemma split31 (v : bytes) : length v = 32%nat ->
    v = take 31 v ++ [default Byte.x00 (v !! 31%nat)].
  Proof.
    intros H. rewrite <- (take_drop 31 v) at 1. f_equal.
    destruct (lookup_lt_is_Some_2 v 31 ltac:(lia)) as [x Hx]. rewrite Hx. cbn.
    rewrite (drop_S _ _ _ Hx). rewrite drop_ge by lia. done.
  Qed.
  Lemma short_hex c : 16 <= bz c -> hex_short c = hex_encode [c].
  Proof. intros H. unfold hex_short. by destruct (Z.ltb_spec (bz c) 16); [lia|]. Qed.

  Lemma name_part (z : nat) (v : bytes) (x : byte) : length v = 32%nat -> (z <= 31)%nat ->
    x ∉ take 31 v -> x ∉ trim_right (drop z (take 31 v)).
  Proof.
    intros Hv Hz Hx Hi. apply trim_in in Hi. apply Hx.
    apply elem_of_list_lookup in Hi as [i Hi]. rewrite lookup_drop in Hi.
    by eapply elem_of_list_lookup_2.
  Qed.

  Lemma last_us (v : bytes) z : length v = 32%nat -> (z <= 31)%nat ->
    v !! 31%nat = Some Byte.x5f ->
    trim_right (drop z v) = trim_right (drop z (take 31 v)).
  Proof.
    intros Hv Hz Hl. rewrite (split31 v Hv) at 1. rewrite Hl. cbn [default id].
    rewrite drop_app_le by (rewrite take_length; lia).
    generalize (drop z (take 31 v)). intros l. induction l as [|c l IH]; [reflexivity|].
    cbn [app trim_right]. by rewrite IH.
  Qed.

  Lemma address_plain_text z v : length v = 32%nat -> (z <= 31)%nat ->
    take z v = replicate z Byte.x00 -> Byte.x23 ∉ take 31 v ->
    v !! 31%nat = Some Byte.x5f -> address_text z (trim_right (drop z v)) v.
  Proof.
    intros Hv Hz H0 Hn Hl.
    assert (E : v = replicate z Byte.x00 ++ filled (32 - z) (trim_right (drop z v))).
    { rewrite trim_fill by (rewrite drop_length; lia). rewrite <- H0. by rewrite take_drop. }
    rewrite E at 2. constructor. rewrite last_us by done. by apply name_part.
  Qed.
  Lemma address_shard_text z v c : length v = 32%nat -> (z <= 31)%nat ->
    take z v = replicate z Byte.x00 -> Byte.x23 ∉ take 31 v -> v !! 31%nat = Some c ->
    address_text z (trim_right (drop z (take 31 v)) ++ Byte.x23 :: hex_encode [c]) v.
  Proof.
    intros Hv Hz H0 Hn Hl.
    assert (E : v = replicate z Byte.x00 ++ filled (31 - z) (trim_right (drop z (take 31 v))) ++ [c]).
    { rewrite trim_fill by (rewrite drop_length, take_length; lia). rewrite <- H0.
      rewrite app_assoc. replace (take z v) with (take z (take 31 v))
        by (rewrite take_take; f_equal; lia). rewrite take_drop.
      rewrite (split31 v Hv) at 1. by rewrite Hl. }
    rewrite E at 2. constructor; [by apply name_part|]. apply hex_encode_text.
  Qed.

  Lemma address_kept v : length v = 32%nat -> bar ∉ take 31 v -> Byte.x23 ∉ take 31 v ->
    (take 8 v = replicate 8 Byte.x00 -> forall c, v !! 31%nat = Some c -> 16 <= bz c) ->
    InterpretString (Reconstruct v AddressHint) = MOk v.
  Proof.
    intros Hv Hb Hn Hs. apply InterpretString_iff. cbn [MandosModel.Reconstruct].
    unfold addressPretty. rewrite Hv. cbn [negb Nat.eqb]. cbv zeta.
    destruct (lookup_lt_is_Some_2 v 31 ltac:(lia)) as [x Hx]. rewrite Hx. cbn [default id].
    rewrite Hx in Hs.
    assert (Hbar : forall p s, bar ∉ p -> bar ∉ s -> bar ∉ p ++ s).
    { intros p s H1 H2 Hi. apply elem_of_app in Hi as [Hi|Hi]; done. }
    assert (Hsharp : forall h, bar ∉ h -> bar ∉ str "#" ++ h).
    { intros h Hh. apply Hbar; [|done]. by apply no_bar. }
    assert (Hp1 : bar ∉ str "sc:") by (by apply no_bar).
    assert (Hp2 : bar ∉ str "address:") by (by apply no_bar).
    case_bool_decide as H8.
    - destruct (is_spec x Byte.x5f) as [->|Hu].
      + apply ex_atom.
        * apply Hbar; [done|]. rewrite last_us by (lia || done). by apply name_part; [|lia|].
        * apply at_sc. by apply address_plain_text; [|lia|..].
      + rewrite short_hex by (by apply Hs). apply ex_atom.
        * apply Hbar; [done|]. apply Hbar; [by apply name_part; [|lia|]|]. apply Hsharp, hex_no_bar.
        * apply at_sc. by apply address_shard_text; [|lia|..].
    - destruct (is_spec x Byte.x5f) as [->|Hu].
      + apply ex_atom.
        * apply Hbar; [done|]. change v with (drop 0 v). rewrite last_us by (lia || done).
          by apply name_part; [|lia|].
        * apply at_address. by apply (address_plain_text 0); [|lia|..].
      + apply ex_atom.
        * apply Hbar; [done|]. apply Hbar; [by apply (name_part 0); [|lia|]|]. apply Hsharp, hex_no_bar.
        * apply at_address. by apply (address_shard_text 0); [|lia|..].
  Qed.

  Lemma address_lost v c : length v = 32%nat -> bar ∉ take 31 v ->
    Byte.x23 ∉ take 31 v ->
    take 8 v = replicate 8 Byte.x00 -> v !! 31%nat = Some c -> bz c < 16 ->
    InterpretString (Reconstruct v AddressHint) = MErr.
  Proof.
    intros Hv Hb Hn H8 Hc Hl. cbn [MandosModel.Reconstruct].
    unfold addressPretty. rewrite Hv. cbn [negb Nat.eqb]. cbv zeta. rewrite Hc. cbn [default id].
    rewrite bool_decide_eq_true_2 by done.
    rewrite is_neq. 2:{ intros ->. change (bz Byte.x5f) with 95 in Hl. lia. }
    unfold hex_short. destruct (Z.ltb_spec (bz c) 16); [|lia].
    set (name := trim_right (drop 8 (take 31 v))).
    assert (Hnb : bar ∉ name) by (by apply name_part; [|lia|]).
    assert (Hns : Byte.x23 ∉ name) by (by apply name_part; [|lia|]).
    clearbody name.
    assert (Hd : bar ∉ [hex_digit (bz c)] /\ Byte.x23 ∉ [hex_digit (bz c)]).
    { pose proof (bz_range c). rewrite !elem_of_list_singleton.
      assert (bz c = 0 \/ bz c = 1 \/ bz c = 2 \/ bz c = 3 \/ bz c = 4 \/ bz c = 5 \/ bz c = 6
        \/ bz c = 7 \/ bz c = 8 \/ bz c = 9 \/ bz c = 10 \/ bz c = 11 \/ bz c = 12 \/ bz c = 13
        \/ bz c = 14 \/ bz c = 15) as Hz by lia.
      destruct Hz as [E|[E|[E|[E|[E|[E|[E|[E|[E|[E|[E|[E|[E|[E|[E|E]]]]]]]]]]]]]]];
        rewrite E; split; discriminate. }
    unfold MandosModel.InterpretString. rewrite interpret_simple.
    - change (scExpression (name ++ Byte.x23 :: [hex_digit (bz c)]) = MErr).
      unfold scExpression, createAddressOptionalShardId.
      rewrite split_more by done. rewrite split_one by apply Hd. reflexivity.
    - done.
    - apply strip_none. reflexivity.
    - apply strip_none. reflexivity.
    - change (bar ∉ Byte.x73 :: Byte.x63 :: Byte.x3a :: name ++ Byte.x23 :: [hex_digit (bz c)]).
      rewrite !elem_of_cons, elem_of_app, (elem_of_cons _ _ Byte.x23).
      intros [E|[E|[E|[E|[E|E]]]]]; [discriminate E|discriminate E|discriminate E|done|discriminate E|].
      by apply Hd in E.
  Qed.

  Lemma address_short v : length v <> 32%nat -> v <> [] ->
    InterpretString (Reconstruct v AddressHint) = MErr.
  Proof.
    intros H Hn. cbn [MandosModel.Reconstruct]. unfold addressPretty.
    destruct (Nat.eqb_spec (length v) 32); [done|]. cbn [negb]. by apply unknown_bad.
  Qed.

End Texts.
