(** The interpreter gives expressions exactly their meaning. *)
From Coq Require Import Sorted.
From Verif Require Import Base CodecSpec CodecModel CodecProofs CallDataModel CallDataProofs
  JsonModel JsonProofs MandosModel MandosSpec MandosProofs.
From Coq Require Import ZifyBool ZifyNat ZifyN.

(** * Addresses *)

Lemma MOk_inj a b : MOk a = MOk b -> a = b.
Proof. congruence. Qed.

Lemma split_inv sep t :
  match split_on sep t with
  | [] => False
  | [x] => t = x /\ sep ∉ t
  | x :: xs => sep ∉ x /\ exists r, t = x ++ sep :: r /\ split_on sep r = xs
  end.
Proof.
  induction t as [|c t IH]; cbn.
  - split; [done|apply not_elem_of_nil].
  - pose proof (split_nonempty sep t) as Hn. destruct (is_spec c sep) as [->|Hc].
    + destruct (split_on sep t) as [|y ys] eqn:E; [done|].
      split; [apply not_elem_of_nil|]. exists t. done.
    + destruct (split_on sep t) as [|y [|z zs]]; [done| |].
      * destruct IH as [-> H]. split; [done|]. rewrite elem_of_cons. intros [H1|H1]; done.
      * destruct IH as [H (r & -> & Hr)]. split.
        { rewrite elem_of_cons. intros [H1|H1]; done. }
        exists r. done.
Qed.

Lemma filled_lookup n name i : (i < n)%nat ->
  filled n name !! i = Some (default Byte.x5f (name !! i)).
Proof.
  intros Hi. unfold filled. rewrite lookup_take by done.
  destruct (name !! i) as [c|] eqn:E.
  - rewrite lookup_app_l by (by eapply lookup_lt_Some). done.
  - apply lookup_ge_None in E. rewrite lookup_app_r by done.
    rewrite lookup_replicate_2 by lia. done.
Qed.
Lemma filled_length n name : length (filled n name) = n.
Proof. unfold filled. rewrite take_length, app_length, replicate_length. lia. Qed.

Lemma prefix_address name z : (z <= 32)%nat ->
  createAddressFromPrefix name z = replicate z Byte.x00 ++ filled (32 - z) name.
Proof.
  intros Hz. apply list_eq. intros i. unfold createAddressFromPrefix.
  rewrite list_lookup_fmap.
  destruct (le_lt_dec 32 i) as [Hi|Hi].
  - rewrite (lookup_ge_None_2 (seq 0 32)) by (rewrite seq_length; lia).
    symmetry. apply lookup_ge_None_2. rewrite app_length, replicate_length, filled_length. lia.
  - rewrite lookup_seq_lt by done. cbn [fmap option_fmap option_map].
    destruct (Nat.ltb_spec (0 + i) z) as [H|H].
    + rewrite lookup_app_l by (rewrite replicate_length; lia).
      by rewrite lookup_replicate_2 by lia.
    + rewrite lookup_app_r by (rewrite replicate_length; lia). rewrite replicate_length.
      rewrite filled_lookup by lia. cbn [Nat.add]. destruct (name !! (i - z)%nat); done.
Qed.
Lemma shard_address name z s : (z <= 31)%nat ->
  <[31%nat := s]> (replicate z Byte.x00 ++ filled (32 - z) name)
  = replicate z Byte.x00 ++ filled (31 - z) name ++ [s].
Proof.
  intros Hz. apply list_eq. intros i.
  destruct (decide (i = 31%nat)) as [->|Hi].
  - rewrite list_lookup_insert by (rewrite app_length, replicate_length, filled_length; lia).
    rewrite !lookup_app_r by (rewrite ?replicate_length, ?filled_length; lia).
    rewrite filled_length, replicate_length. by replace (31 - z - (31 - z))%nat with 0%nat by lia.
  - rewrite list_lookup_insert_ne by done.
    destruct (le_lt_dec z i) as [H|H].
    + rewrite !(lookup_app_r (replicate z _)) by (rewrite replicate_length; lia).
      rewrite replicate_length. destruct (le_lt_dec 32 i) as [H32|H32].
      * rewrite !lookup_ge_None_2; [done| |]; rewrite ?app_length, ?filled_length; cbn; lia.
      * rewrite lookup_app_l by (rewrite filled_length; lia). rewrite !filled_lookup by lia. done.
    + rewrite !lookup_app_l by (rewrite replicate_length; lia). done.
Qed.

Lemma hex_no sep h b : hex_text h b ->
  negb ((48 <=? bz sep) && (bz sep <=? 57) || (97 <=? bz sep) && (bz sep <=? 102)
        || (65 <=? bz sep) && (bz sep <=? 70)) = true -> sep ∉ h.
Proof.
  intros H Hs Hi. apply hex_text_chars in H. rewrite Forall_forall in H.
  apply H in Hi as (v & Hv). unfold hex_char in Hv. lia.
Qed.

Lemma address_iff t z b : (z <= 31)%nat ->
  createAddressOptionalShardId t z = MOk b <-> address_text z t b.
Proof.
  intros Hz. unfold createAddressOptionalShardId, decodeShardId. split.
  - pose proof (split_inv Byte.x23 t) as Hs.
    destruct (split_on Byte.x23 t) as [|name [|id [|x xs]]]; [done| | |discriminate].
    + destruct Hs as [<- Hn]. intros H. apply MOk_inj in H as <-. rewrite prefix_address by lia. by constructor.
    + destruct Hs as [Hn (r & -> & Hr)].
      destruct (hex_decode id) as [[|s [|? ?]]|] eqn:E; try discriminate. intros H. apply MOk_inj in H as <-.
      rewrite prefix_address, shard_address by lia.
      pose proof (split_inv Byte.x23 r) as Hs. rewrite Hr in Hs. destruct Hs as [-> _].
      constructor; [done|]. by apply hex_text_iff.
  - inversion 1 as [name Hn|name h s Hn Hh]; subst.
    + rewrite split_one by done. by rewrite prefix_address by lia.
    + rewrite split_more by done. rewrite split_one by (by eapply hex_no).
      apply hex_text_iff in Hh. rewrite Hh. by rewrite prefix_address, shard_address by lia.
Qed.

(** * The interpreter in two layers *)

Section Interpret.
  Context (files : bytes -> option bytes) (keccak : bytes -> bytes).
  Notation interpret := (interpret files keccak).
  Notation expr := (expr files keccak).
  Notation atom := (atom files keccak).
  Notation exprs := (exprs files keccak).

  Definition simple (again : bytes -> mres) (t : bytes) : mres :=
    if bool_decide (t = str "false") then MOk []
    else if bool_decide (t = str "true") then MOk [Byte.x01]
    else
    match strip (str "str:") t with Some r => MOk r | None =>
    match strip (str "``") t with Some r => MOk r | None =>
    match strip (str "''") t with Some r => MOk r | None =>
    match strip (str "address:") t with
    | Some r => addressExpression r | None =>
    match strip (str "sc:") t with
    | Some r => scExpression r | None =>
    match tryInterpretFixedWidth again t with
    | Some r => r
    | None => interpretNumber t 0
    end end end end end end.

  Definition body (again : bytes -> mres) (t : bytes) : mres :=
    match strip (str "file:") t with
    | Some name => of_hex (files name)
    | None =>
    match strip (str "keccak256:") t with
    | Some r => mbind' (again r) (fun b => MOk (keccak b))
    | None =>
    match split_on bar t with
    | _ :: _ :: _ => concat_parts again (split_on bar t)
    | _ => simple again t
    end end end.
  Lemma interpret_body n t : t <> [] -> interpret (S n) t = body (interpret n) t.
  Proof.
    destruct t as [|c t]; [done|]. intros _. unfold body.
    change (interpret (S n) (c :: t)) with (match strip (str "file:") (c :: t) with
      | Some name => of_hex (files name)
      | None =>
      match strip (str "keccak256:") (c :: t) with
      | Some r => mbind' (interpret n r) (fun b => MOk (keccak b))
      | None =>
      match split_on bar (c :: t) with
      | (_ :: _ :: _) as parts => concat_parts (interpret n) parts
      | _ => simple (interpret n) (c :: t)
      end end end).
    destruct (strip (str "file:") (c :: t)); [done|].
    destruct (strip (str "keccak256:") (c :: t)); [done|].
    by destruct (split_on bar (c :: t)) as [|? [|? ?]].
  Qed.
  Lemma interpret_file n name :
    interpret (S n) (str "file:" ++ name) = of_hex (files name).
  Proof. reflexivity. Qed.
  Lemma interpret_keccak n t :
    interpret (S n) (str "keccak256:" ++ t)
    = mbind' (interpret n t) (fun b => MOk (keccak b)).
  Proof. reflexivity. Qed.
  Lemma interpret_concat n t : t <> [] ->
    ~ starts (str "file:") t -> ~ starts (str "keccak256:") t ->
    (2 <= length (split_on bar t))%nat ->
    interpret (S n) t = concat_parts (interpret n) (split_on bar t).
  Proof.
    intros Ht H1 H2 H3. apply strip_none in H1, H2. rewrite interpret_body by done.
    unfold body. rewrite H1, H2.
    destruct (split_on bar t) as [|x [|y l]]; cbn in H3; [lia|lia|done].
  Qed.
  Lemma interpret_simple n t : t <> [] ->
    ~ starts (str "file:") t -> ~ starts (str "keccak256:") t -> bar ∉ t ->
    interpret (S n) t = simple (interpret n) t.
  Proof.
    intros Ht H1 H2 H3. apply strip_none in H1, H2. rewrite interpret_body by done.
    unfold body. rewrite H1, H2. by rewrite split_one by done.
  Qed.

  (** * Numbers do not look like anything else *)
  Definition num_head (c : byte) : bool :=
    ((43 <=? bz c) && (bz c <=? 57)) || (bz c =? 95).
  Lemma strip_num a p c t : num_head c = true -> num_head a = false ->
    strip (a :: p) (c :: t) = None.
  Proof.
    intros Hc Ha. cbn [strip]. rewrite is_neq; [done|]. intros ->. congruence.
  Qed.
  Lemma simple_num again c t : num_head c = true ->
    simple again (c :: t) = interpretNumber (c :: t) 0.
  Proof.
    intros Hc. unfold simple, tryInterpretFixedWidth.
    assert (forall s, num_head (List.hd Byte.x00 s) = false -> s <> [] ->
              strip s (c :: t) = None) as Hs.
    { intros [|a p] Ha Hn; [done|]. by apply strip_num. }
    rewrite !bool_decide_eq_false_2.
    2:{ intros H. injection H as H _. rewrite H in Hc. discriminate Hc. }
    2:{ intros H. injection H as H _. rewrite H in Hc. discriminate Hc. }
    rewrite !Hs by (reflexivity || discriminate). done.
  Qed.
  Lemma magnitude_head t b : magnitude t b -> exists c r, t = c :: r /\ num_head c = true.
  Proof.
    destruct 1 as [x h b Hx Hh|x h b Hx Hh|x t ds z b Hx Hg Hs Hb|t ds z b Hg Hs Hz Hb];
      [by eexists _, _..|].
    inversion Hg as [|c t' ds' H1 H2 H3|c t' ds' H1 H2]; subst.
    - exfalso. destruct Hs as [[H _]|[(ds & [=] & _)|(ds & n & [=] & _)]]. done.
    - eexists _, _. split; [done|].
      destruct Hs as [(_ & vs & H & _)|[(ds & [= -> ->] & _)|(ds & n & [= -> ->] & _)]];
        [|done|done].
      inversion H as [|? v ? ? [H4 H5] _]; subst. unfold num_head. lia.
    - eexists _, _. split; [done|]. destruct H1 as [->| ->]; reflexivity.
  Qed.
  Lemma number_head t b : number t b -> exists c r, t = c :: r /\ num_head c = true.
  Proof.
    destruct 1 as [t b H _ _|t z b (c & r & m & -> & _ & H) _ _].
    - by eapply magnitude_head.
    - eexists _, _. split; [done|]. destruct H as [[-> _]|[-> _]]; reflexivity.
  Qed.
  Lemma num_not_special c t : num_head c = true ->
    ~ starts (str "file:") (c :: t) /\ ~ starts (str "keccak256:") (c :: t).
  Proof.
    intros Hc. split; intros [r H]; injection H as H _; rewrite H in Hc; discriminate Hc.
  Qed.

  (** * Meaning *)
  Lemma concat_parts_iff n ts b :
    (forall t b, t ∈ ts -> interpret n t = MOk b <-> expr t b) ->
    concat_parts (interpret n) ts = MOk b <-> exists bs, exprs ts bs /\ b = concat bs.
  Proof.
    revert b. induction ts as [|t ts IH]; intros b H; cbn [concat_parts].
    - split.
      + intros [= <-]. exists []. split; [constructor|done].
      + intros (bs & He & ->). inversion He. done.
    - assert (H' : forall t b, t ∈ ts -> interpret n t = MOk b <-> expr t b)
        by (intros; apply H; by right).
      split.
      + destruct (interpret n t) as [b1| | |] eqn:E; cbn [mbind']; try discriminate.
        apply H in E; [|left].
        destruct (concat_parts (interpret n) ts) as [b2| | |] eqn:E2; cbn [mbind']; try discriminate.
        intros [= <-].
        destruct (proj1 (IH b2 H') eq_refl) as (bs & Hbs & ->). exists (b1 :: bs). split; [by constructor|done].
      + intros (bs & He & ->). inversion He as [|? b1 ? bs1 H1 H2]; subst.
        apply H in H1; [|left]. rewrite H1. cbn [mbind'].
        assert (concat_parts (interpret n) ts = MOk (concat bs1)) as ->.
        { apply (IH _ H'). eauto. }
        done.
  Qed.

  Lemma split_length sep t : forall x, x ∈ split_on sep t ->
    (length x + length (split_on sep t) <= S (length t))%nat.
  Proof.
    induction t as [|c t IH]; intros x; cbn [split_on].
    - intros H. apply elem_of_list_singleton in H as ->. cbn. lia.
    - pose proof (split_nonempty sep t) as Hn.
      destruct (is c sep).
      + intros H. apply elem_of_cons in H as [->|H].
        * cbn [length]. destruct (split_on sep t) as [|y ys]; [done|].
          specialize (IH y ltac:(left)). cbn [length] in *. lia.
        * apply IH in H. cbn [length]. lia.
      + destruct (split_on sep t) as [|y ys]; [done|].
        intros H. apply elem_of_cons in H as [->|H].
        * specialize (IH y ltac:(left)). cbn [length] in *. lia.
        * specialize (IH x ltac:(by right)). cbn [length] in *. lia.
  Qed.

  Ltac pre H r := apply strip_some in H; rewrite H in *; clear H.

  Lemma simple_iff n t b :
    (forall r b, (length r < length t)%nat -> interpret n r = MOk b <-> expr r b) ->
    t <> [] -> simple (interpret n) t = MOk b <-> atom t b.
  Proof.
    intros IH Ht. split.
    - unfold simple.
      destruct (bool_decide (t = str "false")) eqn:Ef.
      { apply bool_decide_eq_true in Ef. subst t. intros [= <-]. constructor. }
      destruct (bool_decide (t = str "true")) eqn:Et.
      { apply bool_decide_eq_true in Et. subst t. intros [= <-]. constructor. }
      destruct (strip (str "str:") t) as [r|] eqn:E1.
      { apply strip_some in E1. subst t. intros [= <-]. apply at_string. auto. }
      destruct (strip (str "``") t) as [r|] eqn:E2.
      { apply strip_some in E2. subst t. intros [= <-]. apply at_string. auto. }
      destruct (strip (str "''") t) as [r|] eqn:E3.
      { apply strip_some in E3. subst t. intros [= <-]. apply at_string. auto. }
      destruct (strip (str "address:") t) as [r|] eqn:E4.
      { apply strip_some in E4. subst t. intros H. apply at_address. apply address_iff; [lia|done]. }
      destruct (strip (str "sc:") t) as [r|] eqn:E5.
      { apply strip_some in E5. subst t. intros H. apply at_sc. apply address_iff; [lia|done]. }
      unfold tryInterpretFixedWidth.
      destruct (strip (str "u64:") t) as [r|] eqn:F1.
      { apply strip_some in F1. subst t. intros H. apply at_u64. by apply wide_unsigned_iff. }
      destruct (strip (str "u32:") t) as [r|] eqn:F2.
      { apply strip_some in F2. subst t. intros H. apply at_u32. by apply wide_unsigned_iff. }
      destruct (strip (str "u16:") t) as [r|] eqn:F3.
      { apply strip_some in F3. subst t. intros H. apply at_u16. by apply wide_unsigned_iff. }
      destruct (strip (str "u8:") t) as [r|] eqn:F4.
      { apply strip_some in F4. subst t. intros H. apply at_u8. by apply wide_unsigned_iff. }
      destruct (strip (str "i64:") t) as [r|] eqn:F5.
      { apply strip_some in F5. subst t. intros H. apply at_i64. by apply wide_signed_iff. }
      destruct (strip (str "i32:") t) as [r|] eqn:F6.
      { apply strip_some in F6. subst t. intros H. apply at_i32. by apply wide_signed_iff. }
      destruct (strip (str "i16:") t) as [r|] eqn:F7.
      { apply strip_some in F7. subst t. intros H. apply at_i16. by apply wide_signed_iff. }
      destruct (strip (str "i8:") t) as [r|] eqn:F8.
      { apply strip_some in F8. subst t. intros H. apply at_i8. by apply wide_signed_iff. }
      destruct (strip (str "biguint:") t) as [r|] eqn:F9.
      { apply strip_some in F9. subst t.
        destruct (interpretUnsignedNumber r) as [m| | |] eqn:E; cbn [mbind']; try discriminate.
        intros [= <-]. apply (at_biguint files keccak r m); [by apply unsigned_iff|by apply nested_iff]. }
      destruct (strip (str "nested:") t) as [r|] eqn:F10.
      { apply strip_some in F10. subst t.
        destruct (interpret n r) as [m| | |] eqn:E; cbn [mbind']; try discriminate.
        intros [= <-]. apply (at_nested files keccak r m); [|by apply nested_iff].
        apply IH; [rewrite app_length; cbn; lia|done]. }
      intros H. apply at_number. by apply number_iff.
    - intros H. destruct H as [| |p s Hp|t b H|t b H|t b H|t b H|t b H|t b H|t b H|t b H|t b H|t b H|t m b H H'|t m b H H'|t b H].
      + reflexivity.
      + reflexivity.
      + destruct Hp as [->|[->| ->]]; reflexivity.
      + change (addressExpression t = MOk b). by apply address_iff; [lia|].
      + change (scExpression t = MOk b). by apply address_iff; [unfold SCAddressNumLeadingZeros; lia|].
      + change (interpretUnsignedNumberFixedWidth t 8 = MOk b). by apply wide_unsigned_iff.
      + change (interpretUnsignedNumberFixedWidth t 4 = MOk b). by apply wide_unsigned_iff.
      + change (interpretUnsignedNumberFixedWidth t 2 = MOk b). by apply wide_unsigned_iff.
      + change (interpretUnsignedNumberFixedWidth t 1 = MOk b). by apply wide_unsigned_iff.
      + change (interpretNumber t 8 = MOk b). by apply wide_signed_iff.
      + change (interpretNumber t 4 = MOk b). by apply wide_signed_iff.
      + change (interpretNumber t 2 = MOk b). by apply wide_signed_iff.
      + change (interpretNumber t 1 = MOk b). by apply wide_signed_iff.
      + change (mbind' (interpretUnsignedNumber t) (fun b => MOk (with_length b)) = MOk b).
        apply unsigned_iff in H. rewrite H. cbn [mbind']. apply nested_iff in H'. by rewrite H'.
      + change (mbind' (interpret n t) (fun b => MOk (with_length b)) = MOk b).
        apply IH in H; [|rewrite app_length; cbn; lia]. rewrite H. cbn [mbind'].
        apply nested_iff in H'. by rewrite H'.
      + destruct (number_head t b H) as (c & r & -> & Hc). rewrite simple_num by done.
        by apply number_iff.
  Qed.

  Lemma atom_not_special t b : atom t b ->
    t <> [] /\ ~ starts (str "file:") t /\ ~ starts (str "keccak256:") t.
  Proof.
    intros H. destruct H as [| |p s Hp|t b H|t b H|t b H|t b H|t b H|t b H|t b H|t b H|t b H|t b H|t m b H H'|t m b H H'|t b H].
    3:{ split_and!; [destruct Hp as [->|[->| ->]]; discriminate|..];
        apply strip_none; destruct Hp as [->|[->| ->]]; reflexivity. }
    15:{ destruct (number_head t b H) as (c & r & -> & Hc).
         split; [done|]. by apply num_not_special. }
    all: split_and!; [discriminate|apply strip_none; reflexivity|apply strip_none; reflexivity].
  Qed.

  Lemma interpret_iff n : forall t b, (length t < n)%nat ->
    interpret n t = MOk b <-> expr t b.
  Proof.
    induction n as [|n IH]; intros t b Hn; [lia|].
    destruct t as [|c t'].
    { cbn [MandosModel.interpret]. split.
      - intros [= <-]. constructor.
      - inversion 1 as [| | |ps bs H1 H2 H3 H4 H5 H6|? ? H1 H2]; subst; [done| |].
        + exfalso. destruct ps as [|p [|q ps]]; cbn in H1; [lia|lia|].
          rewrite joined_cons in H6 by done. destruct p; discriminate.
        + apply atom_not_special in H2 as [H2 _]. done. }
    set (t := c :: t') in *. assert (Ht : t <> []) by done. clearbody t.
    destruct (strip (str "file:") t) as [name|] eqn:E1.
    { apply strip_some in E1. subst t. rewrite interpret_file. split.
      - destruct (files name) as [f|] eqn:Ef; [|discriminate]. intros [= <-]. by constructor.
      - inversion 1 as [|name' b' Hf Hname| |ps bs H1 H2 H3 H4 H5 H6|? ? H1 H2]; subst.
        + by rewrite Hf.
        + destruct H3. eexists. exact H6.
        + apply atom_not_special in H2 as (_ & H2 & _). destruct H2. by eexists. }
    destruct (strip (str "keccak256:") t) as [r|] eqn:E2.
    { apply strip_some in E2. subst t. rewrite interpret_keccak.
      assert (Hr : (length r < n)%nat) by (rewrite app_length in Hn; cbn in Hn; lia).
      split.
      - destruct (interpret n r) as [m| | |] eqn:E; cbn [mbind']; try discriminate.
        intros [= <-]. constructor. by apply IH.
      - inversion 1 as [| |r' m Hm|ps bs H1 H2 H3 H4 H5 H6|? ? H1 H2]; subst.
        + apply IH in Hm; [|done]. by rewrite Hm.
        + destruct H4. eexists. exact H6.
        + apply atom_not_special in H2 as (_ & _ & H2). destruct H2. by eexists. }
    apply strip_none in E1, E2.
    destruct (le_lt_dec 2 (length (split_on bar t))) as [Hp|Hp].
    - rewrite interpret_concat by done.
      rewrite concat_parts_iff.
      2:{ intros x b' Hx. apply IH. apply split_length in Hx. lia. }
      split.
      + intros (bs & Hb & ->). destruct (joined_split t) as [H1 H2].
        rewrite <- H1 at 1. rewrite <- H1 in E1, E2. by apply ex_concat.
      + inversion 1 as [|name b' Hf Hname|r' m Hm|ps bs H1 H2 H3 H4 H5 H6|? ? H1 H2]; subst.
        * done.
        * destruct E1. by eexists.
        * destruct E2. by eexists.
        * rewrite split_joined; [eauto|by destruct ps|done].
        * rewrite split_one in Hp by done. cbn in Hp. lia.
    - assert (Hb : bar ∉ t).
      { pose proof (split_inv bar t) as Hi. destruct (split_on bar t) as [|x [|y l]]; [done| |].
        - by destruct Hi as [_ Hi].
        - cbn in Hp. lia. }
      rewrite interpret_simple by done.
      rewrite simple_iff; [|intros; apply IH; lia|done]. split.
      + intros H. by apply ex_atom.
      + inversion 1 as [|name b' Hf Hname|r' m Hm|ps bs H1 H2 H3 H4 H5 H6|? ? H1 H2]; subst.
        * done.
        * destruct E1. by eexists.
        * destruct E2. by eexists.
        * rewrite split_joined in Hp; [lia|by destruct ps|done].
        * done.
  Qed.

  Lemma InterpretString_iff t b : InterpretString files keccak t = MOk b <-> expr t b.
  Proof. apply interpret_iff. lia. Qed.

  (** * Other outcomes *)
  Lemma unsigned_plain t : interpretUnsignedNumber t <> MPanic /\ interpretUnsignedNumber t <> MFuel.
  Proof.
    unfold interpretUnsignedNumber, of_hex. cbv zeta.
    repeat match goal with |- context [match ?x with _ => _ end] => destruct x end; done.
  Qed.
  Lemma wide_plain t w : interpretUnsignedNumberFixedWidth t w <> MPanic
    /\ interpretUnsignedNumberFixedWidth t w <> MFuel.
  Proof.
    unfold interpretUnsignedNumberFixedWidth. pose proof (unsigned_plain t).
    destruct (interpretUnsignedNumber t) as [m| | |]; cbn [mbind']; try done.
    destruct (w =? 0)%nat; [done|]. destruct (w <? length m)%nat; done.
  Qed.
  Lemma number_plain t w : (interpretNumber t w = MPanic -> t = []) /\ interpretNumber t w <> MFuel.
  Proof.
    unfold interpretNumber. destruct t as [|c r]; [done|].
    destruct (is c Byte.x2d || is c Byte.x2b).
    - destruct (unsigned_plain r) as [H1 H2].
      destruct (interpretUnsignedNumber r) as [m| | |]; cbn [mbind']; [|done|done|done].
      destruct (w =? 0)%nat; [done|]. unfold ToBytesOfLength. cbv zeta.
      destruct (length (twos_encode _) <=? w)%nat; done.
    - destruct (w =? 0)%nat.
      + destruct (unsigned_plain (c :: r)) as [H1 H2]. done.
      + destruct (wide_plain (c :: r) w) as [H1 H2]. done.
  Qed.
  Lemma address_plain t z : createAddressOptionalShardId t z <> MPanic
    /\ createAddressOptionalShardId t z <> MFuel.
  Proof.
    unfold createAddressOptionalShardId.
    destruct (split_on Byte.x23 t) as [|a [|b [|c l]]]; try done.
    destruct (decodeShardId b); done.
  Qed.

  Lemma bare_app p t : bare_width t -> bare_width (p ++ t).
  Proof.
    intros (a & w & r & -> & H1 & H2). exists (p ++ a), w, r.
    split; [by rewrite app_assoc|done].
  Qed.
  Lemma bare_joined ts t : t ∈ ts -> bare_width t -> bare_width (joined ts).
  Proof.
    intros Hi Hb. induction ts as [|x ts IH]; [by apply not_elem_of_nil in Hi|].
    apply elem_of_cons in Hi as [<-|Hi].
    - destruct ts as [|y ts]; [done|]. rewrite joined_cons by done.
      destruct Hb as (a & w & r & -> & H1 & H2).
      exists a, w, (r ++ bar :: joined (y :: ts)). split.
      + by rewrite <- !app_assoc.
      + split; [done|]. right. destruct H2 as [->|(r' & ->)]; eexists; reflexivity.
    - destruct ts as [|y ts]; [by apply not_elem_of_nil in Hi|]. rewrite joined_cons by done.
      change (x ++ bar :: joined (y :: ts)) with (x ++ [bar] ++ joined (y :: ts)).
      apply bare_app, bare_app. by apply IH.
  Qed.

  Lemma interpret_other n : forall t, (length t < n)%nat ->
    interpret n t <> MFuel /\ (interpret n t = MPanic -> bare_width t).
  Proof.
    induction n as [|n IH]; intros t Hn; [lia|].
    destruct t as [|c t']; [done|].
    set (t := c :: t') in *. assert (Ht : t <> []) by done. clearbody t.
    destruct (strip (str "file:") t) as [name|] eqn:E1.
    { apply strip_some in E1. subst t. rewrite interpret_file. by destruct (files name). }
    destruct (strip (str "keccak256:") t) as [r|] eqn:E2.
    { apply strip_some in E2. subst t. rewrite interpret_keccak.
      destruct (IH r) as [H1 H2]; [rewrite app_length in Hn; cbn in Hn; lia|].
      destruct (interpret n r) as [m| | |]; cbn [mbind']; try done.
      split; [done|]. intros _. by apply bare_app, H2. }
    apply strip_none in E1, E2.
    destruct (le_lt_dec 2 (length (split_on bar t))) as [Hp|Hp].
    - rewrite interpret_concat by done.
      destruct (joined_split t) as [Hj _].
      assert (Hin : forall x, x ∈ split_on bar t -> (length x < n)%nat)
        by (intros x Hx; apply split_length in Hx; lia).
      assert (Hg : forall ts, (forall x, x ∈ ts -> (length x < n)%nat) ->
        concat_parts (interpret n) ts <> MFuel
        /\ (concat_parts (interpret n) ts = MPanic -> exists x, x ∈ ts /\ bare_width x)).
      { induction ts as [|x ts IHt]; intros Hx; [done|]. cbn [concat_parts].
        destruct (IH x (Hx x ltac:(left))) as [H1 H2].
        destruct (IHt ltac:(intros y Hy; apply Hx; by right)) as [H3 H4].
        destruct (interpret n x) as [b1| | |]; cbn [mbind']; try done.
        - destruct (concat_parts (interpret n) ts) as [b2| | |]; cbn [mbind']; try done.
          split; [done|]. intros _. destruct (H4 eq_refl) as (y & Hy & Hb). exists y. split; [by right|done].
        - split; [done|]. intros _. exists x. split; [left|by apply H2]. }
      destruct (Hg _ Hin) as [H1 H2]. split; [done|]. intros H.
      destruct (H2 H) as (x & Hx & Hb). rewrite <- Hj. by eapply bare_joined.
    - assert (Hb : bar ∉ t).
      { pose proof (split_inv bar t) as Hi. destruct (split_on bar t) as [|x [|y l]]; [done| |].
        - by destruct Hi as [_ Hi].
        - cbn in Hp. lia. }
      rewrite interpret_simple by done. unfold simple, tryInterpretFixedWidth.
      destruct (bool_decide (t = str "false")); [done|].
      destruct (bool_decide (t = str "true")); [done|].
      destruct (strip (str "str:") t); [done|].
      destruct (strip (str "``") t); [done|].
      destruct (strip (str "''") t); [done|].
      assert (Hadr : forall r z, createAddressOptionalShardId r z <> MFuel /\
        (createAddressOptionalShardId r z = MPanic -> bare_width t)).
      { intros r z. destruct (address_plain r z) as [H1 H2]. done. }
      assert (Hwid : forall r w, interpretUnsignedNumberFixedWidth r w <> MFuel /\
        (interpretUnsignedNumberFixedWidth r w = MPanic -> bare_width t)).
      { intros r w. destruct (wide_plain r w) as [H1 H2]. done. }
      assert (Hnum : forall p r w, strip p t = Some r ->
        (p = str "i8:" \/ p = str "i16:" \/ p = str "i32:" \/ p = str "i64:") ->
        interpretNumber r w <> MFuel /\ (interpretNumber r w = MPanic -> bare_width t)).
      { intros p r w Hs Hpp. destruct (number_plain r w) as [H1 H2]. split; [done|].
        intros H. apply H1 in H. subst r. apply strip_some in Hs.
        exists [], p, []. split; [done|]. split; [done|by left]. }
      destruct (strip (str "address:") t); [apply Hadr|].
      destruct (strip (str "sc:") t); [apply Hadr|].
      destruct (strip (str "u64:") t); [apply Hwid|].
      destruct (strip (str "u32:") t); [apply Hwid|].
      destruct (strip (str "u16:") t); [apply Hwid|].
      destruct (strip (str "u8:") t); [apply Hwid|].
      destruct (strip (str "i64:") t) eqn:F1; [apply (Hnum _ _ _ F1); auto|].
      destruct (strip (str "i32:") t) eqn:F2; [apply (Hnum _ _ _ F2); auto|].
      destruct (strip (str "i16:") t) eqn:F3; [apply (Hnum _ _ _ F3); auto|].
      destruct (strip (str "i8:") t) eqn:F4; [apply (Hnum _ _ _ F4); auto|].
      destruct (strip (str "biguint:") t) as [r|].
      { pose proof (unsigned_plain r). destruct (interpretUnsignedNumber r); cbn [mbind']; try done.
        all: destruct H; done. }
      destruct (strip (str "nested:") t) as [r|] eqn:F5.
      { apply strip_some in F5. subst t.
        destruct (IH r) as [H1 H2]; [rewrite app_length in Hn; cbn in Hn; lia|].
        destruct (interpret n r) as [m| | |]; cbn [mbind']; try done.
        split; [done|]. intros _. by apply bare_app, H2. }
      destruct (number_plain t 0) as [H1 H2]. split; [done|]. intros H. by apply H1 in H.
  Qed.
End Interpret.
