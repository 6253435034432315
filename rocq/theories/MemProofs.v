From Verif Require Import MemModel MemSpec MathProofs.
From Coq Require Import ZifyBool ZifyNat ZifyN.

Lemma window_length l off len : length (window l off len) = Z.to_nat len.
Proof. unfold window. rewrite fmap_length, seq_length. reflexivity. Qed.

Lemma window_lookup l off len i : (i < Z.to_nat len)%nat ->
  window l off len !! i = Some (default Byte.x00 (l !! (Z.to_nat off + i)%nat)).
Proof.
  intros Hi. unfold window.
  rewrite list_lookup_fmap.
  rewrite lookup_seq_lt by lia. reflexivity.
Qed.

Lemma gocopy_lookup dst src i : (i < length dst)%nat ->
  gocopy dst src !! i = if (i <? length src)%nat then src !! i else dst !! i.
Proof.
  intros Hi. unfold gocopy.
  destruct (Nat.ltb_spec i (length src)) as [Hs|Hs].
  - rewrite lookup_app_l by (rewrite take_length; lia).
    rewrite lookup_take by lia. reflexivity.
  - rewrite lookup_app_r by (rewrite take_length; lia).
    rewrite take_length, lookup_drop. f_equal. lia.
Qed.

Lemma zeros_lookup n i : (i < Z.to_nat n)%nat -> zeros n !! i = Some Byte.x00.
Proof. intros. unfold zeros. apply lookup_replicate_2. lia. Qed.

Lemma zeros_length n : length (zeros n) = Z.to_nat n.
Proof. unfold zeros. apply replicate_length. Qed.

(** A copy of [take k (drop off l)] into [len] zeros is the window, provided the
    part cut off by [k] is either complete or past the end of memory. *)
Lemma copy_window l off len k :
  0 <= off -> 0 <= len ->
  (Z.to_nat len <= k \/ length l <= Z.to_nat off + k)%nat ->
  gocopy (zeros len) (take k (drop (Z.to_nat off) l)) = window l off len.
Proof.
  intros Ho Hl Hk. apply list_eq. intros i.
  destruct (decide (i < Z.to_nat len)%nat) as [Hi|Hi].
  - rewrite gocopy_lookup by (rewrite zeros_length; lia).
    rewrite window_lookup by lia.
    rewrite take_length, drop_length.
    destruct (Nat.ltb_spec i (k `min` (length l - Z.to_nat off))) as [Hs|Hs].
    + rewrite lookup_take by lia. rewrite lookup_drop.
      destruct (lookup_lt_is_Some_2 l (Z.to_nat off + i)) as [x Hx]; [lia|].
      rewrite Hx. reflexivity.
    + rewrite zeros_lookup by lia.
      rewrite lookup_ge_None_2 by lia. reflexivity.
  - rewrite !lookup_ge_None_2; auto.
    + rewrite window_length. lia.
    + rewrite gocopy_length, zeros_length. lia.
Qed.

Lemma add_i32_case a b : in_i32 a -> in_i32 b -> 0 < b ->
  AddInt32 a b = Z.min (a + b) max_i32.
Proof.
  intros Ha Hb Hp. rewrite add_i32_exact by assumption.
  unfold in_i32, max_i32, min_i32 in *.
  destruct (decide (-2147483648 <= a + b <= 2147483647)).
  - rewrite bool_decide_true by assumption. lia.
  - rewrite bool_decide_false by assumption. lia.
Qed.

Lemma u32_nonneg z : 0 <= z <= max_i32 -> u32 z = z.
Proof. intros. apply u32_id. unfold in_u32, max_i32 in *. lia. Qed.

Lemma mem_len m : blen (m_data m) < 4294967296 -> m_length m = blen (m_data m).
Proof. intros. unfold m_length. apply u32_id. unfold in_u32. pose proof (blen_nonneg (m_data m)). lia. Qed.

(** MemLoad for every memory of less than 4 GiB. *)
Lemma memload_gen m off len :
  in_i32 off -> in_i32 len -> blen (m_data m) < 4294967296 ->
  MemLoad m off len =
    if len =? 0 then ROk [] else
    if (off <? 0) || (blen (m_data m) <? off) then RErr ErrBadBounds else
    if len <? 0 then RErr ErrNegativeLength else
    ROk (gocopy (zeros len) (take (Z.to_nat (Z.min (Z.min (off + len) max_i32) (blen (m_data m)) - off))
                                  (drop (Z.to_nat off) (m_data m)))).
Proof.
  intros Ho Hl Hm. unfold MemLoad. rewrite mem_len by assumption.
  pose proof (blen_nonneg (m_data m)) as Hn.
  destruct (Z.eqb_spec len 0); [reflexivity|].
  destruct (Z.ltb_spec off 0); simpl; [reflexivity|].
  rewrite (u32_nonneg off) by (unfold in_i32 in Ho; lia).
  destruct (Z.ltb_spec (blen (m_data m)) off); [reflexivity|].
  destruct (Z.ltb_spec len 0); [reflexivity|].
  rewrite add_i32_case by (assumption || lia).
  unfold in_i32, max_i32, min_i32 in *.
  rewrite u32_nonneg by (unfold max_i32; lia).
  destruct (Z.ltb_spec (blen (m_data m)) (Z.min (off + len) 2147483647)).
  - rewrite slice_ok by lia. simpl.
    rewrite Z.min_r by lia. reflexivity.
  - rewrite slice_ok by lia. simpl.
    rewrite (Z.min_l _ (blen (m_data m))) by lia. reflexivity.
Qed.

Lemma memload_spec m off len :
  in_i32 off -> in_i32 len -> blen (m_data m) <= max_i32 ->
  MemLoad m off len =
    if len =? 0 then ROk [] else
    if (off <? 0) || (blen (m_data m) <? off) then RErr ErrBadBounds else
    if len <? 0 then RErr ErrNegativeLength else
    ROk (window (m_data m) off len).
Proof.
  intros Ho Hl Hm. rewrite memload_gen; auto.
  2:{ unfold max_i32 in Hm. lia. }
  destruct (Z.eqb_spec len 0); [reflexivity|].
  destruct ((off <? 0) || (blen (m_data m) <? off)) eqn:E; [reflexivity|].
  destruct (Z.ltb_spec len 0); [reflexivity|].
  f_equal. unfold blen, max_i32 in *. apply copy_window; try lia.
Qed.

Lemma c03_read m off len :
  in_i32 off -> in_i32 len -> blen (m_data m) <= max_i32 ->
  ((exists e, MemLoad m off len = RErr e) <->
     len <> 0 /\ (len < 0 \/ off < 0 \/ blen (m_data m) < off)) /\
  (forall d, MemLoad m off len = ROk d -> d = window (m_data m) off len) /\
  MemLoad m off len <> RPanic.
Proof.
  intros Ho Hl Hm. rewrite memload_spec by assumption.
  destruct (Z.eqb_spec len 0) as [->|Hne].
  { split; [|split]; [split; [intros [e E]; discriminate|lia]| |discriminate].
    intros d E. injection E as <-. reflexivity. }
  destruct (Z.ltb_spec off 0); simpl.
  { split; [split; [lia|eauto]|]. split; [|discriminate]. discriminate. }
  destruct (Z.ltb_spec (blen (m_data m)) off).
  { split; [split; [lia|eauto]|]. split; [|discriminate]. discriminate. }
  destruct (Z.ltb_spec len 0).
  { split; [split; [lia|eauto]|]. split; [|discriminate]. discriminate. }
  split; [split; [intros [e E]; discriminate|lia]|].
  split; [|discriminate]. intros d E. injection E as <-. reflexivity.
Qed.

Lemma c03_inside m off len :
  0 <= off -> 0 <= len -> off + len <= blen (m_data m) -> blen (m_data m) <= max_i32 ->
  MemLoad m off len = ROk (take (Z.to_nat len) (drop (Z.to_nat off) (m_data m))).
Proof.
  intros Ho Hl Hb Hm. pose proof (blen_nonneg (m_data m)).
  assert (in_i32 off) by (unfold in_i32, max_i32, min_i32 in *; lia).
  assert (in_i32 len) by (unfold in_i32, max_i32, min_i32 in *; lia).
  rewrite memload_spec by assumption.
  destruct (Z.eqb_spec len 0) as [->|Hne]; [reflexivity|].
  destruct (Z.ltb_spec off 0); [lia|]. simpl.
  destruct (Z.ltb_spec (blen (m_data m)) off); [lia|].
  destruct (Z.ltb_spec len 0); [lia|].
  f_equal. apply list_eq. intros i.
  destruct (decide (i < Z.to_nat len)%nat) as [Hi|Hi].
  - rewrite window_lookup, lookup_take, lookup_drop by lia.
    destruct (lookup_lt_is_Some_2 (m_data m) (Z.to_nat off + i)) as [x Hx].
    { unfold blen in *. lia. }
    rewrite Hx. reflexivity.
  - rewrite !lookup_ge_None_2; auto.
    + rewrite take_length. lia.
    + rewrite window_length. lia.
Qed.

(** A memory of 2 GiB. *)
Lemma big_data_exists n : 0 <= n -> exists l : bytes, blen l = n /\
  (forall i, (i < length l)%nat -> l !! i = Some Byte.x01).
Proof.
  intros Hn. exists (replicate (Z.to_nat n) Byte.x01).
  unfold blen. rewrite replicate_length. split; [lia|].
  intros i Hi. apply lookup_replicate_2. assumption.
Qed.

Lemma memload_big l len off : blen l = 2147483648 -> len = 1 -> off = 2147483647 ->
  MemLoad (mkMem l 65536) off len = ROk [Byte.x00].
Proof.
  intros HL -> ->.
  rewrite memload_gen; cbn [m_data]; [|unfold in_i32, max_i32, min_i32; lia
                        |unfold in_i32, max_i32, min_i32; lia|lia].
  rewrite HL.
  replace (2147483648 <? 2147483647) with false by reflexivity.
  replace (Z.min (Z.min (2147483647 + 1) max_i32) 2147483648 - 2147483647) with 0 by reflexivity.
  reflexivity.
Qed.

Lemma c03_refuted : exists m off len d,
  in_i32 off /\ in_i32 len /\ blen (m_data m) < 4294967296 /\
  off + len <= blen (m_data m) /\
  MemLoad m off len = ROk d /\ d <> window (m_data m) off len.
Proof.
  destruct (big_data_exists 2147483648 ltac:(lia)) as (l & HL & HA).
  exists (mkMem l 65536), 2147483647, 1, [Byte.x00]. cbn [m_data].
  split; [unfold in_i32, max_i32, min_i32; lia|].
  split; [unfold in_i32, max_i32, min_i32; lia|].
  split; [lia|]. split; [lia|].
  split; [apply memload_big; auto|].
  intros E. assert (H : [Byte.x00] !! 0%nat = window l 2147483647 1 !! 0%nat)
    by (rewrite <- E; reflexivity).
  rewrite window_lookup in H by lia.
  rewrite HA in H by (unfold blen in HL; lia). discriminate H.
Qed.

(** * Stores *)

Lemma overwrite_length l a d : (Z.to_nat a + length d <= length l)%nat ->
  length (overwrite l a d) = length l.
Proof. intros. unfold overwrite. rewrite !app_length, take_length, drop_length. lia. Qed.

Lemma overwrite_lookup l a d i : (Z.to_nat a + length d <= length l)%nat ->
  overwrite l a d !! i =
    if (Z.to_nat a <=? i)%nat && (i <? Z.to_nat a + length d)%nat
    then d !! (i - Z.to_nat a)%nat else l !! i.
Proof.
  intros H. unfold overwrite.
  destruct (Nat.leb_spec (Z.to_nat a) i); simpl.
  - rewrite lookup_app_r by (rewrite take_length; lia).
    rewrite take_length, Nat.min_l by lia.
    destruct (Nat.ltb_spec i (Z.to_nat a + length d)).
    + rewrite lookup_app_l by lia. reflexivity.
    + rewrite lookup_app_r by lia. rewrite lookup_drop. f_equal. lia.
  - rewrite lookup_app_l by (rewrite take_length; lia).
    rewrite lookup_take by lia. reflexivity.
Qed.

Lemma grow_spec m m' : m_grow m = Some m' ->
  m_data m' = m_data m ++ zeros page_size /\ m_limit m' = m_limit m.
Proof. unfold m_grow. destruct (_ <=? _); intros E; [injection E as <-|discriminate]. auto. Qed.

(** Explicit form of a non-empty store into a memory that stays under 2 GiB. *)
Lemma memstore_spec m off d :
  in_i32 off -> d <> [] -> blen d <= max_i32 -> blen (m_data m) + page_size < max_i32 ->
  MemStore m off d =
    if off <? 0 then (m, RErr ErrBadLowerBounds) else
    match (if blen (m_data m) <? off + blen d then m_grow m else Some m) with
    | None => (m, RErr ErrGrow)
    | Some m' =>
        if blen (m_data m') <? off + blen d then (m', RErr ErrBadUpperBounds)
        else (mkMem (overwrite (m_data m') off d) (m_limit m'), ROk tt)
    end.
Proof.
  intros Ho Hne Hd Hm. unfold MemStore.
  assert (0 < blen d) as Hp. { destruct d; [congruence|]. unfold blen. simpl. lia. }
  pose proof (blen_nonneg (m_data m)) as Hn.
  rewrite i32_id by (unfold in_i32, max_i32, min_i32 in *; lia).
  destruct (Z.eqb_spec (blen d) 0); [lia|].
  destruct (Z.ltb_spec off 0); [reflexivity|].
  rewrite add_i32_case by (try assumption; unfold in_i32, max_i32, min_i32 in *; lia).
  rewrite mem_len by (unfold page_size, max_i32 in *; lia).
  rewrite u32_nonneg by (unfold in_i32, max_i32, min_i32 in *; lia).
  assert (E1 : (blen (m_data m) <? Z.min (off + blen d) max_i32) = (blen (m_data m) <? off + blen d)).
  { unfold page_size, max_i32 in *. lia. }
  rewrite E1.
  assert (Hg : forall m', (if blen (m_data m) <? off + blen d then m_grow m else Some m) = Some m' ->
             blen (m_data m') <= max_i32).
  { intros m' E. destruct (blen (m_data m) <? off + blen d).
    - apply grow_spec in E as [-> _]. rewrite blen_app, blen_zeros by (unfold page_size; lia). lia.
    - injection E as <-. unfold page_size, max_i32 in *; lia. }
  destruct (if blen (m_data m) <? off + blen d then m_grow m else Some m) as [m'|] eqn:EM; [|reflexivity].
  specialize (Hg _ eq_refl).
  pose proof (blen_nonneg (m_data m')) as Hn'.
  rewrite mem_len by (unfold page_size, max_i32 in *; lia).
  destruct (decide (off + blen d <= max_i32)) as [Hle|Hgt].
  - rewrite Z.min_l by assumption.
    destruct (Z.ltb_spec (blen (m_data m')) (off + blen d)); [reflexivity|].
    rewrite slice_ok by lia. f_equal. f_equal.
    rewrite take_ge; [reflexivity|].
    rewrite take_length, drop_length. unfold blen in *. lia.
  - rewrite Z.min_r by lia.
    destruct (Z.ltb_spec (blen (m_data m')) (off + blen d)); [|lia].
    destruct (Z.ltb_spec (blen (m_data m')) max_i32) as [Hx|Hx]; [reflexivity|].
    (* the memory would have to be exactly 2^31-1 bytes, which is impossible only
       for page multiples; excluded by the size hypothesis through growth *)
    exfalso.
    destruct (blen (m_data m) <? off + blen d) eqn:EC.
    + apply grow_spec in EM as [E _]. rewrite E, blen_app, blen_zeros in Hx by (unfold page_size; lia).
      unfold page_size, max_i32 in *. lia.
    + injection EM as <-. lia.
Qed.

Lemma written_refl l off : written l l off [].
Proof.
  intros i Hi. simpl.
  replace ((Z.to_nat off <=? i)%nat && (i <? Z.to_nat off + 0)%nat) with false by lia.
  destruct (lookup_lt_is_Some_2 l i Hi) as [x Hx]. rewrite Hx. reflexivity.
Qed.

Lemma written_grow l off n : written l (l ++ zeros n) off [].
Proof.
  intros i Hi. simpl.
  replace ((Z.to_nat off <=? i)%nat && (i <? Z.to_nat off + 0)%nat) with false by lia.
  rewrite app_length, zeros_length in Hi.
  destruct (decide (i < length l)%nat).
  - rewrite lookup_app_l by assumption.
    destruct (lookup_lt_is_Some_2 l i) as [x Hx]; [assumption|]. rewrite Hx. reflexivity.
  - rewrite lookup_app_r, zeros_lookup by lia.
    rewrite lookup_ge_None_2 by lia. reflexivity.
Qed.

Lemma written_overwrite l l1 off d : written l l1 off [] ->
  (Z.to_nat off + length d <= length l1)%nat ->
  written l (overwrite l1 off d) off d.
Proof.
  intros W H i Hi. rewrite overwrite_length in Hi by assumption.
  rewrite overwrite_lookup by assumption.
  destruct ((Z.to_nat off <=? i)%nat && (i <? Z.to_nat off + length d)%nat) eqn:E; [reflexivity|].
  rewrite (W i Hi). simpl.
  replace ((Z.to_nat off <=? i)%nat && (i <? Z.to_nat off + 0)%nat) with false by lia.
  reflexivity.
Qed.

Lemma memstore_nil m off : MemStore m off [] = (m, ROk tt).
Proof. reflexivity. Qed.

Lemma grow_some_iff m : (exists m', m_grow m = Some m') <->
  blen (m_data m) + page_size <= m_limit m * page_size.
Proof.
  unfold m_grow. destruct (Z.leb_spec (blen (m_data m) + page_size) (m_limit m * page_size)).
  - split; eauto.
  - split; [intros [? E]; discriminate|lia].
Qed.

Lemma c04_store m off d m' r :
  in_i32 off -> blen d <= max_i32 -> blen (m_data m) + page_size < max_i32 ->
  MemStore m off d = (m', r) ->
  r <> RPanic /\
  (r = ROk tt <-> d = [] \/ (0 <= off /\
     (off + blen d <= blen (m_data m) \/
      (off + blen d <= blen (m_data m) + page_size /\
       blen (m_data m) + page_size <= m_limit m * page_size)))) /\
  (r = ROk tt -> written (m_data m) (m_data m') off d) /\
  (r <> ROk tt -> written (m_data m) (m_data m') off []) /\
  (r = ROk tt -> d = [] \/ off + blen d <= blen (m_data m')) /\
  (m_data m' = m_data m \/ blen (m_data m') = blen (m_data m) \/
   (blen (m_data m') = blen (m_data m) + page_size /\ blen (m_data m) < off + blen d)) /\
  m_limit m' = m_limit m.
Proof.
  intros Ho Hd Hm E. destruct (decide (d = [])) as [->|Hne].
  { rewrite memstore_nil in E. injection E as <- <-.
    split; [discriminate|]. split; [split; auto|]. split; [intros _; apply written_refl|].
    split; [congruence|]. auto. }
  rewrite memstore_spec in E by assumption.
  assert (0 < blen d) as Hp. { destruct d; [congruence|]. unfold blen. simpl. lia. }
  destruct (Z.ltb_spec off 0) as [Hneg|Hpos].
  { injection E as <- <-. split; [discriminate|].
    split; [split; [discriminate|intros [?|?]; [congruence|lia]]|].
    split; [discriminate|]. split; [intros _; apply written_refl|]. split; [discriminate|]. auto. }
  destruct (Z.ltb_spec (blen (m_data m)) (off + blen d)) as [Hg|Hg].
  - destruct (m_grow m) as [m1|] eqn:G.
    + assert (HG : blen (m_data m) + page_size <= m_limit m * page_size) by (apply grow_some_iff; eauto).
      apply grow_spec in G as [Gd Gl].
      assert (L1 : blen (m_data m1) = blen (m_data m) + page_size).
      { rewrite Gd, blen_app, blen_zeros by (unfold page_size; lia). reflexivity. }
      destruct (Z.ltb_spec (blen (m_data m1)) (off + blen d)) as [Hl|Hl]; injection E as <- <-.
      * split; [discriminate|].
        split; [split; [discriminate|intros [?|?]; [congruence|lia]]|].
        split; [discriminate|]. split; [intros _; rewrite Gd; apply written_grow|].
        split; [discriminate|]. auto.
      * assert (HB : (Z.to_nat off + length d <= length (m_data m1))%nat) by (unfold blen in *; lia).
        split; [discriminate|].
        split; [split; [intros _; right; lia|reflexivity]|].
        cbn [m_data m_limit].
        split; [intros _; apply written_overwrite; [rewrite Gd; apply written_grow|assumption]|].
        split; [congruence|].
        unfold blen in *. rewrite overwrite_length by assumption.
        split; [right; lia|]. split; [right; right; lia|assumption].
    + assert (HG : ~ blen (m_data m) + page_size <= m_limit m * page_size).
      { intros C. apply grow_some_iff in C as [? C]. congruence. }
      injection E as <- <-. split; [discriminate|].
      split; [split; [discriminate|intros [?|?]; [congruence|lia]]|].
      split; [discriminate|]. split; [intros _; apply written_refl|]. split; [discriminate|]. auto.
  - destruct (Z.ltb_spec (blen (m_data m)) (off + blen d)) as [Hl|Hl]; [lia|]. injection E as <- <-.
    assert (HB : (Z.to_nat off + length d <= length (m_data m))%nat) by (unfold blen in *; lia).
    split; [discriminate|].
    split; [split; [intros _; right; lia|reflexivity]|].
    cbn [m_data m_limit].
    split; [intros _; apply written_overwrite; [apply written_refl|assumption]|].
    split; [congruence|].
    unfold blen in *. rewrite overwrite_length by assumption.
    split; [right; lia|]. auto.
Qed.

Lemma c04_load_back m off d m' :
  in_i32 off -> blen d <= max_i32 -> blen (m_data m) + page_size < max_i32 ->
  MemStore m off d = (m', ROk tt) -> MemLoad m' off (blen d) = ROk d.
Proof.
  intros Ho Hd Hm E. destruct (decide (d = [])) as [->|Hne].
  { unfold MemLoad. reflexivity. }
  pose proof (c04_store _ _ _ _ _ Ho Hd Hm E) as (_ & Hok & Hw & _ & Hb & HL & _).
  specialize (Hw eq_refl). destruct (proj1 Hok eq_refl) as [?|[Hpos _]]; [congruence|].
  destruct (Hb eq_refl) as [?|Hb']; [congruence|].
  assert (blen (m_data m') <= max_i32).
  { destruct HL as [->|[->|[-> _]]]; unfold page_size, max_i32 in *; lia. }
  rewrite c03_inside; [|assumption|apply blen_nonneg|assumption|assumption].
  f_equal. apply list_eq. intros i.
  destruct (decide (i < length d)%nat) as [Hi|Hi].
  - rewrite lookup_take, lookup_drop by (unfold blen; lia).
    rewrite Hw by (unfold blen in *; lia).
    replace ((Z.to_nat off <=? Z.to_nat off + i)%nat && (Z.to_nat off + i <? Z.to_nat off + length d)%nat)
      with true by lia.
    f_equal. lia.
  - rewrite !lookup_ge_None_2; auto; [lia|]. rewrite take_length. unfold blen in *. lia.
Qed.

(** With 2 GiB of memory a store can report success without writing all data. *)
Lemma memstore_big l off d : blen l = 2147549184 -> off = 2147483646 -> d = [Byte.x02; Byte.x02] ->
  MemStore (mkMem l 65536) off d = (mkMem (overwrite l off [Byte.x02]) 65536, ROk tt).
Proof.
  intros HT Hoff ->. unfold MemStore.
  replace (i32 (blen [Byte.x02; Byte.x02])) with 2 by reflexivity.
  cbn [Z.eqb]. replace (AddInt32 off 2) with 2147483647 by (subst; reflexivity).
  replace (off <? 0) with false by (subst; reflexivity).
  rewrite mem_len by (cbn [m_data]; lia). cbn [m_data m_limit].
  replace (u32 2147483647) with 2147483647 by reflexivity.
  rewrite HT. replace (2147549184 <? 2147483647) with false by reflexivity.
  cbn [m_data m_limit].
  rewrite mem_len by (cbn [m_data]; lia). cbn [m_data m_limit]. rewrite HT.
  replace (2147549184 <? 2147483647) with false by reflexivity.
  rewrite slice_ok by lia.
  rewrite take_length, drop_length.
  replace (Z.to_nat (2147483647 - off) `min` (length l - Z.to_nat off))%nat
    with 1%nat by (unfold blen in HT; lia).
  reflexivity.
Qed.

Lemma c04_refuted : exists m off d m',
  in_i32 off /\ blen d <= max_i32 /\ off + blen d <= blen (m_data m) /\
  blen (m_data m) < 4294967296 /\
  MemStore m off d = (m', ROk tt) /\ ~ written (m_data m) (m_data m') off d.
Proof.
  destruct (big_data_exists 2147549184 ltac:(lia)) as (l & HL & HA).
  assert (exists off, off = 2147483646) as [off Hoff] by eauto.
  exists (mkMem l 65536), off, [Byte.x02; Byte.x02], (mkMem (overwrite l off [Byte.x02]) 65536).
  cbn [m_data].
  split; [unfold in_i32, max_i32, min_i32; lia|].
  split; [unfold blen, max_i32; simpl; lia|].
  split; [unfold blen in *; simpl; lia|].
  split; [lia|]. split; [apply memstore_big; auto|].
  intros W.
  assert (HB : (Z.to_nat off + length [Byte.x02] <= length l)%nat)
    by (unfold blen in HL; simpl; lia).
  specialize (W (Z.to_nat off + 1)%nat).
  rewrite overwrite_length, overwrite_lookup in W by assumption.
  specialize (W ltac:(unfold blen in HL; lia)).
  replace ((Z.to_nat off <=? Z.to_nat off + 1)%nat && (Z.to_nat off + 1 <? Z.to_nat off + length [Byte.x02])%nat)
    with false in W by (simpl length; lia).
  replace ((Z.to_nat off <=? Z.to_nat off + 1)%nat && (Z.to_nat off + 1 <? Z.to_nat off + length [Byte.x02; Byte.x02])%nat)
    with true in W by (simpl length; lia).
  replace (Z.to_nat off + 1 - Z.to_nat off)%nat with 1%nat in W by lia.
  rewrite HA in W by (unfold blen in HL; lia). discriminate W.
Qed.
