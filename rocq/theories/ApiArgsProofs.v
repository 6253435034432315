From Verif Require Import ApiArgsModel ApiArgsSpec MathProofs MemProofs CodecProofs.
From Coq Require Import ZifyBool ZifyNat ZifyN.

Lemma window_app l off a b : 0 <= off -> 0 <= a -> 0 <= b ->
  window l off (a + b) = window l off a ++ window l (off + a) b.
Proof.
  intros Ho Ha Hb. apply list_eq. intros i.
  destruct (decide (i < Z.to_nat a)%nat).
  - rewrite lookup_app_l by (rewrite window_length; lia).
    rewrite !window_lookup by lia. reflexivity.
  - rewrite lookup_app_r by (rewrite window_length; lia). rewrite window_length.
    destruct (decide (i < Z.to_nat a + Z.to_nat b)%nat).
    + rewrite !window_lookup by lia. do 3 f_equal. lia.
    + rewrite !lookup_ge_None_2; auto; rewrite window_length; lia.
Qed.

Lemma arg_lens_S l off n :
  arg_lens l off (S n) = le32_at l off :: arg_lens l (off + 4) n.
Proof.
  unfold arg_lens. cbn [seq]. rewrite fmap_cons. f_equal; [f_equal; lia|].
  apply list_eq. intros i. rewrite !list_lookup_fmap.
  destruct (decide (i < n)%nat).
  - rewrite !lookup_seq_lt by lia. cbn [fmap option_fmap option_map]. do 2 f_equal. lia.
  - rewrite !lookup_seq_ge by lia. reflexivity.
Qed.

Lemma arg_lens_length l off n : length (arg_lens l off n) = n.
Proof. unfold arg_lens. rewrite fmap_length, seq_length. reflexivity. Qed.

Lemma window4 l off : window l off 4 =
  [default Byte.x00 (l !! (Z.to_nat off + 0)%nat); default Byte.x00 (l !! (Z.to_nat off + 1)%nat);
   default Byte.x00 (l !! (Z.to_nat off + 2)%nat); default Byte.x00 (l !! (Z.to_nat off + 3)%nat)].
Proof. reflexivity. Qed.

Lemma chunks_window l off n : 0 <= off ->
  int32_chunks (window l off (Z.of_nat n * 4)) = ROk (arg_lens l off n).
Proof.
  revert off. induction n as [|n IH]; intros off Ho; [reflexivity|].
  replace (Z.of_nat (S n) * 4) with (4 + Z.of_nat n * 4) by lia.
  rewrite window_app, window4 by lia. cbn [app int32_chunks].
  rewrite IH by lia. rewrite arg_lens_S. reflexivity.
Qed.

Lemma createInt32_window l off n : 0 <= off ->
  createInt32Array (window l off (Z.of_nat n * 4)) (Z.of_nat n) = ROk (arg_lens l off n).
Proof.
  intros Ho. unfold createInt32Array. rewrite chunks_window by assumption. cbn [mbind res_bind].
  rewrite arg_lens_length. destruct (Z.ltb_spec (Z.of_nat n) (Z.of_nat n)); [lia|].
  replace (Z.to_nat (Z.of_nat n) - n)%nat with 0%nat by lia. rewrite app_nil_r. reflexivity.
Qed.

Lemma le32_at_range l off : in_i32 (le32_at l off).
Proof. apply i32_range. Qed.

Lemma arg_lens_range l off n : Forall in_i32 (arg_lens l off n).
Proof. unfold arg_lens. apply Forall_fmap, Forall_true. intros i. apply le32_at_range. Qed.

(** Reading several windows.  [woff] is the (wrapped) offset the code uses, [off]
    the mathematical one; they agree while they matter. *)
Lemma loadmultiple_spec m lens : blen (m_data m) <= max_i32 -> Forall in_i32 lens ->
  forall woff off, in_i32 woff -> (woff = off \/ (blen (m_data m) < off /\ (woff < 0 \/ blen (m_data m) < woff))) ->
  (args_readable (m_data m) off lens ->
     MemLoadMultiple_loop m woff lens = ROk (arg_windows (m_data m) off lens)) /\
  (~ args_readable (m_data m) off lens -> exists e, MemLoadMultiple_loop m woff lens = RErr e).
Proof.
  intros Hm HF. pose proof (blen_nonneg (m_data m)) as Hn.
  induction HF as [|n ns Hin HF IH]; intros woff off Hw Hoff.
  { split; [reflexivity|]. simpl. tauto. }
  cbn [MemLoadMultiple_loop args_readable arg_windows].
  rewrite memload_spec by assumption.
  destruct (decide (n < 0)) as [Hneg|Hpos].
  { destruct (Z.eqb_spec n 0); [lia|]. destruct (Z.ltb_spec n 0); [|lia].
    split; [lia|]. intros _. destruct ((woff <? 0) || (blen (m_data m) <? woff)); cbn; eauto. }
  destruct (Z.eqb_spec n 0) as [->|Hnz].
  { cbn [mbind res_bind]. rewrite (Z.add_0_r woff), (Z.add_0_r off), i32_id by assumption.
    specialize (IH woff off Hw Hoff) as [IH1 IH2]. split.
    - intros (_ & _ & R). rewrite IH1 by assumption. reflexivity.
    - intros NR. destruct IH2 as [e ->]; [|cbn; eauto]. intros R. apply NR. repeat split; auto; lia. }
  destruct (Z.ltb_spec n 0); [lia|].
  destruct (decide (0 <= off <= blen (m_data m))) as [Hin'|Hout].
  - assert (woff = off) by (destruct Hoff as [|[]]; lia). subst woff.
    destruct (Z.ltb_spec off 0); [lia|]. destruct (Z.ltb_spec (blen (m_data m)) off); [lia|].
    cbn [orb mbind res_bind].
    assert (Hnext : i32 (off + n) = off + n \/
              (blen (m_data m) < off + n /\ (i32 (off + n) < 0 \/ blen (m_data m) < i32 (off + n)))).
    { destruct (decide (in_i32 (off + n))); [left; apply i32_id; assumption|].
      right. unfold in_i32, max_i32, min_i32 in *. split; [lia|]. left.
      unfold i32. replace (off + n + 2147483648) with (off + n - 2147483648 + 1 * 4294967296) by lia.
      rewrite Z.mod_add by lia. rewrite Z.mod_small by lia. lia. }
    specialize (IH (i32 (off + n)) (off + n) (i32_range _) Hnext) as [IH1 IH2]. split.
    + intros (_ & _ & R). rewrite IH1 by assumption. reflexivity.
    + intros NR. destruct IH2 as [e ->]; [|cbn; eauto]. intros R. apply NR. repeat split; auto; lia.
  - split.
    + intros (_ & [?|?] & _); [lia|]. exfalso; lia.
    + intros _. replace ((woff <? 0) || (blen (m_data m) <? woff)) with true; [cbn; eauto|].
      destruct Hoff as [->|[? ?]]; lia.
Qed.

Lemma getargs_spec m n lo d_o : blen (m_data m) <= max_i32 -> in_i32 n -> in_i32 lo -> in_i32 d_o ->
  n * 4 <= max_i32 ->
  (vector_readable (m_data m) n lo d_o ->
     getArgumentsFromMemory m n lo d_o =
       ROk (arg_windows (m_data m) d_o (arg_lens (m_data m) lo (Z.to_nat n)),
            total_len (arg_lens (m_data m) lo (Z.to_nat n)))) /\
  (~ vector_readable (m_data m) n lo d_o -> exists e, getArgumentsFromMemory m n lo d_o = RErr e).
Proof.
  intros Hm Hn Hlo Hdo H4. unfold getArgumentsFromMemory, vector_readable.
  destruct (Z.ltb_spec n 0); [split; [lia|eauto]|].
  rewrite i32_id by (unfold in_i32, max_i32, min_i32 in *; lia).
  rewrite memload_spec by (try assumption; unfold in_i32, max_i32, min_i32 in *; lia).
  destruct (Z.eqb_spec (n * 4) 0).
  { assert (n = 0) by lia. subst n. cbn. split; [reflexivity|]. intros H0. exfalso. apply H0.
    repeat split; auto; lia. }
  destruct (Z.ltb_spec lo 0); [split; [lia|cbn; eauto]|].
  destruct (Z.ltb_spec (blen (m_data m)) lo); [split; [lia|cbn; eauto]|].
  destruct (Z.ltb_spec (n * 4) 0); [lia|]. cbn [orb mbind res_bind].
  assert (E : createInt32Array (window (m_data m) lo (n * 4)) n = ROk (arg_lens (m_data m) lo (Z.to_nat n))).
  { replace n with (Z.of_nat (Z.to_nat n)) at 1 2 by lia. apply createInt32_window. assumption. }
  rewrite E. cbn [mbind res_bind]. unfold MemLoadMultiple.
  destruct (loadmultiple_spec m (arg_lens (m_data m) lo (Z.to_nat n)) Hm (arg_lens_range _ _ _)
              d_o d_o Hdo (or_introl eq_refl)) as [R1 R2].
  split.
  - intros (_ & _ & R). rewrite R1 by assumption. reflexivity.
  - intros NR. destruct R2 as [e ->]; [|cbn; eauto]. intros R. apply NR. repeat split; auto; lia.
Qed.

(** ** Layouts *)

Lemma laid_window l off d : laid_at l off d -> window l off (blen d) = d.
Proof.
  intros (pre & post & -> & <-). apply list_eq. intros i.
  destruct (decide (i < length d)%nat).
  - rewrite window_lookup by (unfold blen; lia).
    rewrite lookup_app_r by (unfold blen; lia). rewrite lookup_app_l by (unfold blen; lia).
    replace (Z.to_nat (blen pre) + i - length pre)%nat with i by (unfold blen; lia).
    destruct (lookup_lt_is_Some_2 d i) as [x ->]; [assumption|]. reflexivity.
  - rewrite !lookup_ge_None_2; auto; [lia|]. rewrite window_length. unfold blen. lia.
Qed.

Lemma laid_bounds l off d : laid_at l off d -> 0 <= off /\ off + blen d <= blen l.
Proof. intros (pre & post & -> & <-). rewrite !blen_app. pose proof (blen_nonneg pre). pose proof (blen_nonneg post). lia. Qed.

Lemma laid_app l off a b : laid_at l off (a ++ b) -> laid_at l off a /\ laid_at l (off + blen a) b.
Proof.
  intros (pre & post & -> & <-). split.
  - exists pre, (b ++ post). rewrite <- app_assoc. auto.
  - exists (pre ++ a), post. rewrite blen_app, <- !app_assoc. auto.
Qed.

Lemma le32_at_window l off : le32_at l off =
  match window l off 4 with
  | [a; b; c; d] => i32 (bz a + 256 * bz b + 65536 * bz c + 16777216 * bz d)
  | _ => 0
  end.
Proof. reflexivity. Qed.

Lemma le32_decode n : 0 <= n <= max_i32 ->
  i32 (bz (zb n) + 256 * bz (zb (n / 256)) + 65536 * bz (zb (n / 65536)) + 16777216 * bz (zb (n / 16777216))) = n.
Proof.
  intros Hn. rewrite !bz_zb.
  assert (E : n mod 256 + 256 * ((n / 256) mod 256) + 65536 * ((n / 65536) mod 256) + 16777216 * ((n / 16777216) mod 256) = n).
  { replace (n / 65536) with (n / 256 / 256) by (rewrite Z.div_div by lia; reflexivity).
    replace (n / 16777216) with (n / 256 / 256 / 256) by (rewrite !Z.div_div by lia; reflexivity).
    set (a := n / 256). set (b := a / 256). set (c := b / 256).
    pose proof (Z.div_mod n 256 ltac:(lia)). pose proof (Z.div_mod a 256 ltac:(lia)).
    pose proof (Z.div_mod b 256 ltac:(lia)).
    fold a in H. fold b in H0. fold c in H1.
    assert (c mod 256 = c). { apply Z.mod_small. subst c b a. unfold max_i32 in Hn.
      split; [repeat apply Z.div_pos; lia|]. rewrite !Z.div_div by lia. apply Z.div_lt_upper_bound; lia. }
    lia. }
  rewrite E. apply i32_id. unfold in_i32, min_i32. lia.
Qed.

Lemma le32_laid l off n : laid_at l off (le32 n) -> 0 <= n <= max_i32 -> le32_at l off = n.
Proof.
  intros L Hn. rewrite le32_at_window. pose proof (laid_window _ _ _ L) as W.
  change (blen (le32 n)) with 4 in W. rewrite W. unfold le32. apply le32_decode. assumption.
Qed.

Lemma concat_lens l off (args : list bytes) :
  Forall (fun a => blen a <= max_i32) args ->
  laid_at l off (concat (map (fun a => le32 (blen a)) args)) ->
  arg_lens l off (length args) = map blen args.
Proof.
  intros HF. revert off. induction HF as [|a args Ha HF IH]; intros off L; [reflexivity|].
  cbn [map concat length] in *. apply laid_app in L as [L1 L2].
  rewrite arg_lens_S, (le32_laid _ _ (blen a)); [|assumption|pose proof (blen_nonneg a); lia].
  f_equal. apply IH. exact L2.
Qed.

Lemma concat_windows l off (args : list bytes) :
  laid_at l off (concat args) ->
  args_readable l off (map blen args) /\ arg_windows l off (map blen args) = args.
Proof.
  revert off. induction args as [|a args IH]; intros off L; [split; reflexivity || exact I|].
  cbn [concat map] in *. pose proof (laid_bounds _ _ _ L) as B. rewrite blen_app in B.
  apply laid_app in L as [L1 L2]. destruct (IH _ L2) as [R W].
  pose proof (blen_nonneg a). pose proof (blen_nonneg (concat args)).
  cbn [args_readable arg_windows]. split.
  - split; [lia|]. split; [right; lia|assumption].
  - rewrite (laid_window _ _ _ L1), W. reflexivity.
Qed.

Lemma blen_concat (args : list bytes) : blen (concat args) = fold_right (fun a s => blen a + s) 0 args.
Proof. induction args as [|a args IH]; [reflexivity|]. cbn [concat fold_right]. rewrite blen_app, IH. reflexivity. Qed.

Lemma total_len_acc (args : list bytes) t : 0 <= t -> t + blen (concat args) <= max_i32 ->
  fold_left (fun t l => i32 (t + l)) (map blen args) t = t + blen (concat args).
Proof.
  revert t. induction args as [|a args IH]; intros t Ht Hb; [unfold blen; cbn [concat map fold_left length]; lia|].
  cbn [map fold_left concat] in *. rewrite blen_app in *.
  pose proof (blen_nonneg a). pose proof (blen_nonneg (concat args)).
  rewrite i32_id by (unfold in_i32, max_i32, min_i32 in *; lia).
  rewrite IH; lia.
Qed.

Lemma elem_len (args : list bytes) a : a ∈ args -> blen a <= blen (concat args).
Proof.
  intros H. induction args as [|x args IH]; [inversion H|]. cbn [concat]. rewrite blen_app.
  pose proof (blen_nonneg (concat args)). pose proof (blen_nonneg x).
  apply elem_of_cons in H as [->|H]; [lia|]. specialize (IH H). lia.
Qed.

Lemma concat_le32_len (args : list bytes) :
  blen (concat (map (fun a => le32 (blen a)) args)) = 4 * Z.of_nat (length args).
Proof.
  induction args as [|a args IH]; [reflexivity|]. cbn [map concat length]. rewrite blen_app, IH.
  change (blen (le32 (blen a))) with 4. lia.
Qed.

Lemma c05_decode m args lo d_o :
  blen (m_data m) <= max_i32 ->
  laid_at (m_data m) lo (concat (map (fun a => le32 (blen a)) args)) ->
  laid_at (m_data m) d_o (concat args) ->
  getArgumentsFromMemory m (Z.of_nat (length args)) lo d_o = ROk (args, blen (concat args)).
Proof.
  intros Hm L1 L2.
  pose proof (laid_bounds _ _ _ L1) as B1. rewrite concat_le32_len in B1.
  pose proof (laid_bounds _ _ _ L2) as B2.
  pose proof (blen_nonneg (concat args)).
  assert (HF : Forall (fun a => blen a <= max_i32) args).
  { apply Forall_forall. intros a Ha. apply elem_len in Ha. lia. }
  pose proof (concat_lens _ _ _ HF L1) as HL.
  destruct (concat_windows _ _ _ L2) as [HR HW].
  destruct (getargs_spec m (Z.of_nat (length args)) lo d_o) as [G _];
    [assumption|unfold in_i32, max_i32, min_i32 in *; lia..|].
  rewrite Nat2Z.id, HL in G. unfold vector_readable in G. rewrite Nat2Z.id, HL in G.
  rewrite G.
  - f_equal. f_equal; [assumption|]. unfold total_len. rewrite total_len_acc; lia.
  - split; [lia|]. split; [right; lia|assumption].
Qed.

Lemma c05_call m dest value function args d_off v_off f_off lo d_o :
  blen (m_data m) <= max_i32 ->
  blen dest = 32 -> blen value = 32 ->
  laid_at (m_data m) d_off dest -> laid_at (m_data m) v_off value ->
  laid_at (m_data m) f_off function ->
  laid_at (m_data m) lo (concat (map (fun a => le32 (blen a)) args)) ->
  laid_at (m_data m) d_o (concat args) ->
  extractIndirectContractCallArguments m d_off v_off true f_off (blen function)
     (Z.of_nat (length args)) lo d_o
  = ROk (mkCallArgs dest (Some (be_decode value)) function args (blen (concat args))).
Proof.
  intros Hm Hd Hv L1 L2 L3 L4 L5. unfold extractIndirectContractCallArguments.
  assert (HM : forall off d, laid_at (m_data m) off d -> MemLoad m off (blen d) = ROk d).
  { intros off d L. pose proof (laid_bounds _ _ _ L) as B. pose proof (blen_nonneg d).
    rewrite memload_spec by (try assumption; unfold in_i32, max_i32, min_i32 in *; lia).
    destruct (Z.eqb_spec (blen d) 0) as [E|E].
    { destruct d; [reflexivity|]. unfold blen in E. simpl in E. lia. }
    destruct (Z.ltb_spec off 0); [lia|]. destruct (Z.ltb_spec (blen (m_data m)) off); [lia|].
    destruct (Z.ltb_spec (blen d) 0); [lia|]. cbn [orb]. f_equal. apply laid_window. assumption. }
  rewrite <- Hd, (HM _ _ L1). cbn [mbind res_bind].
  rewrite Hd, <- Hv, (HM _ _ L2). cbn [mbind res_bind]. rewrite (HM _ _ L3). cbn [mbind res_bind].
  rewrite c05_decode by assumption. reflexivity.
Qed.

Lemma getargs_total m n lo d_o : blen (m_data m) <= max_i32 -> in_i32 n -> in_i32 lo -> in_i32 d_o ->
  n * 4 <= max_i32 -> getArgumentsFromMemory m n lo d_o <> RPanic.
Proof.
  intros Hm Hn Hlo Hdo H4.
  destruct (getargs_spec m n lo d_o Hm Hn Hlo Hdo H4) as [G1 G2]. intros E.
  assert (H : ~ vector_readable (m_data m) n lo d_o).
  { intros V. rewrite (G1 V) in E. discriminate. }
  destruct (G2 H) as [e E']. congruence.
Qed.

Lemma c06_rejected m n lo d_o : blen (m_data m) <= max_i32 -> in_i32 n -> in_i32 lo -> in_i32 d_o ->
  n * 4 <= max_i32 ->
  ((exists e, getArgumentsFromMemory m n lo d_o = RErr e) <-> ~ vector_readable (m_data m) n lo d_o) /\
  getArgumentsFromMemory m n lo d_o <> RPanic.
Proof.
  intros Hm Hn Hlo Hdo H4. split; [|apply getargs_total; assumption].
  destruct (getargs_spec m n lo d_o Hm Hn Hlo Hdo H4) as [G1 G2]. split; [|assumption].
  intros [e E] V. rewrite (G1 V) in E. discriminate.
Qed.

(** ** The count wraps: 2^30 arguments are accepted with any memory. *)
Lemma loadmultiple_zeros m k off : in_i32 off ->
  MemLoadMultiple_loop m off (replicate k 0) = ROk (replicate k []).
Proof.
  intros Ho. induction k as [|k IH]; [reflexivity|].
  cbn [replicate MemLoadMultiple_loop]. unfold MemLoad at 1. cbn [Z.eqb mbind res_bind].
  rewrite Z.add_0_r, i32_id by assumption. rewrite IH. reflexivity.
Qed.

Lemma getargs_wrap m n lo d_o : 0 <= n -> i32 (n * 4) = 0 -> in_i32 d_o ->
  exists t, getArgumentsFromMemory m n lo d_o = ROk (replicate (Z.to_nat n) [], t).
Proof.
  intros Hn Hw Hd. unfold getArgumentsFromMemory. destruct (Z.ltb_spec n 0); [lia|].
  rewrite Hw. unfold MemLoad. cbn [Z.eqb mbind res_bind]. unfold createInt32Array. cbn [int32_chunks mbind res_bind].
  destruct (Z.ltb_spec n (Z.of_nat (length (@nil Z)))); [cbn [length] in *; lia|].
  cbn [mbind res_bind app length]. rewrite Nat.sub_0_r. unfold MemLoadMultiple. rewrite loadmultiple_zeros by assumption.
  cbn [mbind res_bind]. eauto.
Qed.

Lemma c06_wrap : exists m n lo d_o r,
  in_i32 n /\ in_i32 lo /\ in_i32 d_o /\ blen (m_data m) <= max_i32 /\
  ~ vector_readable (m_data m) n lo d_o /\ getArgumentsFromMemory m n lo d_o = ROk r.
Proof.
  destruct (getargs_wrap (mkMem [] 1) 1073741824 5 0) as [t E]; [lia|reflexivity|unfold in_i32, min_i32, max_i32; lia|].
  do 5 eexists. split; [|split; [|split; [|split; [|split]]]]; [..|exact E];
    try (unfold in_i32, min_i32, max_i32, blen; simpl; lia).
  unfold vector_readable, blen. cbn [m_data length]. lia.
Qed.
