(** Proofs for C56: API calls do not panic. *)
From Verif Require Import MathProofs CodecProofs MemModel MemProofs ApiArgsModel VmModel WpProofs KeepProofs KindProofs SafeSpec.
From Coq Require Import ZifyBool ZifyNat ZifyN.

(** * Memory *)
Lemma addint32_pos a b : in_i32 a -> in_i32 b -> 0 <= a -> 0 < b -> a <= AddInt32 a b <= max_i32.
Proof.
  unfold in_i32, AddInt32, AddInt32WithError, max_i32, min_i32. intros.
  destruct (Z.le_gt_cases (a + b) 2147483647) as [H3|H3].
  - rewrite i32_id by (unfold in_i32, min_i32, max_i32; lia). destruct (Z.ltb_spec a (a + b)); [|lia]. destruct (Z.ltb_spec 0 b); [|lia]. simpl. lia.
  - destruct (Bool.eqb _ _) eqn:Q; [|lia]. exfalso.
    assert (i32 (a + b) = a + b - 4294967296) by (unfold i32; lia || (rewrite <- (Z.mod_small (a + b + 2147483648) 4294967296) by lia; lia)).
    lia.
Qed.
Lemma u32_le x : 0 <= x -> u32 x <= x.
Proof. intros. unfold u32. pose proof (Z.mod_le x 4294967296). lia. Qed.
Lemma u32_of_i32 x : in_i32 x -> 0 <= x -> u32 x = x.
Proof. intros H1 H2. apply u32_id. unfold in_i32, in_u32, max_i32 in *. lia. Qed.

Lemma load_nopanic m o l : in_i32 o -> in_i32 l -> MemLoad m o l <> RPanic.
Proof.
  intros Ho Hl. unfold MemLoad, m_length.
  destruct (Z.eqb_spec l 0); [discriminate|].
  destruct (Z.ltb_spec o 0); [discriminate|]. cbn [orb].
  rewrite (u32_of_i32 o) by assumption. pose proof (blen_nonneg (m_data m)). pose proof (u32_le (blen (m_data m)) ltac:(lia)).
  destruct (Z.ltb_spec (u32 (blen (m_data m))) o); [discriminate|].
  destruct (Z.ltb_spec l 0); [discriminate|].
  pose proof (addint32_pos o l Ho Hl ltac:(lia) ltac:(lia)).
  rewrite (u32_of_i32 (AddInt32 o l)) by (unfold in_i32, max_i32, min_i32 in *; lia).
  destruct (Z.ltb_spec (u32 (blen (m_data m))) (AddInt32 o l)); rewrite slice_ok by lia; discriminate.
Qed.
Lemma load_length m o l d : MemLoad m o l = ROk d -> 0 <= l -> blen d = l.
Proof.
  intros H Hl. unfold MemLoad in H. destruct (Z.eqb_spec l 0) as [->|]; [injection H as <-; reflexivity|].
  destruct (_ || _); [discriminate|]. destruct (l <? 0); [discriminate|].
  assert (K : forall s, blen (gocopy (zeros l) s) = l) by (intros s; unfold blen; rewrite gocopy_length; unfold zeros; rewrite repeat_length || rewrite replicate_length; lia).
  destruct (_ <? _); destruct (slice _ _ _); try discriminate; injection H as <-; apply K.
Qed.
Lemma load_nonneg m o l d : MemLoad m o l = ROk d -> 0 <= l.
Proof.
  intros H. unfold MemLoad in H. destruct (Z.eqb_spec l 0); [lia|].
  destruct (_ || _); [discriminate|]. destruct (Z.ltb_spec l 0); [discriminate|lia].
Qed.

Lemma store_nopanic m o d : in_i32 o -> small d -> snd (MemStore m o d) <> RPanic.
Proof.
  intros Ho Hd. unfold small in Hd. pose proof (blen_nonneg d). unfold MemStore.
  assert (Hi : in_i32 (blen d)) by (unfold in_i32, min_i32, max_i32 in *; lia).
  rewrite (i32_id (blen d)) by exact Hi.
  destruct (Z.eqb_spec (blen d) 0); [discriminate|].
  destruct (Z.ltb_spec o 0); [discriminate|].
  pose proof (addint32_pos o (blen d) Ho Hi ltac:(lia) ltac:(lia)).
  rewrite !(u32_of_i32 (AddInt32 o (blen d))) by (unfold in_i32, max_i32, min_i32 in *; lia).
  destruct (if m_length m <? AddInt32 o (blen d) then m_grow m else Some m) as [m'|]; [|discriminate].
  destruct (Z.ltb_spec (m_length m') (AddInt32 o (blen d))); [discriminate|].
  unfold m_length in *. pose proof (blen_nonneg (m_data m')). pose proof (u32_le (blen (m_data m')) ltac:(lia)).
  rewrite slice_ok by lia. discriminate.
Qed.

Lemma chunks_ok : forall n raw, blen raw = 4 * Z.of_nat n -> exists l, int32_chunks raw = ROk l /\ length l = n.
Proof.
  induction n as [|n IH]; intros raw H.
  - destruct raw; [exists []; split; reflexivity|]. rewrite blen_cons in H. pose proof (blen_nonneg raw). lia.
  - destruct raw as [|a [|b [|c [|d raw']]]]; try (unfold blen in H; cbn [length] in H; lia).
    rewrite !blen_cons in H. destruct (IH raw') as (l & Hl & Hn); [lia|]. cbn [int32_chunks]. rewrite Hl. cbn. eexists; split; [reflexivity|]. cbn. lia.
Qed.
Lemma loop_nopanic m : forall ls o, in_i32 o -> Forall in_i32 ls -> MemLoadMultiple_loop m o ls <> RPanic.
Proof.
  induction ls as [|l ls IH]; intros o Ho H; [discriminate|]. apply Forall_cons_1 in H as [H1 H2]. cbn [MemLoadMultiple_loop].
  pose proof (load_nopanic m o l Ho H1). destruct (MemLoad m o l); [|discriminate|congruence]. cbn [mbind res_bind].
  specialize (IH (i32 (o + l)) (i32_range _) H2). destruct (MemLoadMultiple_loop m (i32 (o + l)) ls); [discriminate|discriminate|congruence].
Qed.
Lemma chunks_range : forall raw l, int32_chunks raw = ROk l -> Forall in_i32 l.
Proof.
  fix IH 1. intros raw l H. destruct raw as [|a [|b [|c [|d raw]]]]; try discriminate.
  - injection H as <-. constructor.
  - cbn [int32_chunks] in H. destruct (int32_chunks raw) as [ns| |] eqn:E; try discriminate. injection H as <-.
    apply List.Forall_cons; [unfold le_int32; apply i32_range|exact (IH _ _ E)].
Qed.
Lemma args_nopanic m n lo d : in_i32 n -> in_i32 lo -> in_i32 d -> getArgumentsFromMemory m n lo d <> RPanic.
Proof.
  intros Hn Hlo Hd. unfold getArgumentsFromMemory. destruct (Z.ltb_spec n 0); [discriminate|].
  pose proof (load_nopanic m lo (i32 (n * 4)) Hlo (i32_range _)).
  destruct (MemLoad m lo (i32 (n * 4))) as [raw| |] eqn:E; [|discriminate|congruence]. cbn [mbind res_bind].
  pose proof (load_nonneg _ _ _ _ E) as H1. pose proof (load_length _ _ _ _ E H1) as H2.
  assert (H3 : exists k, i32 (n * 4) = 4 * Z.of_nat k /\ Z.of_nat k <= n).
  { unfold in_i32, min_i32, max_i32 in Hn.
    assert (Hc : i32 (n * 4) = n * 4 \/ i32 (n * 4) = n * 4 - 4294967296 \/ i32 (n * 4) = n * 4 - 8589934592).
    { unfold i32 in *.
      pose proof (Z.div_mod (n * 4 + 2147483648) 4294967296 ltac:(lia)). pose proof (Z.mod_pos_bound (n * 4 + 2147483648) 4294967296 ltac:(lia)).
      lia. }
    exists (Z.to_nat (i32 (n * 4) / 4)). destruct Hc as [E'|[E'|E']]; rewrite E' in *; lia. }
  destruct H3 as (k & Hk & Hkn). rewrite Hk in H2. destruct (chunks_ok _ _ H2) as (l & Hl & Hll).
  unfold createInt32Array. pose proof (chunks_range _ _ Hl) as Hr. rewrite Hl. cbn [mbind res_bind].
  destruct (Z.ltb_spec n (Z.of_nat (length l))); [lia|]. cbn [mbind res_bind]. unfold MemLoadMultiple.
  match goal with |- context [MemLoadMultiple_loop m d ?ls] => pose proof (loop_nopanic m ls d Hd) as H4; destruct (MemLoadMultiple_loop m d ls) end;
    [discriminate|discriminate|]. exfalso. apply H4; [|reflexivity]. apply Forall_app. split; [exact Hr|]. apply Forall_replicate. unfold in_i32, min_i32, max_i32. lia.
Qed.
Lemma extract_nopanic m a b v c d n lo dd : in_i32 a -> in_i32 b -> in_i32 c -> in_i32 d -> in_i32 n -> in_i32 lo -> in_i32 dd ->
  extractIndirectContractCallArguments m a b v c d n lo dd <> RPanic.
Proof.
  intros. unfold extractIndirectContractCallArguments.
  assert (K : in_i32 32) by (unfold in_i32, min_i32, max_i32; lia).
  pose proof (load_nopanic m a 32 ltac:(assumption) K). destruct (MemLoad m a 32); [|discriminate|congruence]. cbn [mbind res_bind].
  pose proof (load_nopanic m b 32 ltac:(assumption) K). destruct v.
  - destruct (MemLoad m b 32); [|discriminate|congruence]. cbn [mbind res_bind].
    pose proof (load_nopanic m c d ltac:(assumption) ltac:(assumption)). destruct (MemLoad m c d); [|discriminate|congruence]. cbn [mbind res_bind].
    pose proof (args_nopanic m n lo dd ltac:(assumption) ltac:(assumption) ltac:(assumption)). destruct (getArgumentsFromMemory m n lo dd) as [[? ?]| |]; [discriminate|discriminate|congruence].
  - cbn [mbind res_bind].
    pose proof (load_nopanic m c d ltac:(assumption) ltac:(assumption)). destruct (MemLoad m c d); [|discriminate|congruence]. cbn [mbind res_bind].
    pose proof (args_nopanic m n lo dd ltac:(assumption) ltac:(assumption) ltac:(assumption)). destruct (getArgumentsFromMemory m n lo dd) as [[? ?]| |]; [discriminate|discriminate|congruence].
Qed.

(** * Numbers *)
Lemma log2_256 k : 0 <= k -> Z.log2 (256 ^ k) = 8 * k.
Proof. intros H. change 256 with (2 ^ 8). rewrite <- Z.pow_mul_r by lia. apply Z.log2_pow2. lia. Qed.
Lemma be_small' v : Z.log2 (Z.abs v) <= 8589934592 -> small (be_encode v).
Proof.
  intros H. unfold small in *. destruct (be_encode v) eqn:E; [unfold blen; cbn [length]; unfold max_i32; lia|]. rewrite <- E.
  assert (Hn : be_encode v <> []) by (rewrite E; discriminate).
  pose proof (no_lead0_bound _ Hn (be_encode_lead v)) as H1. rewrite be_decode_encode in H1.
  assert (Hl : 0 <= blen (be_encode v) - 1) by (rewrite E, blen_cons; pose proof (blen_nonneg l); lia).
  set (k := blen (be_encode v) - 1) in *. apply Z.log2_le_mono in H1.
  rewrite log2_256 in H1 by lia.
  unfold max_i32. lia.
Qed.
Lemma be_small v : small_num v -> small (be_encode v).
Proof. unfold small_num. intros H. apply be_small'. lia. Qed.
Lemma sum_small a b : small_num a -> small_num b -> small (be_encode (a + b)).
Proof.
  unfold small_num. intros Ha Hb. apply be_small'.
  set (n := 8589934592) in *. assert (Hn : 0 <= n) by (unfold n; lia). clearbody n.
  destruct (Z.eq_dec (Z.abs (a + b)) 0) as [->|H0]; [rewrite Z.log2_nonpos; lia|].
  apply Z.lt_succ_r, Z.log2_lt_pow2; [lia|]. rewrite Z.pow_succ_r by lia.
  assert (K : forall x, Z.log2 (Z.abs x) < n -> Z.abs x < 2 ^ n).
  { intros x Hx. destruct (Z.eq_dec (Z.abs x) 0) as [->|]; [apply Z.pow_pos_nonneg; lia|]. apply Z.log2_lt_pow2; lia. }
  apply K in Ha, Hb. lia.
Qed.
Lemma pad_small b : small b -> small (pad32 b).
Proof.
  unfold small, pad32, PadBytesLeft. intros H. destruct b as [|x b]; [exact H|].
  rewrite sub_int_exact by (pose proof (blen_nonneg (x :: b)); unfold in_i64, min_i64, max_i64, max_i32, BalanceLen in *; lia).
  rewrite bool_decide_eq_true_2 by (pose proof (blen_nonneg (x :: b)); unfold in_i64, min_i64, max_i64, max_i32, BalanceLen in *; lia).
  destruct (Z.leb_spec (BalanceLen - blen (x :: b)) 0) as [|Hp]; [exact H|]. cbn [default].
  unfold id. rewrite blen_app. unfold zeros. unfold blen at 1. rewrite ?repeat_length, ?replicate_length. unfold BalanceLen, max_i32 in *. lia.
Qed.
Lemma twos_small v : small_num v -> small (twos_encode v).
Proof.
  intros H. unfold small_num, small in *. destruct (Z.eq_dec v 0) as [->|Hv]; [unfold max_i32; vm_compute; discriminate|].
  destruct (twos_encode_len v Hv) as [Hne H1]. unfold blen in *. 
  destruct H1 as [H1|H1]; [rewrite H1; unfold max_i32; lia|].
  destruct (Z.le_gt_cases (Z.of_nat (length (twos_encode v))) 2); [unfold max_i32; lia|].
  set (k := Z.of_nat (length (twos_encode v)) - 2) in *.
  assert (H2 : 128 * 256 ^ k <= Z.abs v) by (clearbody k; assert (0 <= 256 ^ k) by (apply Z.pow_nonneg; lia); lia).
  assert (H3 : 256 ^ k <= Z.abs v) by (assert (0 <= 256 ^ k) by (apply Z.pow_nonneg; lia); lia).
  apply Z.log2_le_mono in H3. rewrite log2_256 in H3 by lia.
  unfold max_i32. lia.
Qed.

(** * Host functions that do not panic while a contract runs *)
Definition lv (err : bool) {A} (m : M A) : Prop := forall h, alive h ->
  match m h with
  | (h', OOk _) => alive h'
  | (h', OErr _) => err = true /\ alive h'
  | _ => False
  end.
Lemma lv_bind e {A B} (m : M A) (k : A -> M B) : lv e m -> (forall a, lv e (k a)) -> lv e (bind m k).
Proof.
  intros Hm Hk h Hh. unfold bind. specialize (Hm h Hh). destruct (m h) as [h1 [a|er| |]]; try exact Hm. exact (Hk a h1 Hm).
Qed.
Lemma lv_ret e {A} (a : A) : lv e (ret a).
Proof. intros h Hh. exact Hh. Qed.
Lemma lv_gets e {A} (f : host -> A) : lv e (gets f).
Proof. intros h Hh. exact Hh. Qed.
Lemma lv_fail {A} er : lv true (@fail A er).
Proof. intros h Hh. split; [reflexivity|exact Hh]. Qed.
Lemma lv_try e {A} (m : M A) : lv true m -> lv e (try m).
Proof. intros Hm h Hh. unfold try. specialize (Hm h Hh). destruct (m h) as [h1 [a|er| |]]; [exact Hm|apply Hm|exact Hm..]. Qed.
Lemma lv_modify e (f : host -> host) : (forall h, alive h -> alive (f h)) -> lv e (modify f).
Proof. intros H h Hh. exact (H h Hh). Qed.
Lemma lv_lift e {A} (r : res A) : r <> RPanic -> (e = false -> forall er, r <> RErr er) -> lv e (lift r).
Proof.
  intros H1 H2 h Hh. unfold lift. destruct r; [exact Hh| |congruence]. split; [|exact Hh]. destruct e; [reflexivity|]. destruct (H2 eq_refl e0 eq_refl).
Qed.
Lemma lv_weak e {A} (m : M A) : lv false m -> lv e m.
Proof. intros H h Hh. specialize (H h Hh). destruct (m h) as [h1 [a|er| |]]; [exact H|destruct H; discriminate|exact H..]. Qed.
Lemma lv_fail_if b er : lv true (fail_if b er).
Proof. destruct b; [apply lv_fail|apply lv_ret]. Qed.
Lemma lv_deferring e {A B} (m : M A) (g : A + err -> M B) p : lv true m -> (forall x, lv e (g x)) -> lv e (deferring m g p).
Proof. intros Hm Hg h Hh. unfold deferring. specialize (Hm h Hh). destruct (m h) as [h1 [a|er| |]]; [exact (Hg _ _ Hm)|exact (Hg _ _ (proj2 Hm))|destruct Hm..]. Qed.

Lemma alive_run h : alive h -> exists i x, running_as h i x.
Proof. intros [(i & x & H1 & H2) _]. exists i, x. split; assumption. Qed.
Lemma alive_with h i x x' : alive h -> running_as h i x -> alive (with_inst i x' h).
Proof.
  intros [_ Hr] Hx. destruct (running_with_inst _ _ _ x' Hx) as [H1 H2]. split; [exists i, x'; split; assumption|exact Hr].
Qed.
(** a change that leaves the instances and the presence of a refund *)
Lemma alive_same h h' : h_cur h' = h_cur h -> h_insts h' = h_insts h -> (o_refund (h_out h) <> None -> o_refund (h_out h') <> None) -> alive h -> alive h'.
Proof. intros H1 H2 H3 [(i & x & Hi & Hx) Hr]. split; [exists i, x; rewrite H1, H2; split; assumption|auto]. Qed.
Lemma lv_cur e : lv e cur_inst.
Proof. intros h Hh. destruct (alive_run h Hh) as (i & x & Hx). rewrite (cur_inst_run _ _ _ Hx). exact Hh. Qed.
Lemma lv_upd e f : lv e (upd_inst f).
Proof. intros h Hh. destruct (alive_run h Hh) as (i & x & Hx). rewrite (upd_inst_run _ _ _ _ Hx). exact (alive_with _ _ _ _ Hh Hx). Qed.
Lemma lv_account e a : lv e (GetOutputAccount a).
Proof. intros h Hh. unfold GetOutputAccount. destruct (accounts h !! a); exact Hh. Qed.
Lemma lv_GetRefund e : lv e GetRefund.
Proof. intros h Hh. unfold GetRefund. rewrite bind_gets. destruct Hh as [Hi Hr]. destruct (o_refund (h_out h)) eqn:E; [|congruence]. split; [exact Hi|congruence]. Qed.
Lemma lv_SetRefund e g : lv e (SetRefund g).
Proof. apply lv_modify. intros h Hh. refine (alive_same _ _ _ _ _ Hh); [reflexivity|reflexivity|discriminate]. Qed.
Lemma lv_big e f : lv e (big_op f).
Proof. intros h Hh. unfold big_op. destruct (f (h_big h)). exact Hh. Qed.

Create HintDb lv.
Global Hint Resolve lv_cur lv_upd lv_account lv_GetRefund lv_SetRefund lv_big lv_ret lv_gets lv_fail lv_fail_if : lv.
Ltac lvt := repeat (intros;
  lazymatch goal with
  | |- lv _ (bind _ _) => apply lv_bind
  | |- lv _ (try _) => apply lv_try
  | |- lv _ (deferring _ _ _) => apply lv_deferring
  | |- lv _ (modify _) => apply lv_modify; let h := fresh in let H := fresh in intros h H; first [exact H | apply (alive_same h); [reflexivity|reflexivity|cbn; tauto|exact H]]
  | |- lv _ (if ?b then _ else _) => destruct b
  | |- lv _ (match ?b with _ => _ end) => destruct b
  | |- lv _ (let _ := _ in _) => cbv zeta
  | |- lv _ ?m => first [solve [eauto with lv nocore] | let g := head_of m in unfold g]
  end).

Section env.
Context `{E : env} (Hooks : hooks_return E).
Lemma lv_UseGas e g : lv e (UseGas g). Proof. lvt. Qed.
Lemma lv_FreeGas e g : lv e (FreeGas g). Proof. lvt. Qed.
Hint Resolve lv_UseGas lv_FreeGas : lv.
Lemma lv_Fault e er : lv e (WithFault er). Proof. lvt. Qed.
Lemma lv_Signal e m : lv e (SignalUserError m). Proof. lvt. Qed.
Lemma lv_Balance e a : lv e (GetBalanceBigInt a). Proof. lvt. Qed.
Lemma lv_user e w a : e = true -> lv e (lift (GetUserAccount w a)).
Proof. intros ->. unfold GetUserAccount. destruct (w_accounts w !! a); [|destruct (e_missing_err E)]; apply lv_lift; discriminate. Qed.
Lemma lv_GetCode a : lv true (GetCode a).
Proof. unfold GetCode. apply lv_bind; [lvt|]. intros [x b]. destruct (_ && _); [lvt|]. apply lv_bind; [lvt|]. intros w. apply lv_bind; [apply lv_user; reflexivity|lvt]. Qed.
Lemma lv_getu e a k : lv e (getStorageFromAddressUnmetered a k). Proof. lvt. Qed.
Hint Resolve lv_Balance lv_GetCode lv_getu : lv.
Lemma lv_getum e k : lv e (GetStorageUnmetered k). Proof. lvt. Qed.
Hint Resolve lv_getum : lv.
Lemma lv_getsto e k : lv e (GetStorage k). Proof. lvt. Qed.
Lemma lv_getfrom e a k : lv e (GetStorageFromAddress a k). Proof. lvt. Qed.
Lemma lv_set k v : lv true (SetStorage k v). Proof. lvt. Qed.
Hint Resolve lv_set : lv.
Lemma lv_setp k v : lv true (SetProtectedStorage k v). Proof. lvt. Qed.
Lemma lv_Finish e d : lv e (Finish d). Proof. lvt. Qed.
Lemma lv_WriteLog e a t d : lv e (WriteLog a t d). Proof. lvt. Qed.
Lemma lv_TVO d s v c : lv true (TransferValueOnly d s v c).
Proof.
  unfold TransferValueOnly. apply lv_bind; [lvt|]. intros _. apply lv_bind; [lvt|]. intros ?. apply lv_bind; [lvt|]. intros _. apply lv_bind; [lvt|]. intros w.
  apply lv_bind; [apply lv_lift; [apply Hooks|discriminate]|]. lvt.
Qed.
Hint Resolve lv_TVO : lv.
Lemma lv_Transfer d s g l v i c : lv true (Transfer d s g l v i c). Proof. lvt. Qed.
Lemma lv_AddAsync e id c : lv e (AddAsyncContextCall id c). Proof. lvt. Qed.
Lemma lv_AsyncCb id c : lv true (SetAsyncContextCallback id c). Proof. lvt. Qed.
Lemma lv_Async a d v : lv true (ExecuteAsyncCall a d v). Proof. lvt. Qed.
Lemma lv_store o d : in_i32 o -> small d -> lv true (mem_store o d).
Proof.
  intros Ho Hd. unfold mem_store. apply lv_bind; [lvt|]. intros [i x]. pose proof (store_nopanic (in_mem x) o d Ho Hd).
  destruct (MemStore (in_mem x) o d) as [m r]. apply lv_bind; [lvt|]. intros _. apply lv_lift; [assumption|discriminate].
Qed.
Lemma lv_breakpoint e v : lv e (SetRuntimeBreakpointValue v). Proof. lvt. Qed.
End env.
