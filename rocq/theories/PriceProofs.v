(** Proofs for C63. *)
From Verif Require Import VmModel WpProofs EffProofs EffFrameProofs EffWalkProofs EffTopProofs CallSpec KeepProofs CallProofs
  InvSpec KindProofs OutProofs IdentProofs GasSpec GasProofs GasApiProofs MathProofs QueryProofs PriceSpec.
From Coq Require Import ZifyBool ZifyNat ZifyN.

Section price.
Context `{E : env} (HB : frugal_builtins) (HE : env_ok E) (n : nat).

Lemma prim_step {B} (p : prim B) h h1 o : prim_kind p <> KCreate -> host_ok h -> metered h ->
  interp (vmDest n) (vmSame n) p h = (h1, o) -> o <> OFuel -> o <> OPanic ->
  host_ok h1 /\ metered h1 /\ left_of h1 <= left_of h.
Proof.
  intros Hk Hok Hm Hi Hf Hp. pose proof (interp_down HB n p h h1 o Hk Hok Hm Hi Hf Hp) as Ht.
  split; [|split; [exact (metered_ticked _ _ Hm Ht)|destruct Ht as [_ T1 T2]; unfold left_of; lia]].
  destruct (walk_vm any_opts any_codes n) as [W1 W2]. apply (eff_host_ok false h h1 (pan o) Hok).
  refine (walk_interp any_opts any_codes _ _ W1 W2 false p _ h h1 o (any_good h (proj1 Hok)) Hi Hf). destruct p; cbn; auto.
Qed.

(** whenever [c] ends, at least [q] has been taken from the gas *)
Definition pays (q : Z) (c : cmd) : Prop :=
  forall h h' r, host_ok h -> metered h -> run_cmd (vmDest n) (vmSame n) c h = (h', r) -> r <> OFuel -> r <> OPanic ->
    left_of h' <= Z.max 0 (left_of h - Z.max 0 q).

Lemma pays_ret q r : q <= 0 -> pays q (CRet r).
Proof. intros Hq h h' o _ _ H _ _. injection H as <- <-. unfold left_of. lia. Qed.
Lemma pays_panic q : pays q CPanic.
Proof. intros h h' o _ _ H _ Hp. injection H as <- <-. congruence. Qed.
Lemma pays_step {B} q (p : prim B) k : prim_kind p <> KCreate -> (forall v, pays q (k v)) -> pays q (CDo p k).
Proof.
  intros Hk Hq h h' r Hok Hm H Hf Hp. cbn [run_cmd] in H. unfold bind at 1, try in H.
  destruct (interp (vmDest n) (vmSame n) p h) as [h1 o] eqn:Hi.
  assert (Hs := prim_step p h h1 o Hk Hok Hm Hi).
  destruct o as [v|e| |]; [| |injection H as <- <-; congruence..];
    (destruct Hs as (Hok1 & Hm1 & Hl); [discriminate..|]); pose proof (Hq _ h1 h' r Hok1 Hm1 H Hf Hp); lia.
Qed.
Lemma pays_act {B} q (p : prim B) k : prim_kind p <> KCreate -> (forall v, pays q (k v)) -> pays q (act p k).
Proof. intros Hk Hq. apply pays_step; [exact Hk|]. intros [v|e]; [apply Hq|apply pays_panic]. Qed.
Lemma pays_get {B} q (f : host -> B) k : (forall v, pays q (k v)) -> pays q (ApiModel.get f k).
Proof. apply pays_act. discriminate. Qed.
Lemma pays_use q g k : in_u64 g -> pays (q - g) k -> pays q (use g k).
Proof.
  intros Hg Hk h h' r Hok Hm H Hf Hp.
  destruct Hm as ((i & x & Hc & Hi) & Hct & Hb & Hs). assert (Hr : running_as h i x) by (split; assumption).
  assert (Hm : metered h) by (split; [exists i, x; exact Hr|split; [exact Hct|split; assumption]]).
  set (h1 := with_inst i (set_in_points (more_points (in_points x) g) x) h).
  destruct (prim_step (QUseGas g) h h1 (OOk tt) ltac:(discriminate) Hok Hm (UseGas_run _ _ _ _ Hr) ltac:(discriminate) ltac:(discriminate)) as (Hok1 & Hm1 & _).
  rewrite (run_use _ _ _ _ _ _ _ Hr) in H. pose proof (Hk h1 h' r Hok1 Hm1 H Hf Hp) as Hl.
  rewrite (spent_run _ _ _ Hr) in Hs. pose proof (Hct i x Hi) as Hx.
  assert (Hl1 : left_of h1 = Z.max 0 (budget h - Z.min max_i64 (in_points x + g))).
  { rewrite (left_run h1 i _ (running_with_inst _ _ _ _ Hr)). cbn [in_points set_in_points]. rewrite more_points_is by (unfold in_u64 in Hg; lia). reflexivity. }
  rewrite Hl1 in Hl. rewrite (left_run _ _ _ Hr). unfold in_u64 in Hg. lia.
Qed.
Lemma pays_fault q e r0 : pays q (fault e r0).
Proof.
  intros h h' r Hok Hm H Hf Hp. destruct Hm as ((i & x & Hc & Hi) & Hct & Hb & Hs). assert (Hr : running_as h i x) by (split; assumption).
  rewrite (run_fault _ _ _ _ _ _ _ Hr) in H. injection H as <- <-. unfold faulted.
  rewrite (spent_run _ _ _ Hr) in Hs. pose proof (Hct i x Hi) as Hx.
  set (h0 := set_h_out _ h). assert (Hr0 : running_as h0 i x) by exact Hr.
  rewrite (left_run _ i _ (running_with_inst h0 i x _ Hr0)). cbn [in_points set_in_points set_in_bp].
  change (budget (with_inst _ _ _)) with (budget h). rewrite left_gas, (left_run _ _ _ Hr).
  rewrite more_points_is by (unfold max_i64, max_u64 in *; lia). lia.
Qed.
Lemma pays_or_fault {B} q (p : prim B) r k : prim_kind p <> KCreate -> (forall v, pays q (k v)) -> pays q (or_fault p r k).
Proof. intros Hk Hq. apply pays_step; [exact Hk|]. intros [v|e]; [apply Hq|apply pays_fault]. Qed.
Lemma pays_res {B} q (x : res B) r k : (forall v, pays q (k v)) -> pays q (res_or_fault x r k).
Proof. intros Hq. destruct x; [apply Hq|apply pays_fault|apply pays_panic]. Qed.
Lemma pays_load q o l r k : (forall d, pays q (k d)) -> pays q (load o l r k).
Proof. intros Hq. apply pays_get. intros x. apply pays_res, Hq. Qed.
Lemma pays_store q o d r k : pays q k -> pays q (store o d r k).
Proof. intros Hq. apply pays_or_fault; [discriminate|]. intros _. exact Hq. Qed.

Lemma u64_in z : in_u64 (u64 z).
Proof. unfold in_u64, u64, u64_mod, max_u64. pose proof (Z.mod_pos_bound z 18446744073709551616). lia. Qed.
Lemma cost_in c : in_u64 (e_cost E c).
Proof. apply HE. Qed.
Lemma per_byte_in c l : in_u64 (per_byte c l).
Proof. apply mul_u64_range; [apply cost_in|apply u64_in]. Qed.
Lemma per_byte_is c l : 0 <= l <= max_i32 -> per_byte c l = Z.min (e_cost E c * l) max_u64.
Proof.
  intros Hl. unfold per_byte. assert (u64 l = l) as -> by (unfold u64, u64_mod, max_i32 in *; apply Z.mod_small; lia).
  apply mul_u64_sat; [apply cost_in|unfold in_u64, max_u64, max_i32 in *; lia].
Qed.
Lemma len_in (l : bytes) c : in_u64 (MulUint64 (e_cost E c) (Z.of_nat (length l))) \/ max_u64 < Z.of_nat (length l).
Proof.
  destruct (Z.leb_spec (Z.of_nat (length l)) max_u64); [left|right; assumption].
  apply mul_u64_range; [apply cost_in|]. unfold in_u64. lia.
Qed.

(** gas of any amount, even one that is no uint64, never gives gas back *)
Lemma pays_more q g k : pays q k -> pays q (use g k).
Proof. intros Hk. apply pays_act; [discriminate|]. intros _. exact Hk. Qed.
Lemma pays_cap q c : pays (Z.min q max_i64) c -> pays q c.
Proof.
  intros Hc h h' r Hok Hm H Hf Hp. pose proof (Hc h h' r Hok Hm H Hf Hp) as Hl.
  destruct Hm as ((i & x & Hr) & Hct & Hb & Hs). pose proof (Hct i x (proj2 Hr)) as Hx.
  rewrite (left_run _ _ _ Hr) in *. lia.
Qed.
Lemma pays_extra q vs k : pays q k -> pays q (extra_gas vs k).
Proof.
  intros Hk. induction vs as [|v vs IH]; [exact Hk|]. cbn [extra_gas]. destruct (_ <? _); [apply pays_more|]; exact IH.
Qed.
Lemma pays_topics q tp k : (forall l, pays q (k l)) -> forall m i acc, pays q (load_topics tp m i acc k).
Proof. intros Hk. induction m as [|m IH]; intros i acc; [apply Hk|]. cbn [load_topics]. apply pays_load. intros d. apply IH. Qed.

Lemma pays_charge q c k : pays (q - e_cost E c) k -> pays q (charge c k).
Proof. apply pays_use, cost_in. Qed.
Lemma pays_bytes q c l k : pays (q - per_byte c l) k -> pays q (charge_bytes c l k).
Proof. apply pays_use, per_byte_in. Qed.
Lemma pays_bytes_any q c l k : pays q k -> pays q (charge_bytes c l k).
Proof. apply pays_more. Qed.
Lemma pays_lock q o l k : (forall v, pays (q - e_cost E CStorageLoad) (k v)) -> pays q (getStorageLock_k o l k).
Proof.
  intros Hk. unfold getStorageLock_k. apply pays_charge, pays_get. intros [v|e|]; [|apply pays_act; [discriminate|intros _; apply Hk]|apply pays_panic].
  apply pays_act; [discriminate|]. intros d. apply Hk.
Qed.

(** the byte price of a call with an in-range length, 0 for any other *)
Lemma bytes_paid c l : e_cost E c * Z.max 0 (i32 l) <= per_byte c (i32 l) \/ per_byte c (i32 l) = max_u64.
Proof.
  destruct (Z.leb_spec 0 (i32 l)) as [Hl|Hl].
  - pose proof (i32_range l) as [_ Hr]. rewrite per_byte_is by lia. rewrite Z.max_r by lia. lia.
  - rewrite Z.max_l by lia. left. pose proof (per_byte_in c (i32 l)). unfold in_u64 in *. lia.
Qed.
Lemma pays_both q k c l f : pays (q - Z.min (e_cost E k + per_byte c l) max_u64) f ->
  pays q (use (AddUint64 (e_cost E k) (per_byte c l)) f).
Proof.
  rewrite <-add_u64_sat; [|apply cost_in|apply per_byte_in]. apply pays_use, add_u64_range; [apply cost_in|apply per_byte_in].
Qed.
Ltac costs :=
  repeat match goal with
  | |- context [per_byte ?k ?l] => pose proof (per_byte_in k l); remember (per_byte k l) eqn:Hpb; clear Hpb end;
  repeat match goal with
  | |- context [e_cost _ ?k] => pose proof (cost_in k); remember (e_cost E k) eqn:Hec; clear Hec end;
  unfold in_u64, max_u64, max_i64 in *.
Ltac pay := repeat (intros; cbv beta zeta; first
  [ lazymatch goal with |- pays _ (CRet _) => apply pays_ret; costs; lia end
  | lazymatch goal with |- pays _ (use (AddUint64 (e_cost _ _) (per_byte _ _)) _) => apply pays_both end
  | lazymatch goal with |- pays _ (use _ _) => apply pays_more end
  | lazymatch goal with |- pays _ CPanic => apply pays_panic end
  | lazymatch goal with |- pays _ (fault _ _) => apply pays_fault end
  | lazymatch goal with |- pays _ (charge _ _) => apply pays_charge end
  | lazymatch goal with |- pays _ (charge_bytes _ (i32 _) _) => apply pays_bytes end
  | lazymatch goal with |- pays _ (charge_bytes _ _ _) => apply pays_bytes_any end
  | lazymatch goal with |- pays _ (extra_gas _ _) => apply pays_extra end
  | lazymatch goal with |- pays _ (load_topics _ _ _ _ _) => apply pays_topics end
  | lazymatch goal with |- pays _ (getStorageLock_k _ _ _) => apply pays_lock end
  | lazymatch goal with |- pays _ (getBlockTimestamp_k _) => unfold getBlockTimestamp_k end
  | lazymatch goal with |- pays _ (load _ _ _ _) => apply pays_load end
  | lazymatch goal with |- pays _ (store _ _ _ _) => apply pays_store end
  | lazymatch goal with |- pays _ (ApiModel.get _ _) => apply pays_get end
  | lazymatch goal with |- pays _ (or_fault _ _ _) => apply pays_or_fault; [discriminate|] end
  | lazymatch goal with |- pays _ (res_or_fault _ _ _) => apply pays_res end
  | lazymatch goal with |- pays _ (act _ _) => apply pays_act; [discriminate|] end
  | lazymatch goal with |- pays _ (CDo _ _) => apply pays_step; [discriminate|] end
  | lazymatch goal with |- pays _ (if ?b then _ else _) => destruct b eqn:? end
  | lazymatch goal with |- pays _ (match ?b with _ => _ end) => destruct b eqn:? end ]).


Lemma c63 c : ~ is_deploy c ->
  pays (price_under (if subtraction_price c then Some CBigIntSub else entry c) c) (api c).
Proof.
  intros Hd. apply pays_cap.
  destruct c; try (exfalso; exact (Hd I)); cbn [subtraction_price]; unfold price_under; cbn [entry data_bytes api].
  all: rewrite ?Z.add_0_r.
  all: try (match goal with |- context [e_cost _ ?k * Z.max 0 (i32 ?l)] => pose proof (bytes_paid k l); remember (e_cost E k * Z.max 0 (i32 l)) eqn:Hbp; clear Hbp end).
  all: try solve [(match goal with |- pays _ ?c => let x := head_of c in unfold x end; unfold transferESDTNFTExecute, esdt_data, bigInt_argument, bigInt_op2, bigInt_op1, bigInt_shift, bigInt_set_bytes, bigInt_get_bytes, bigInt_finish, smallInt_store, extract, get_args, if_same_shard, upgrade_helper, block_number, smallIntStorageStoreUnsigned, setStorageLock in *; pay)].
  unfold writeLog.
  set (t := i32 (i32 (i32 numTopics * HashLen) + i32 dataLength)).
  assert (Ht : match (if (0 <=? i32 numTopics) && (0 <=? i32 dataLength) && (32 * i32 numTopics + i32 dataLength <=? max_i32)
       then Some (PersistPerByte, 32 * i32 numTopics + i32 dataLength) else None)
     with Some (k, n0) => e_cost E k * Z.max 0 n0 | None => 0 end <= per_byte PersistPerByte t \/ per_byte PersistPerByte t = max_u64).
  { destruct (_ && _ && _) eqn:Hb.
    - assert (t = 32 * i32 numTopics + i32 dataLength) as ->.
      { unfold t, HashLen. rewrite (i32_id (i32 numTopics * 32)) by (unfold in_i32, min_i32, max_i32 in *; lia).
        rewrite i32_id by (unfold in_i32, min_i32, max_i32 in *; lia). lia. }
      rewrite Z.max_r by lia. rewrite per_byte_is by lia. lia.
    - left. pose proof (per_byte_in PersistPerByte t) as Hp. unfold in_u64 in Hp. lia. }
  revert Ht. generalize (match (if (0 <=? i32 numTopics) && (0 <=? i32 dataLength) && (32 * i32 numTopics + i32 dataLength <=? max_i32)
       then Some (PersistPerByte, 32 * i32 numTopics + i32 dataLength) else None)
     with Some (k, n0) => e_cost E k * Z.max 0 n0 | None => 0 end). intros z Ht. pay.
Qed.
End price.

Lemma c63_api `{E : env} : frugal_builtins -> env_ok E -> forall n c h h' r,
  ~ is_deploy c -> host_ok h -> metered h -> vmApi n c h = (h', r) -> r <> OFuel -> r <> OPanic ->
  left_of h' <= Z.max 0 (left_of h - price_under (if subtraction_price c then Some CBigIntSub else entry c) c).
Proof.
  intros HB HE n c h h' r Hd Hok Hm H Hf Hp. pose proof (c63 HB HE n c Hd h h' r Hok Hm H Hf Hp) as Hl. lia.
Qed.
