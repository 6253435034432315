(** Proofs about storage. *)
From Verif Require Import VmModel StoSpec WpProofs MathProofs CodecProofs MemProofs MemSpec.
From Coq Require Import ZifyBool ZifyNat ZifyN.

(** * Output accounts *)
Definition oacc (o : vm_output) (a : bytes) : out_account := default NewVMOutputAccount (o_accounts o !! a).
Definition out_upd (a : bytes) (x : out_account) (o : vm_output) : vm_output :=
  set_o_accounts (<[a := x]> (o_accounts o)) o.

Lemma GetOutputAccount_run a h : exists n,
  GetOutputAccount a h = (set_h_out (out_upd a (oacc (h_out h) a) (h_out h)) h, OOk (oacc (h_out h) a, n)).
Proof.
  unfold GetOutputAccount, oacc, out_upd, accounts, set_accounts.
  destruct (o_accounts (h_out h) !! a) as [x|] eqn:Hx; cbn [default].
  - exists false. rewrite insert_id by exact Hx. destruct h as [? ? [] ]. reflexivity.
  - exists true. reflexivity.
Qed.

Lemma upd_account_run a f h x : o_accounts (h_out h) !! a = Some x ->
  upd_account a f h = (set_h_out (out_upd a (f x) (h_out h)) h, OOk tt).
Proof.
  intros Hx. unfold upd_account, modify, set_accounts, accounts, out_upd.
  f_equal. f_equal. f_equal. apply map_eq. intros b.
  destruct (decide (a = b)) as [->|Hne].
  - rewrite lookup_alter, lookup_insert, Hx. reflexivity.
  - rewrite lookup_alter_ne, lookup_insert_ne by exact Hne. reflexivity.
Qed.

(** reading a cell puts it into the account's storage updates *)
Definition cached (w : world) (a k : bytes) (x : out_account) : out_account :=
  match oa_storage x !! k with
  | Some _ => x
  | None => set_oa_storage (<[k := node_value w a k]> (oa_storage x)) x
  end.
Definition out_read (w : world) (a k : bytes) (o : vm_output) : vm_output :=
  out_upd a (cached w a k (oacc o a)) o.
Definition out_write (a k v : bytes) (o : vm_output) : vm_output :=
  out_upd a (set_oa_storage (<[k := v]> (oa_storage (oacc o a))) (oacc o a)) o.

Lemma out_upd_upd a x y o : out_upd a y (out_upd a x o) = out_upd a y o.
Proof.
  unfold out_upd. change (set_o_accounts (<[a:=y]> (<[a:=x]> (o_accounts o))) o = set_o_accounts (<[a:=y]> (o_accounts o)) o).
  rewrite insert_insert. reflexivity.
Qed.
Lemma oacc_upd a x o : oacc (out_upd a x o) a = x.
Proof. unfold oacc, out_upd. cbn. rewrite lookup_insert. reflexivity. Qed.

Lemma read_unmetered_run a k h :
  getStorageFromAddressUnmetered a k h =
  (set_h_out (out_read (h_world h) a k (h_out h)) h, OOk (cell h a k)).
Proof.
  unfold getStorageFromAddressUnmetered.
  destruct (GetOutputAccount_run a h) as [n Hn]. rewrite (bind_ok _ _ _ _ _ Hn). cbn [fst].
  change (GetStorageData (h_world h) a k) with (node_value (h_world h) a k).
  assert (Hc : cell h a k = default (node_value (h_world h) a k) (oa_storage (oacc (h_out h) a) !! k)).
  { unfold cell, oacc. destruct (o_accounts (h_out h) !! a); [reflexivity|]. cbn. rewrite lookup_empty. reflexivity. }
  rewrite Hc. unfold out_read, cached.
  destruct (oa_storage (oacc (h_out h) a) !! k) as [v|] eqn:Hk; [reflexivity|].
  rewrite bind_gets.
  erewrite bind_ok; [|apply upd_account_run; cbn; apply lookup_insert].
  cbn [h_out set_h_out]. rewrite out_upd_upd. reflexivity.
Qed.

(** * Views *)
Definition ocell (w : world) (o : vm_output) (a k : bytes) : bytes :=
  match o_accounts o !! a with
  | Some x => default (node_value w a k) (oa_storage x !! k)
  | None => node_value w a k
  end.
Lemma cell_ocell h a k : cell h a k = ocell (h_world h) (h_out h) a k.
Proof. reflexivity. Qed.

Lemma ocell_acc w o a k : ocell w o a k = default (node_value w a k) (oa_storage (oacc o a) !! k).
Proof. unfold ocell, oacc. destruct (o_accounts o !! a); [reflexivity|]. cbn. rewrite lookup_empty. reflexivity. Qed.

Lemma ocell_read w o a k b k' : ocell w (out_read w a k o) b k' = ocell w o b k'.
Proof.
  destruct (decide (a = b)) as [<-|Hne].
  - rewrite !ocell_acc. unfold out_read. rewrite oacc_upd. unfold cached.
    destruct (oa_storage (oacc o a) !! k) eqn:Hk; [reflexivity|]. cbn.
    destruct (decide (k = k')) as [<-|Hk']; [rewrite lookup_insert, Hk; reflexivity|].
    rewrite lookup_insert_ne by exact Hk'. reflexivity.
  - unfold ocell, out_read, out_upd. cbn. rewrite lookup_insert_ne by exact Hne. reflexivity.
Qed.

Lemma ocell_write w o a k v b k' :
  ocell w (out_write a k v o) b k' = if bool_decide (b = a) && bool_decide (k' = k) then v else ocell w o b k'.
Proof.
  destruct (decide (b = a)) as [->|Hne].
  - rewrite bool_decide_true by reflexivity. rewrite !ocell_acc. unfold out_write. rewrite oacc_upd. cbn.
    destruct (decide (k' = k)) as [->|Hk'].
    + rewrite bool_decide_true by reflexivity. rewrite lookup_insert. reflexivity.
    + rewrite bool_decide_false by exact Hk'. rewrite lookup_insert_ne by congruence. reflexivity.
  - rewrite bool_decide_false by exact Hne. unfold ocell, out_write, out_upd. cbn.
    rewrite lookup_insert_ne by congruence. reflexivity.
Qed.

(** what reading or writing cells of an output may change: nothing but storage *)
Definition same_but_storage (o o' : vm_output) : Prop :=
  o_retdata o' = o_retdata o /\ o_code o' = o_code o /\ o_msg o' = o_msg o /\ o_gasrem o' = o_gasrem o /\
  o_logs o' = o_logs o /\
  forall a, set_oa_storage ∅ (oacc o' a) = set_oa_storage ∅ (oacc o a).

Lemma sbs_refl o : same_but_storage o o.
Proof. repeat split. Qed.
Lemma sbs_trans a b c : same_but_storage a b -> same_but_storage b c -> same_but_storage a c.
Proof.
  intros (A1&A2&A3&A4&A5&A6) (B1&B2&B3&B4&B5&B6). 
  split; [congruence|]. split; [congruence|]. split; [congruence|]. split; [congruence|]. split; [congruence|].
  intros x. rewrite B6. apply A6.
Qed.
Lemma sbs_upd a x o : set_oa_storage ∅ x = set_oa_storage ∅ (oacc o a) -> same_but_storage o (out_upd a x o).
Proof.
  intros H. repeat split. intros b. destruct (decide (a = b)) as [<-|Hne].
  - rewrite oacc_upd. exact H.
  - unfold oacc, out_upd. cbn. rewrite lookup_insert_ne by exact Hne. reflexivity.
Qed.
Lemma sbs_read w a k o : same_but_storage o (out_read w a k o).
Proof. apply sbs_upd. unfold cached. destruct (oa_storage _ !! k); reflexivity. Qed.
Lemma sbs_write a k v o : same_but_storage o (out_write a k v o).
Proof. apply sbs_upd. reflexivity. Qed.
Lemma sbs_refund a r o : same_but_storage a o -> same_but_storage a (set_o_refund r o).
Proof. intros (A1&A2&A3&A4&A5&A6). repeat split; assumption. Qed.

(** * Prices *)
Lemma more_points_sat p g : 0 <= p <= max_i64 -> 0 <= g ->
  more_points p (Z.min g max_u64) = Z.min max_i64 (p + g).
Proof.
  intros Hp Hg. unfold more_points. unfold max_i64 in *.
  rewrite add_u64_sat; unfold in_u64, max_u64 in *; [|lia|lia].
  destruct (9223372036854775807 <? _) eqn:H; lia.
Qed.

Lemma mul_price a b : in_u64 a -> 0 <= b <= max_i64 -> MulUint64 a b = Z.min (a * b) max_u64.
Proof. intros Ha Hb. apply mul_u64_sat; [exact Ha|]. unfold in_u64, max_u64, max_i64 in *. lia. Qed.

Lemma add_price a b : 0 <= a -> 0 <= b ->
  AddUint64 (Z.min a max_u64) (Z.min b max_u64) = Z.min (a + b) max_u64.
Proof. intros Ha Hb. rewrite add_u64_sat; unfold in_u64, max_u64 in *; lia. Qed.

(** points used, increased and capped *)
Definition pts_ok (x : inst) : Prop := 0 <= in_points x <= max_i64.
Definition pay (g : Z) (x : inst) : inst := set_in_points (Z.min max_i64 (in_points x + g)) x.
Lemma pay_ok g x : pts_ok x -> 0 <= g -> pts_ok (pay g x).
Proof. unfold pts_ok, pay, max_i64. cbn. lia. Qed.
Lemma pay_0 x : pts_ok x -> pay 0 x = x.
Proof.
  unfold pts_ok, pay. intros H. replace (Z.min max_i64 (in_points x + 0)) with (in_points x) by lia.
  destruct x. reflexivity.
Qed.
Lemma pay_pay a b x : 0 <= a -> pay a (pay b x) = pay (b + a) x.
Proof.
  intros. unfold pay. cbn [in_points set_in_points].
  replace (Z.min max_i64 (Z.min max_i64 (in_points x + b) + a)) with (Z.min max_i64 (in_points x + (b + a))) by lia.
  reflexivity.
Qed.

Lemma UseGas_pay g h i x : running_as h i x -> pts_ok x -> 0 <= g ->
  UseGas (Z.min g max_u64) h = (with_inst i (pay g x) h, OOk tt).
Proof. intros H Hp Hg. rewrite (UseGas_run _ _ _ _ H). rewrite more_points_sat by assumption. reflexivity. Qed.

Lemma UseGas_pay_u g h i x : running_as h i x -> pts_ok x -> in_u64 g ->
  UseGas g h = (with_inst i (pay g x) h, OOk tt).
Proof.
  intros H Hp Hg. rewrite <- (UseGas_pay _ _ _ _ H Hp) by (unfold in_u64 in Hg; lia).
  f_equal. unfold in_u64, max_u64 in *. lia.
Qed.

Lemma blen_nonneg (b : bytes) : 0 <= blen b.
Proof. unfold blen. lia. Qed.

Definition len_ok (b : bytes) : Prop := blen b <= max_i64.

Lemma extra_key_run `{E : env} k h i x : env_ok E -> running_as h i x -> pts_ok x -> len_ok k ->
  useExtraKeyGas k h = (with_inst i (pay (key_price (e_cost E) k) x) h, OOk tt).
Proof.
  intros HE H Hp Hk. unfold useExtraKeyGas, key_price, AddressLen.
  destruct HE as [HE _]. specialize (HE DataCopyPerByte). pose proof (blen_nonneg k).
  unfold len_ok in Hk.
  destruct (0 <? blen k - 32) eqn:Hl.
  - rewrite mul_price; [|exact HE|unfold max_i64 in *; lia].
    replace (Z.max 0 (blen k - 32)) with (blen k - 32) by lia.
    apply UseGas_pay; [exact H|exact Hp|]. unfold in_u64 in HE. nia.
  - replace (Z.max 0 (blen k - 32)) with 0 by lia. rewrite Z.mul_0_r, pay_0 by exact Hp.
    rewrite (with_inst_same _ _ _ H). reflexivity.
Qed.

(** reading a cell of the storage owner, with its gas *)
Lemma GetStorage_run `{E : env} k h i x : env_ok E -> running_as h i x -> pts_ok x -> len_ok k ->
  len_ok (cell h (h_stoaddr h) k) ->
  GetStorage k h =
  (with_inst i (pay (key_price (e_cost E) k + e_cost E DataCopyPerByte * blen (cell h (h_stoaddr h) k)) x)
     (set_h_out (out_read (h_world h) (h_stoaddr h) k (h_out h)) h),
   OOk (cell h (h_stoaddr h) k)).
Proof.
  intros HE H Hp Hk Hv. unfold GetStorage.
  rewrite (bind_ok _ _ _ _ _ (extra_key_run _ _ _ _ HE H Hp Hk)).
  assert (Hkp : 0 <= key_price (e_cost E) k).
  { unfold key_price. destruct HE as [HE _]. specialize (HE DataCopyPerByte). unfold in_u64 in HE. nia. }
  unfold GetStorageUnmetered. rewrite bind_assoc, bind_gets.
  rewrite (bind_ok _ _ _ _ _ (read_unmetered_run _ _ _)).
  change (h_stoaddr (with_inst i (pay (key_price (e_cost E) k) x) h)) with (h_stoaddr h).
  change (cell (with_inst i (pay (key_price (e_cost E) k) x) h) (h_stoaddr h) k) with (cell h (h_stoaddr h) k).
  cbn [h_world h_out with_inst set_h_insts].
  set (v := cell h (h_stoaddr h) k) in *.
  pose proof (blen_nonneg v). unfold len_ok in *.
  rewrite mul_price; [|apply HE|unfold max_i64 in *; lia].
  destruct HE as [HE _]. specialize (HE DataCopyPerByte). unfold in_u64 in HE.
  erewrite bind_ok; [|eapply UseGas_pay with (i := i) (x := pay (key_price (e_cost E) k) x); [split|apply pay_ok; assumption|nia]].
  - rewrite pay_pay by nia.
    change (set_h_out (out_read (h_world h) (h_stoaddr h) k (h_out h)) (with_inst i (pay (key_price (e_cost E) k) x) h))
      with (with_inst i (pay (key_price (e_cost E) k) x) (set_h_out (out_read (h_world h) (h_stoaddr h) k (h_out h)) h)).
    rewrite with_inst_with_inst. reflexivity.
  - exact (proj1 H).
  - cbn. apply lookup_insert.
Qed.

(** * Writing *)
Definition status_of (k : write_kind) : storage_status :=
  match k with WUnchanged => StorageUnchanged | WAdded => StorageAdded | WDeleted => StorageDeleted | WModified => StorageModified end.
Lemma status_of_num k : status_num (status_of k) = kind_num k.
Proof. destruct k; reflexivity. Qed.

Lemma out_write_read w a k v o : out_write a k v (out_read w a k o) = out_write a k v o.
Proof.
  unfold out_write, out_read. rewrite oacc_upd, out_upd_upd. unfold cached.
  destruct (oa_storage (oacc o a) !! k) eqn:Hk; [reflexivity|].
  f_equal. cbn [oa_storage set_oa_storage].
  match goal with |- set_oa_storage ?m _ = set_oa_storage ?m' ?x => change (set_oa_storage m x = set_oa_storage m' x) end.
  rewrite insert_insert. reflexivity.
Qed.
Lemma out_read_same w a k o : out_read w a k o = out_write a k (ocell w o a k) o.
Proof.
  unfold out_write, out_read, cached. rewrite ocell_acc.
  destruct (oa_storage (oacc o a) !! k) as [v|] eqn:Hk; [|reflexivity].
  cbn. rewrite insert_id by exact Hk. destruct (oacc o a); reflexivity.
Qed.

Lemma set_refund_id z o : o_refund o = Some z -> set_o_refund (Some z) o = o.
Proof. intros H. destruct o. cbn in *. subst. reflexivity. Qed.

(** the refund after FreeGas: exact while it fits an int64 *)
Definition more_refund (z g : Z) : Z := i64 (AddUint64 (u64 (i64 z)) (Z.min g max_u64)).
Lemma more_refund_exact z g : 0 <= z -> 0 <= g -> z + g <= max_i64 -> more_refund z g = z + g.
Proof.
  intros Hz Hg Hs. unfold more_refund, max_i64 in *.
  rewrite (i64_id z) by (unfold in_i64, min_i64, max_i64; lia).
  rewrite u64_id by (unfold in_u64, max_u64; lia).
  rewrite add_u64_sat; unfold in_u64, max_u64 in *; [|lia|lia].
  rewrite i64_id by (unfold in_i64, min_i64, max_i64; lia). lia.
Qed.
Lemma FreeGas_run g z h : o_refund (h_out h) = Some z ->
  FreeGas (Z.min g max_u64) h = (set_h_out (set_o_refund (Some (more_refund z g)) (h_out h)) h, OOk tt).
Proof.
  intros Hr. unfold FreeGas, GetRefund. rewrite bind_assoc, bind_gets, Hr. rewrite bind_ret. reflexivity.
Qed.

Lemma cost_nonneg E c : env_ok E -> 0 <= e_cost E c.
Proof. intros [H _]. specialize (H c). unfold in_u64 in H. lia. Qed.
Lemma key_price_nonneg E k : env_ok E -> 0 <= key_price (e_cost E) k.
Proof. intros H. unfold key_price. pose proof (cost_nonneg E DataCopyPerByte H). nia. Qed.
Lemma value_price_nonneg E o v : env_ok E -> 0 <= value_price (e_cost E) o v.
Proof.
  intros H. unfold value_price. pose proof (cost_nonneg E DataCopyPerByte H). pose proof (cost_nonneg E StorePerByte H).
  pose proof (cost_nonneg E PersistPerByte H). pose proof (blen_nonneg o). pose proof (blen_nonneg v).
  destruct (kind_of o v); try nia.
  destruct (blen o <? blen v) eqn:?; [|destruct (blen v <? blen o) eqn:?]; nia.
Qed.
Lemma released_nonneg E o v : env_ok E -> 0 <= released (e_cost E) o v.
Proof.
  intros H. unfold released. pose proof (cost_nonneg E ReleasePerByte H). pose proof (blen_nonneg o).
  destruct (kind_of o v); nia.
Qed.

(** the refund after a write *)
Definition refund_after (price : cost -> Z) (z : Z) (old v : bytes) : Z :=
  match kind_of old v with
  | WDeleted => more_refund z (price ReleasePerByte * blen old)
  | WModified => if blen v <? blen old then more_refund z (price ReleasePerByte * (blen old - blen v)) else z
  | _ => z
  end.
Lemma refund_after_exact E z old v : env_ok E -> 0 <= z -> z + released (e_cost E) old v <= max_i64 ->
  refund_after (e_cost E) z old v = z + released (e_cost E) old v.
Proof.
  intros HE Hz Hs. unfold refund_after, released in *. pose proof (cost_nonneg E ReleasePerByte HE).
  pose proof (blen_nonneg old). destruct (kind_of old v); try lia.
  - apply more_refund_exact; [assumption|nia|assumption].
  - destruct (blen v <? blen old) eqn:Hl.
    + replace (Z.max 0 (blen old - blen v)) with (blen old - blen v) in * by lia.
      apply more_refund_exact; [assumption|nia|assumption].
    + replace (Z.max 0 (blen old - blen v)) with 0 by lia. lia.
Qed.

(** the whole effect of a storage write *)
Lemma SetStorage_run `{E : env} k v h i x z : env_ok E -> running_as h i x -> pts_ok x ->
  len_ok k -> len_ok v -> len_ok (cell h (h_stoaddr h) k) ->
  r_ro (h_rt h) = false -> isElrondReservedKey k = false -> isArwenProtectedKey k && h_stoprot h = false ->
  o_refund (h_out h) = Some z ->
  SetStorage k v h =
  (with_inst i (pay (key_price (e_cost E) k + value_price (e_cost E) (cell h (h_stoaddr h) k) v) x)
     (set_h_out (set_o_refund (Some (refund_after (e_cost E) z (cell h (h_stoaddr h) k) v))
                    (out_write (h_stoaddr h) k v (h_out h))) h),
   OOk (status_of (kind_of (cell h (h_stoaddr h) k) v))).
Proof.
  intros HE H Hp Hk Hv Hold Hro Hres Harw Hr.
  unfold SetStorage. rewrite bind_gets. rewrite Hro. cbv iota. unfold fail_if at 1. rewrite Hres. rewrite bind_ret.
  rewrite bind_gets. unfold fail_if. rewrite Harw. rewrite bind_ret.
  rewrite (bind_ok _ _ _ _ _ (extra_key_run _ _ _ _ HE H Hp Hk)).
  pose proof (key_price_nonneg E k HE) as Hkp.
  set (x1 := pay (key_price (e_cost E) k) x).
  assert (Hp1 : pts_ok x1) by (apply pay_ok; assumption).
  rewrite bind_gets. unfold GetStorageUnmetered. rewrite bind_assoc, bind_gets.
  rewrite (bind_ok _ _ _ _ _ (read_unmetered_run _ _ _)).
  change (h_stoaddr (with_inst i x1 h)) with (h_stoaddr h).
  change (cell (with_inst i x1 h) (h_stoaddr h) k) with (cell h (h_stoaddr h) k).
  cbn [h_world h_out with_inst set_h_insts].
  set (a := h_stoaddr h) in *.
  set (old := cell h a k) in *.
  set (o1 := out_read (h_world h) a k (h_out h)).
  set (h1 := set_h_out o1 (with_inst i x1 h)).
  assert (HR1 : running_as h1 i x1).
  { split; [exact (proj1 H)|]. cbn. apply lookup_insert. }
  pose proof (cost_nonneg E DataCopyPerByte HE). pose proof (cost_nonneg E StorePerByte HE).
  pose proof (cost_nonneg E PersistPerByte HE). pose proof (cost_nonneg E ReleasePerByte HE).
  pose proof (blen_nonneg old). pose proof (blen_nonneg v). unfold len_ok in *.
  unfold beq, value_price, refund_after, kind_of in *.
  assert (Hw : forall y, with_inst i y h1 = with_inst i y (set_h_out o1 h)).
  { intros y. unfold h1. change (set_h_out o1 (with_inst i x1 h)) with (with_inst i x1 (set_h_out o1 h)).
    apply with_inst_with_inst. }
  destruct (bool_decide (old = v)) eqn:Hov.
  { apply bool_decide_eq_true in Hov.
    rewrite mul_price; [|apply HE|lia].
    erewrite bind_ok; [|apply (UseGas_pay _ _ _ _ HR1 Hp1); nia].
    unfold x1. rewrite pay_pay by nia. rewrite Hw. cbn [status_of].
    unfold ret. f_equal. f_equal. f_equal.
    rewrite set_refund_id; [|exact Hr]. unfold o1. rewrite out_read_same.
    change (ocell (h_world h) (h_out h) a k) with old. rewrite Hov. reflexivity. }
  assert (Hu : upd_account a (fun y => set_oa_storage (<[k := v]> (oa_storage y)) y) h1 =
               (set_h_out (out_write a k v (h_out h)) h1, OOk tt)).
  { erewrite upd_account_run; [|unfold h1, o1, out_read, out_upd; cbn; apply lookup_insert].
    f_equal. f_equal. cbn [h_out h1 set_h_out]. unfold o1.
    rewrite <- (out_write_read (h_world h) a k v (h_out h)). unfold out_write at 1. unfold out_read at 2 3. rewrite oacc_upd. reflexivity. }
  rewrite (bind_ok _ _ _ _ _ Hu).
  set (o2 := out_write a k v (h_out h)).
  set (h2 := set_h_out o2 h1).
  assert (HR2 : running_as h2 i x1) by exact HR1.
  assert (Hr2 : o_refund (h_out h2) = Some z) by exact Hr.
  assert (Hw2 : forall y, with_inst i y h2 = with_inst i y (set_h_out o2 h)).
  { intros y. change (with_inst i y h2) with (set_h_out o2 (with_inst i y h1)). rewrite Hw. reflexivity. }
  assert (Hid : set_o_refund (Some z) o2 = o2) by (apply set_refund_id, Hr).
  destruct (decide (old = [])) as [Ho|Ho];
    [rewrite !(bool_decide_true (old = [])) in * by exact Ho|rewrite !(bool_decide_false (old = [])) in * by exact Ho].
  { rewrite mul_price; [|apply HE|lia].
    erewrite bind_ok; [|apply (UseGas_pay _ _ _ _ HR2 Hp1); nia].
    unfold x1. rewrite pay_pay by nia. rewrite Hw2. cbn [status_of].
    rewrite Hid. reflexivity. }
  destruct (decide (v = [])) as [Hve|Hve];
    [rewrite !(bool_decide_true (v = [])) in * by exact Hve|rewrite !(bool_decide_false (v = [])) in * by exact Hve].
  { rewrite mul_price; [|apply HE|lia].
    erewrite bind_ok; [|apply (FreeGas_run _ z), Hr2].
    cbn [status_of]. rewrite Z.add_0_r. unfold ret. f_equal. }
  assert (Hsub : SubInt (blen v) (blen old) = blen v - blen old).
  { rewrite sub_int_exact by (unfold in_i64, min_i64, max_i64 in *; lia).
    apply (f_equal (fun b : bool => if b then _ else _) (bool_decide_true (in_i64 (blen v - blen old)) ltac:(unfold in_i64, min_i64, max_i64 in *; lia))). }
  rewrite Hsub. clear Hsub.
  destruct (0 <? blen v - blen old) eqn:Hl1.
  { replace (blen old <? blen v) with true by lia.
    replace (blen v - blen old <? 0) with false by lia. cbv iota.
    rewrite !mul_price; [|apply HE|lia|apply HE|lia].
    rewrite add_price by nia.
    erewrite bind_ok; [|apply (UseGas_pay _ _ _ _ HR2 Hp1); nia].
    rewrite bind_ret. unfold x1. rewrite pay_pay by nia. rewrite Hw2. cbn [status_of].
    replace (blen v <? blen old) with false by lia.
    rewrite Hid. reflexivity. }
  replace (blen old <? blen v) with false by lia.
  rewrite bind_ret.
  destruct (blen v - blen old <? 0) eqn:Hl2.
  { replace (blen v <? blen old) with true by lia.
    rewrite !mul_price; [|apply HE|lia|apply HE|lia].
    rewrite bind_assoc.
    erewrite bind_ok; [|apply (UseGas_pay _ _ _ _ HR2 Hp1); nia].
    replace (- (blen v - blen old)) with (blen old - blen v) by lia.
    erewrite bind_ok; [|apply (FreeGas_run _ z), Hr2].
    unfold x1. rewrite pay_pay by nia. rewrite Hw2. reflexivity. }
  replace (blen v <? blen old) with false by lia.
  rewrite bind_ret. rewrite Z.add_0_r, Hid. reflexivity.
Qed.

(** * API calls *)
Lemma memload_len m o n b : in_i32 n -> MemLoad m o n = ROk b -> blen b <= max_i32.
Proof.
  intros Hn. unfold MemLoad. destruct (n =? 0); [intros [= <-]; unfold blen, max_i32; cbn; lia|].
  destruct (_ || _); [discriminate|]. destruct (n <? 0) eqn:Hneg; [discriminate|].
  assert (Hg : forall s, blen (gocopy (zeros n) s) <= max_i32).
  { intros s. unfold blen. rewrite gocopy_length. unfold zeros. rewrite replicate_length.
    unfold in_i32 in Hn. lia. }
  destruct (m_length m <? u32 (AddInt32 o n)); (match goal with |- context [slice ?l ?a ?c] => destruct (slice l a c) end);
    cbn [mbind res_bind]; intros Heq; inversion Heq; apply Hg.
Qed.
Lemma memload_len_ok m o n b : MemLoad m o (i32 n) = ROk b -> len_ok b.
Proof.
  intros H. apply memload_len in H; [|apply i32_range]. unfold len_ok, max_i32, max_i64 in *. lia.
Qed.

Section Api.
Context `{E : env} (ed : edf) (es : same).

Lemma run_load o n r k h b : mem_load h o n = ROk b ->
  run_cmd ed es (load o n r k) h = run_cmd ed es (k b) h.
Proof. intros H. unfold load. rewrite run_get, H. reflexivity. Qed.

Lemma run_charge (HE : env_ok E) c k h i x : running_as h i x -> pts_ok x ->
  run_cmd ed es (charge c k) h = run_cmd ed es k (with_inst i (pay (e_cost E c) x) h).
Proof.
  intros H Hp. unfold charge, use. erewrite run_act; [|cbn [interp]; apply (UseGas_pay_u _ _ _ _ H Hp)].
  - reflexivity.
  - apply HE.
Qed.

Lemma run_or_fault_ok {B} (p : prim B) r k h h1 b : interp ed es p h = (h1, OOk b) ->
  run_cmd ed es (or_fault p r k) h = run_cmd ed es (k b) h1.
Proof. intros H. unfold or_fault. erewrite run_do_ok by exact H. reflexivity. Qed.
Lemma run_or_fault_err {B} (p : prim B) r k h h1 e : interp ed es p h = (h1, OErr e) ->
  run_cmd ed es (or_fault p r k) h = run_cmd ed es (fault e r) h1.
Proof. intros H. unfold or_fault. erewrite run_do_err by exact H. reflexivity. Qed.

Lemma mem_load_with_inst h i x x' o n : running_as h i x -> in_mem x' = in_mem x ->
  mem_load (with_inst i x' h) o n = mem_load h o n.
Proof.
  intros H Hm. rewrite (mem_load_run _ _ _ _ _ H), (mem_load_run _ _ _ _ _ (running_with_inst _ _ _ x' H)), Hm.
  reflexivity.
Qed.
End Api.

(** the contract running may write its storage *)
Definition writable `{E : env} (h : host) (k : bytes) : Prop :=
  r_ro (h_rt h) = false /\ isElrondReservedKey k = false /\ isArwenProtectedKey k && h_stoprot h = false.

Lemma storageStore_run `{E : env} fuel ko kl dO dl k v h i x z : env_ok E -> running_as h i x -> pts_ok x ->
  mem_load h (i32 ko) (i32 kl) = ROk k -> mem_load h (i32 dO) (i32 dl) = ROk v ->
  len_ok (cell h (h_stoaddr h) k) -> writable h k -> o_refund (h_out h) = Some z ->
  vmApi fuel (A_storageStore ko kl dO dl) h =
  (with_inst i (pay (e_cost E CStorageStore + key_price (e_cost E) k + value_price (e_cost E) (cell h (h_stoaddr h) k) v) x)
     (set_h_out (set_o_refund (Some (refund_after (e_cost E) z (cell h (h_stoaddr h) k) v))
                   (out_write (h_stoaddr h) k v (h_out h))) h),
   OOk (kind_num (kind_of (cell h (h_stoaddr h) k) v))).
Proof.
  intros HE H Hp Hk Hv Hold (W1 & W2 & W3) Hr.
  unfold vmApi. cbn [api]. unfold storageStore.
  rewrite (run_charge _ _ HE _ _ _ _ _ H Hp).
  pose proof (cost_nonneg E CStorageStore HE).
  set (x1 := pay (e_cost E CStorageStore) x).
  assert (Hp1 : pts_ok x1) by (apply pay_ok; assumption).
  pose proof (running_with_inst _ _ _ x1 H) as H1.
  rewrite (run_load _ _ _ _ _ _ _ k) by (erewrite mem_load_with_inst; [exact Hk|exact H|reflexivity]).
  rewrite (run_load _ _ _ _ _ _ _ v) by (erewrite mem_load_with_inst; [exact Hv|exact H|reflexivity]).
  erewrite run_or_fault_ok; [|cbn [interp]; eapply (SetStorage_run k v _ i x1 z)].
  - cbn [run_cmd]. rewrite status_of_num.
    change (h_stoaddr (with_inst i x1 h)) with (h_stoaddr h).
    change (cell (with_inst i x1 h) (h_stoaddr h) k) with (cell h (h_stoaddr h) k).
    unfold ret. f_equal. unfold x1. rewrite pay_pay.
    + rewrite !Z.add_assoc.
      match goal with |- with_inst i ?y (set_h_out ?o (with_inst i ?y' h)) = _ =>
        change (set_h_out o (with_inst i y' h)) with (with_inst i y' (set_h_out o h)) end.
      rewrite with_inst_with_inst. reflexivity.
    + pose proof (key_price_nonneg E k HE). pose proof (value_price_nonneg E (cell h (h_stoaddr h) k) v HE). lia.
  - exact HE.
  - exact H1.
  - exact Hp1.
  - rewrite (mem_load_run _ _ _ _ _ H) in Hk. eapply memload_len_ok, Hk.
  - rewrite (mem_load_run _ _ _ _ _ H) in Hv. eapply memload_len_ok, Hv.
  - exact Hold.
  - exact W1.
  - exact W2.
  - exact W3.
  - exact Hr.
Qed.

Lemma SetProtected_run `{E : env} k v h i x z : env_ok E -> running_as h i x -> pts_ok x ->
  len_ok k -> len_ok v -> len_ok (cell h (h_stoaddr h) k) ->
  r_ro (h_rt h) = false -> isElrondReservedKey k = false -> o_refund (h_out h) = Some z ->
  SetProtectedStorage k v h =
  (set_h_stoprot true (with_inst i (pay (key_price (e_cost E) k + value_price (e_cost E) (cell h (h_stoaddr h) k) v) x)
     (set_h_out (set_o_refund (Some (refund_after (e_cost E) z (cell h (h_stoaddr h) k) v))
                   (out_write (h_stoaddr h) k v (h_out h))) h)),
   OOk (status_of (kind_of (cell h (h_stoaddr h) k) v))).
Proof.
  intros HE H Hp Hk Hv Hold Hro Hres Hr. unfold SetProtectedStorage. rewrite bind_modify.
  unfold deferring.
  rewrite (SetStorage_run k v (set_h_stoprot false h) i x z); try assumption.
  - rewrite bind_modify. reflexivity.
  - change (h_stoprot (set_h_stoprot false h)) with false. apply andb_false_r.
Qed.

Lemma be_digits_len f z acc : blen (be_digits f z acc) <= Z.of_nat f + blen acc.
Proof.
  revert z acc. induction f as [|f IH]; intros z acc; cbn [be_digits]; [lia|].
  destruct (z <=? 0); [lia|]. etransitivity; [apply IH|]. rewrite blen_cons. lia.
Qed.
Lemma be_encode_len (t : Z) : in_i64 t -> len_ok (timelockBytes t).
Proof.
  intros Ht. unfold len_ok, timelockBytes, be_encode. etransitivity; [apply be_digits_len|].
  assert (Z.log2 (Z.abs t) <= Z.log2 (2^63)) by (apply Z.log2_le_mono; unfold in_i64, min_i64, max_i64 in *; lia).
  change (Z.log2 (2^63)) with 63 in *. change (blen []) with 0. unfold max_i64. lia.
Qed.
Lemma custom_len t k : blen t <= 100 -> blen k <= max_i32 -> len_ok (CustomStorageKey t k).
Proof. unfold len_ok, CustomStorageKey, blen, max_i32, max_i64. rewrite app_length. lia. Qed.

Lemma refund_kept z o : o_refund (set_o_refund z o) = z.
Proof. reflexivity. Qed.

(** ** setStorageLock, getStorageLock, isStorageLocked *)
Definition lock_key (k : bytes) : bytes := CustomStorageKey TimeLockKeyPrefix k.

Lemma setStorageLock_run `{E : env} fuel ko kl t k h i x z : env_ok E -> running_as h i x -> pts_ok x ->
  mem_load h (i32 ko) (i32 kl) = ROk k -> len_ok (cell h (h_stoaddr h) (lock_key k)) ->
  r_ro (h_rt h) = false -> isElrondReservedKey (lock_key k) = false -> o_refund (h_out h) = Some z ->
  let old := cell h (h_stoaddr h) (lock_key k) in let new := timelockBytes (i64 t) in
  vmApi fuel (A_setStorageLock ko kl t) h =
  (set_h_stoprot true (with_inst i (pay (e_cost E CInt64StorageStore + key_price (e_cost E) (lock_key k) + value_price (e_cost E) old new) x)
     (set_h_out (set_o_refund (Some (refund_after (e_cost E) z old new))
                   (out_write (h_stoaddr h) (lock_key k) new (h_out h))) h)),
   OOk (kind_num (kind_of old new))).
Proof.
  intros HE H Hp Hk Hold Hro Hres Hr old new.
  unfold vmApi. cbn [api]. unfold setStorageLock.
  rewrite (run_charge _ _ HE _ _ _ _ _ H Hp).
  pose proof (cost_nonneg E CInt64StorageStore HE).
  set (x1 := pay (e_cost E CInt64StorageStore) x).
  assert (Hp1 : pts_ok x1) by (apply pay_ok; assumption).
  pose proof (running_with_inst _ _ _ x1 H) as H1.
  rewrite (run_load _ _ _ _ _ _ _ k) by (erewrite mem_load_with_inst; [exact Hk|exact H|reflexivity]).
  rewrite (mem_load_run _ _ _ _ _ H) in Hk. apply memload_len in Hk; [|apply i32_range].
  erewrite run_or_fault_ok; [|cbn [interp]; eapply (SetProtected_run _ _ _ i x1 z)].
  - cbn [run_cmd]. rewrite status_of_num.
    change (h_stoaddr (with_inst i x1 h)) with (h_stoaddr h).
    change (cell (with_inst i x1 h) (h_stoaddr h) (CustomStorageKey TimeLockKeyPrefix k)) with old.
    fold new. fold (lock_key k).
    unfold ret. f_equal. unfold x1. rewrite pay_pay.
    + rewrite !Z.add_assoc.
      match goal with |- set_h_stoprot true (with_inst i ?y (set_h_out ?o (with_inst i ?y' h))) = _ =>
        change (set_h_out o (with_inst i y' h)) with (with_inst i y' (set_h_out o h)) end.
      rewrite with_inst_with_inst. reflexivity.
    + pose proof (key_price_nonneg E (lock_key k) HE). pose proof (value_price_nonneg E old new HE). lia.
  - exact HE.
  - exact H1.
  - exact Hp1.
  - apply custom_len; [vm_compute; discriminate|exact Hk].
  - apply be_encode_len, i64_range.
  - exact Hold.
  - exact Hro.
  - exact Hres.
  - exact Hr.
Qed.

Definition lock_state `{E : env} (i : nat) (x : inst) (k : bytes) (h : host) : host :=
  with_inst i (pay (e_cost E CStorageLoad + (key_price (e_cost E) (lock_key k)
      + e_cost E DataCopyPerByte * blen (cell h (h_stoaddr h) (lock_key k)))) x)
    (set_h_out (out_read (h_world h) (h_stoaddr h) (lock_key k) (h_out h)) h).

Lemma getStorageLock_k_run `{E : env} ed es ko kl k kk h i x : env_ok E -> running_as h i x -> pts_ok x ->
  mem_load h ko (i32 kl) = ROk k -> len_ok (cell h (h_stoaddr h) (lock_key k)) ->
  run_cmd ed es (getStorageLock_k ko (i32 kl) kk) h =
  run_cmd ed es (kk (timelockFromBytes (cell h (h_stoaddr h) (lock_key k)))) (lock_state i x k h).
Proof.
  intros HE H Hp Hk Hold. unfold getStorageLock_k.
  rewrite (run_charge _ _ HE _ _ _ _ _ H Hp).
  pose proof (cost_nonneg E CStorageLoad HE).
  set (x1 := pay (e_cost E CStorageLoad) x).
  assert (Hp1 : pts_ok x1) by (apply pay_ok; assumption).
  pose proof (running_with_inst _ _ _ x1 H) as H1.
  rewrite run_get. rewrite (mem_load_with_inst _ i x) by (exact H || reflexivity). rewrite Hk.
  rewrite (mem_load_run _ _ _ _ _ H) in Hk. apply memload_len in Hk; [|apply i32_range].
  erewrite run_act; [|cbn [interp]; eapply (GetStorage_run _ _ i x1)].
  - f_equal. unfold lock_state, x1.
    change (h_stoaddr (with_inst i (pay (e_cost E CStorageLoad) x) h)) with (h_stoaddr h).
    change (cell (with_inst i (pay (e_cost E CStorageLoad) x) h) (h_stoaddr h) (CustomStorageKey TimeLockKeyPrefix k))
      with (cell h (h_stoaddr h) (lock_key k)).
    rewrite pay_pay.
    + match goal with |- with_inst i ?y (set_h_out ?o (with_inst i ?y' h)) = _ =>
        change (set_h_out o (with_inst i y' h)) with (with_inst i y' (set_h_out o h)) end.
      rewrite with_inst_with_inst. reflexivity.
    + pose proof (key_price_nonneg E (lock_key k) HE). pose proof (cost_nonneg E DataCopyPerByte HE).
      pose proof (blen_nonneg (cell h (h_stoaddr h) (lock_key k))).
      change (CustomStorageKey TimeLockKeyPrefix k) with (lock_key k). nia.
  - exact HE.
  - exact H1.
  - exact Hp1.
  - apply custom_len; [vm_compute; discriminate|exact Hk].
  - exact Hold.
Qed.

(** ** Frames and cells *)
Lemma sto_frame_intro h h' o' i y : same_but_storage (h_out h) o' -> 
  h' = with_inst i y (set_h_out o' h) -> sto_frame h h'.
Proof. intros H ->. split; [exact H|]. repeat split. Qed.

Lemma cell_set_intro h h' i y a k v r :
  h' = with_inst i y (set_h_out (set_o_refund r (out_write a k v (h_out h))) h) -> cell_set a k v h h'.
Proof.
  intros ->. intros b k'. rewrite !cell_ocell.
  change (ocell (h_world h) (out_write a k v (h_out h)) b k' = 
          if bool_decide (b = a) && bool_decide (k' = k) then v else ocell (h_world h) (h_out h) b k').
  apply ocell_write.
Qed.

Lemma set_out_id h : set_h_out (h_out h) h = h.
Proof. destruct h. reflexivity. Qed.

Section Api2.
Context `{E : env}.

Lemma c12_store fuel ko kl dO dl k v h z : env_ok E -> calling h ->
  mem_load h (i32 ko) (i32 kl) = ROk k -> mem_load h (i32 dO) (i32 dl) = ROk v ->
  go_len (cell h (h_stoaddr h) k) -> writable h k -> o_refund (h_out h) = Some z ->
  let old := cell h (h_stoaddr h) k in
  exists h', vmApi fuel (A_storageStore ko kl dO dl) h = (h', OOk (kind_num (kind_of old v))) /\
    cell_set (h_stoaddr h) k v h h' /\ sto_frame h h' /\
    points_of h' = Z.min max_i64 (points_of h + store_price (e_cost E) k old v) /\
    o_refund (h_out h') = Some (refund_after (e_cost E) z old v) /\
    h_stoprot h' = h_stoprot h /\ cur_mem h' = cur_mem h /\ calling h'.
Proof.
  intros HE (i & x & Hc & Hi & Hp & _) Hk Hv Hlen Hw Hr old.
  assert (H : running_as h i x) by (split; assumption).
  eexists. split; [eapply storageStore_run; eassumption|].
  set (y := pay _ x). 
  pose proof (running_with_inst h i x y H) as H1.
  assert (H2 : running_as (with_inst i y (set_h_out (set_o_refund (Some (refund_after (e_cost E) z old v)) (out_write (h_stoaddr h) k v (h_out h))) h)) i y)
    by exact H1.
  fold old in H2 |- *.
  split; [eapply cell_set_intro; reflexivity|].
  split; [eapply sto_frame_intro; [|reflexivity]; apply sbs_refund, sbs_write|].
  split; [rewrite (points_run _ _ _ H2), (points_run _ _ _ H); reflexivity|].
  split; [reflexivity|]. split; [reflexivity|].
  split; [rewrite (cur_mem_run _ _ _ H2), (cur_mem_run _ _ _ H); reflexivity|].
  exists i, y. destruct H2 as [G1 G2]. split; [exact G1|]. split; [exact G2|].
  split; [|eexists; reflexivity].
  apply pay_ok; [exact Hp|]. fold old. 
  pose proof (cost_nonneg E CStorageStore HE). pose proof (key_price_nonneg E k HE). pose proof (value_price_nonneg E old v HE). lia.
Qed.

(** a write that is not allowed *)
Lemma SetStorage_denied k v h : ~ writable h k ->
  SetStorage k v h = (h, if r_ro (h_rt h) then OOk StorageUnchanged
                         else if isElrondReservedKey k then OErr ErrStoreElrondReservedKey
                         else OErr ErrCannotWriteProtectedKey).
Proof.
  intros Hw. unfold SetStorage. rewrite bind_gets. destruct (r_ro (h_rt h)) eqn:Hro; [reflexivity|].
  destruct (isElrondReservedKey k) eqn:He; [reflexivity|]. cbn [fail_if]. rewrite bind_ret, bind_gets.
  destruct (isArwenProtectedKey k && h_stoprot h) eqn:Ha; [reflexivity|].
  exfalso. apply Hw. split; [exact Hro|]. split; assumption.
Qed.

Lemma c15_store fuel ko kl dO dl k v h : env_ok E -> calling h ->
  mem_load h (i32 ko) (i32 kl) = ROk k -> mem_load h (i32 dO) (i32 dl) = ROk v ->
  r_ro (h_rt h) = false -> ~ writable h k ->
  exists h', vmApi fuel (A_storageStore ko kl dO dl) h = (h', OOk (-1)) /\
    (forall a k', cell h' a k' = cell h a k') /\ h_world h' = h_world h /\
    (exists i x, h_cur h' = Some i /\ h_insts h' !! i = Some x /\ in_bp x = BreakpointExecutionFailed) /\
    o_code (h_out h') = RcExecutionFailed.
Proof.
  intros HE (i & x & Hc & Hi & Hp & _) Hk Hv Hro Hw.
  assert (H : running_as h i x) by (split; assumption).
  unfold vmApi. cbn [api]. unfold storageStore.
  rewrite (run_charge _ _ HE _ _ _ _ _ H Hp).
  set (x1 := pay _ x). pose proof (running_with_inst _ _ _ x1 H) as H1.
  rewrite (run_load _ _ _ _ _ _ _ k) by (erewrite mem_load_with_inst; [exact Hk|exact H|reflexivity]).
  rewrite (run_load _ _ _ _ _ _ _ v) by (erewrite mem_load_with_inst; [exact Hv|exact H|reflexivity]).
  assert (Hden : exists e, SetStorage k v (with_inst i x1 h) = (with_inst i x1 h, OErr e)).
  { rewrite SetStorage_denied by exact Hw. change (r_ro (h_rt (with_inst i x1 h))) with (r_ro (h_rt h)).
    rewrite Hro. destruct (isElrondReservedKey k); eexists; reflexivity. }
  destruct Hden as [e Hden].
  erewrite run_or_fault_err; [|cbn [interp]; exact Hden].
  rewrite (run_fault _ _ _ _ _ _ _ H1). eexists. split; [reflexivity|].
  split; [reflexivity|]. split; [reflexivity|]. split; [|reflexivity].
  exists i. eexists. split; [exact Hc|]. split; [apply lookup_insert|]. reflexivity.
Qed.

Lemma c20_store fuel ko kl dO dl k v h : env_ok E -> calling h ->
  mem_load h (i32 ko) (i32 kl) = ROk k -> mem_load h (i32 dO) (i32 dl) = ROk v ->
  r_ro (h_rt h) = true ->
  exists h', vmApi fuel (A_storageStore ko kl dO dl) h = (h', OOk 0) /\ h_out h' = h_out h /\ h_world h' = h_world h.
Proof.
  intros HE (i & x & Hc & Hi & Hp & _) Hk Hv Hro.
  assert (H : running_as h i x) by (split; assumption).
  unfold vmApi. cbn [api]. unfold storageStore.
  rewrite (run_charge _ _ HE _ _ _ _ _ H Hp).
  set (x1 := pay _ x). pose proof (running_with_inst _ _ _ x1 H) as H1.
  rewrite (run_load _ _ _ _ _ _ _ k) by (erewrite mem_load_with_inst; [exact Hk|exact H|reflexivity]).
  rewrite (run_load _ _ _ _ _ _ _ v) by (erewrite mem_load_with_inst; [exact Hv|exact H|reflexivity]).
  erewrite run_or_fault_ok; [|cbn [interp]; rewrite SetStorage_denied; [change (r_ro (h_rt (with_inst i x1 h))) with (r_ro (h_rt h)); rewrite Hro; reflexivity|]].
  - eexists. split; [reflexivity|]. split; reflexivity.
  - intros [Hf _]. change (r_ro (h_rt h) = false) in Hf. congruence.
Qed.

(** ** Reads *)
Lemma mem_store_run h i x o d m' r : running_as h i x -> MemStore (in_mem x) o d = (m', ROk r) ->
  mem_store o d h = (with_inst i (set_in_mem m' x) h, OOk tt).
Proof.
  intros H Hm. unfold mem_store. rewrite (bind_ok _ _ _ _ _ (cur_inst_run _ _ _ H)). rewrite Hm.
  rewrite (bind_ok _ _ _ _ _ (upd_inst_run _ _ _ _ H)). destruct r. reflexivity.
Qed.

Lemma c12_load fuel ko kl dO k h m m' : env_ok E -> calling h ->
  mem_load h (i32 ko) (i32 kl) = ROk k -> go_len (cell h (h_stoaddr h) k) ->
  cur_mem h = ROk m -> MemStore m (i32 dO) (cell h (h_stoaddr h) k) = (m', ROk tt) ->
  exists h', vmApi fuel (A_storageLoad ko kl dO) h = (h', OOk (zlen (cell h (h_stoaddr h) k))) /\
    cur_mem h' = ROk m' /\ (forall a k', cell h' a k' = cell h a k') /\ sto_frame h h' /\
    o_refund (h_out h') = o_refund (h_out h) /\ h_stoprot h' = h_stoprot h /\ calling h'.
Proof.
  intros HE (i & x & Hc & Hi & Hp & Hr) Hk Hlen Hm Hs.
  assert (H : running_as h i x) by (split; assumption).
  rewrite (cur_mem_run _ _ _ H) in Hm. injection Hm as Hm.
  unfold vmApi. cbn [api]. unfold storageLoad.
  rewrite (run_charge _ _ HE _ _ _ _ _ H Hp).
  pose proof (cost_nonneg E CStorageLoad HE) as C1. pose proof (cost_nonneg E DataCopyPerByte HE) as C2.
  set (x1 := pay _ x). assert (Hp1 : pts_ok x1) by (apply pay_ok; assumption).
  pose proof (running_with_inst _ _ _ x1 H) as H1.
  rewrite (run_load _ _ _ _ _ _ _ k) by (erewrite mem_load_with_inst; [exact Hk|exact H|reflexivity]).
  rewrite (mem_load_run _ _ _ _ _ H) in Hk. apply memload_len_ok in Hk.
  erewrite run_act; [|cbn [interp]; apply (GetStorage_run _ _ i x1 HE H1 Hp1 Hk Hlen)].
  set (v := cell h (h_stoaddr h) k) in *.
  change (cell (with_inst i x1 h) (h_stoaddr (with_inst i x1 h)) k) with v.
  set (x2 := pay _ x1).
  match goal with |- context [run_cmd _ _ _ ?hh] => set (h2 := hh) end.
  assert (H2 : running_as h2 i x2) by (apply (running_with_inst _ _ x1); exact H1).
  unfold store. erewrite run_or_fault_ok; [|cbn [interp]; eapply (mem_store_run _ i x2 _ _ m'); [exact H2|]].
  2:{ change (in_mem x2) with (in_mem x). rewrite Hm. exact Hs. }
  set (x3 := set_in_mem m' x2). pose proof (running_with_inst _ _ _ x3 H2) as H3.
  eexists. split; [reflexivity|].
  split; [rewrite (cur_mem_run _ _ _ H3); reflexivity|].
  split. { intros a k'. rewrite !cell_ocell. apply ocell_read. }
  split. { split; [apply sbs_read|]. repeat split. }
  split; [reflexivity|]. split; [reflexivity|].
  exists i, x3. split; [exact Hc|]. split; [apply H3|]. split; [|exact Hr].
  apply pay_ok; [exact Hp1|]. pose proof (key_price_nonneg E k HE). pose proof (blen_nonneg v). nia.
Qed.

Lemma c12_length fuel ko kl k h : env_ok E -> calling h ->
  mem_load h (i32 ko) (i32 kl) = ROk k ->
  exists h', vmApi fuel (A_storageLoadLength ko kl) h = (h', OOk (zlen (cell h (h_stoaddr h) k))) /\
    (forall a k', cell h' a k' = cell h a k') /\ sto_frame h h'.
Proof.
  intros HE (i & x & Hc & Hi & Hp & Hr) Hk.
  assert (H : running_as h i x) by (split; assumption).
  unfold vmApi. cbn [api]. unfold storageLoadLength.
  rewrite (run_charge _ _ HE _ _ _ _ _ H Hp).
  set (x1 := pay _ x). pose proof (running_with_inst _ _ _ x1 H) as H1.
  rewrite (run_load _ _ _ _ _ _ _ k) by (erewrite mem_load_with_inst; [exact Hk|exact H|reflexivity]).
  erewrite run_act; [|cbn [interp]; unfold GetStorageUnmetered; rewrite bind_gets; apply read_unmetered_run].
  eexists. split; [reflexivity|].
  split. { intros a k'. rewrite !cell_ocell. apply ocell_read. }
  split; [apply sbs_read|]. repeat split.
Qed.

(** ** Reading another account *)
Definition may_read (h : host) (a : bytes) : Prop :=
  a = h_stoaddr h \/ exists u, w_accounts (h_world h) !! a = Some u /\ meta_readable (ua_meta u) = true.

Lemma from_denied a k h i x : env_ok E -> running_as h i x -> pts_ok x -> len_ok k -> ~ may_read h a ->
  GetStorageFromAddress a k h = (with_inst i (pay (key_price (e_cost E) k) x) h, OOk []).
Proof.
  intros HE H Hp Hk Hd. unfold GetStorageFromAddress.
  rewrite (bind_ok _ _ _ _ _ (extra_key_run _ _ _ _ HE H Hp Hk)). rewrite !bind_gets.
  change (h_stoaddr (with_inst i (pay (key_price (e_cost E) k) x) h)) with (h_stoaddr h).
  change (h_world (with_inst i (pay (key_price (e_cost E) k) x) h)) with (h_world h).
  assert (Ho : beq a (h_stoaddr h) = false).
  { unfold beq. apply bool_decide_false. intros ->. apply Hd. left. reflexivity. }
  rewrite Ho. cbn [orb].
  destruct (w_accounts (h_world h) !! a) as [u|] eqn:Hu; [|reflexivity].
  destruct (meta_readable (ua_meta u)) eqn:Hm; [|reflexivity].
  exfalso. apply Hd. right. exists u. split; [exact Hu|exact Hm].
Qed.

Lemma c19_denied fuel ao ko kl dO k a h : env_ok E -> calling h ->
  mem_load h (i32 ko) (i32 kl) = ROk k -> mem_load h (i32 ao) 32 = ROk a -> ~ may_read h a ->
  exists h', vmApi fuel (A_storageLoadFromAddress ao ko kl dO) h = (h', OOk 0) /\
    cur_mem h' = cur_mem h /\ h_out h' = h_out h /\ sto_frame h h'.
Proof.
  intros HE (i & x & Hc & Hi & Hp & Hr) Hk Ha Hd.
  assert (H : running_as h i x) by (split; assumption).
  unfold vmApi. cbn [api]. unfold storageLoadFromAddress.
  rewrite (run_charge _ _ HE _ _ _ _ _ H Hp).
  pose proof (cost_nonneg E CStorageLoad HE) as C1. 
  set (x1 := pay _ x). assert (Hp1 : pts_ok x1) by (apply pay_ok; assumption).
  pose proof (running_with_inst _ _ _ x1 H) as H1.
  rewrite (run_load _ _ _ _ _ _ _ k) by (erewrite mem_load_with_inst; [exact Hk|exact H|reflexivity]).
  rewrite (run_load _ _ _ _ _ _ _ a) by (erewrite mem_load_with_inst; [exact Ha|exact H|reflexivity]).
  rewrite (mem_load_run _ _ _ _ _ H) in Hk. apply memload_len_ok in Hk.
  erewrite run_act; [|cbn [interp]; apply (from_denied _ _ _ i x1 HE H1 Hp1 Hk Hd)].
  rewrite with_inst_with_inst. set (x2 := pay _ x1). pose proof (running_with_inst _ _ _ x2 H) as H2.
  unfold store. erewrite run_or_fault_ok; [|cbn [interp]; eapply (mem_store_run _ i x2 _ _ (in_mem x2)); [exact H2|reflexivity]].
  rewrite with_inst_with_inst.
  pose proof (running_with_inst _ _ _ (set_in_mem (in_mem x2) x2) H) as H3.
  eexists. split; [reflexivity|].
  split; [rewrite (cur_mem_run _ _ _ H3), (cur_mem_run _ _ _ H); reflexivity|].
  split; [reflexivity|]. split; [apply sbs_refl|]. repeat split.
Qed.

Lemma c19_allowed fuel ao ko kl dO k a h m m' : env_ok E -> calling h ->
  mem_load h (i32 ko) (i32 kl) = ROk k -> mem_load h (i32 ao) 32 = ROk a -> may_read h a ->
  let v := if isElrondReservedKey k then node_value (h_world h) a k else cell h a k in
  go_len v -> cur_mem h = ROk m -> MemStore m (i32 dO) v = (m', ROk tt) ->
  exists h', vmApi fuel (A_storageLoadFromAddress ao ko kl dO) h = (h', OOk (zlen v)) /\
    cur_mem h' = ROk m' /\ (forall b k', cell h' b k' = cell h b k') /\ sto_frame h h'.
Proof.
  intros HE (i & x & Hc & Hi & Hp & Hr) Hk Ha Hd v Hlen Hm Hs.
  assert (Hvd : (if isElrondReservedKey k then node_value (h_world h) a k else cell h a k) = v) by reflexivity.
  clearbody v.
  assert (H : running_as h i x) by (split; assumption).
  rewrite (cur_mem_run _ _ _ H) in Hm. injection Hm as Hm.
  unfold vmApi. cbn [api]. unfold storageLoadFromAddress.
  rewrite (run_charge _ _ HE _ _ _ _ _ H Hp).
  pose proof (cost_nonneg E CStorageLoad HE) as C1. 
  set (x1 := pay _ x). assert (Hp1 : pts_ok x1) by (apply pay_ok; assumption).
  pose proof (running_with_inst _ _ _ x1 H) as H1.
  rewrite (run_load _ _ _ _ _ _ _ k) by (erewrite mem_load_with_inst; [exact Hk|exact H|reflexivity]).
  rewrite (run_load _ _ _ _ _ _ _ a) by (erewrite mem_load_with_inst; [exact Ha|exact H|reflexivity]).
  rewrite (mem_load_run _ _ _ _ _ H) in Hk. apply memload_len_ok in Hk.
  assert (Hg : exists x2 o2, GetStorageFromAddress a k (with_inst i x1 h) = (with_inst i x2 (set_h_out o2 h), OOk v)
     /\ in_mem x2 = in_mem x /\ (forall b k', ocell (h_world h) o2 b k' = ocell (h_world h) (h_out h) b k')
     /\ same_but_storage (h_out h) o2).
  { unfold GetStorageFromAddress.
    rewrite (bind_ok _ _ _ _ _ (extra_key_run _ _ _ _ HE H1 Hp1 Hk)). rewrite with_inst_with_inst. rewrite !bind_gets.
    set (x2 := pay _ x1). pose proof (running_with_inst _ _ _ x2 H) as H2.
    change (h_stoaddr (with_inst i x2 h)) with (h_stoaddr h).
    change (h_world (with_inst i x2 h)) with (h_world h).
    assert (Hok : (beq a (h_stoaddr h) || match w_accounts (h_world h) !! a with
            | Some u => meta_readable (ua_meta u) | None => false end) = true).
    { destruct Hd as [->|(u & Hu & Hmr)].
      - unfold beq. rewrite bool_decide_true by reflexivity. reflexivity.
      - rewrite Hu, Hmr. apply orb_true_r. }
    rewrite Hok. cbn [negb].
    assert (Hp2 : pts_ok x2) by (apply pay_ok; [exact Hp1|apply key_price_nonneg; exact HE]).
    pose proof (cost_nonneg E DataCopyPerByte HE) as C2. pose proof (blen_nonneg v).
    destruct (isElrondReservedKey k) eqn:Hpre.
    - cbv iota. rewrite bind_ret.
      assert (Hv : GetStorageData (h_world h) a k = v) by (exact Hvd). rewrite Hv.
      rewrite (mul_price (e_cost E DataCopyPerByte) (blen v)); [|apply HE|unfold go_len in Hlen; lia].
      rewrite (bind_ok _ _ _ _ _ (UseGas_pay (e_cost E DataCopyPerByte * blen v) _ _ _ H2 Hp2 ltac:(nia))). rewrite with_inst_with_inst.
      eexists. exists (h_out h). split; [|split; [|split]].
      + change (set_h_out (h_out h) h) with (set_h_out (h_out h) h). rewrite set_out_id. reflexivity.
      + reflexivity.
      + reflexivity.
      + apply sbs_refl.
    - cbv iota. rewrite (bind_ok _ _ _ _ _ (read_unmetered_run _ _ _)).
      assert (Hv : cell (with_inst i x2 h) a k = v) by (exact Hvd). rewrite Hv.
      set (h3 := set_h_out _ _). assert (H3 : running_as h3 i x2) by exact H2.
      rewrite (mul_price (e_cost E DataCopyPerByte) (blen v)); [|apply HE|unfold go_len in Hlen; lia].
      rewrite (bind_ok _ _ _ _ _ (UseGas_pay (e_cost E DataCopyPerByte * blen v) _ _ _ H3 Hp2 ltac:(nia))).
      eexists. exists (out_read (h_world h) a k (h_out h)). split; [|split; [|split]].
      + unfold h3, ret.
        match goal with |- (with_inst i ?y (set_h_out ?o (with_inst i ?y' h)), _) = _ =>
          change (set_h_out o (with_inst i y' h)) with (with_inst i y' (set_h_out o h)) end.
        rewrite with_inst_with_inst. reflexivity.
      + reflexivity.
      + intros b k'. apply ocell_read.
      + apply sbs_read. }
  destruct Hg as (x2 & o2 & Hg & Hmem & Hcell & Hsame).
  erewrite run_act; [|cbn [interp]; exact Hg].
  assert (H2 : running_as (with_inst i x2 (set_h_out o2 h)) i x2) by (apply (running_with_inst _ _ x); exact H).
  unfold store. erewrite run_or_fault_ok; [|cbn [interp]; eapply (mem_store_run _ i x2 _ _ m'); [exact H2|]].
  2:{ rewrite Hmem, Hm. exact Hs. }
  rewrite with_inst_with_inst.
  assert (H3 : running_as (with_inst i (set_in_mem m' x2) (set_h_out o2 h)) i (set_in_mem m' x2))
    by (apply (running_with_inst _ _ x); exact H).
  eexists. split; [reflexivity|].
  split; [rewrite (cur_mem_run _ _ _ H3); reflexivity|].
  split; [exact Hcell|]. split; [exact Hsame|]. repeat split.
Qed.
End Api2.

(** ** Sequences *)
Fixpoint sto_exec `{E : env} (ops : list sto_op) : M (list bytes) :=
  match ops with
  | [] => ret []
  | SGet k :: ops => v <- GetStorage k ;; r <- sto_exec ops ;; ret (v :: r)
  | SSet k v :: ops => try (SetStorage k v) ;;; sto_exec ops
  end.

Definition can_write `{E : env} (h : host) (k : bytes) : bool :=
  negb (r_ro (h_rt h)) && negb (isElrondReservedKey k) && negb (isArwenProtectedKey k && h_stoprot h).
Lemma can_write_spec `{E : env} h k : can_write h k = true <-> writable h k.
Proof.
  unfold can_write, writable. rewrite !andb_true_iff, !negb_true_iff. tauto.
Qed.

Definition op_len (op : sto_op) : Prop :=
  match op with SGet k => go_len k | SSet k v => go_len k /\ go_len v end.

Lemma sto_run_ext ok ops m m' : (forall k, m k = m' k) ->
  fst (sto_run ok ops m) = fst (sto_run ok ops m') /\ forall k, snd (sto_run ok ops m) k = snd (sto_run ok ops m') k.
Proof.
  revert m m'. induction ops as [|[k|k v] ops IH]; intros m m' H; cbn.
  - split; [reflexivity|exact H].
  - destruct (IH m m' H) as [I1 I2]. rewrite I1, H. split; [reflexivity|exact I2].
  - apply IH. intros x. rewrite H. reflexivity.
Qed.

Lemma sto_exec_run `{E : env} ops h : env_ok E -> calling h -> Forall op_len ops ->
  (forall k, go_len (cell h (h_stoaddr h) k)) ->
  exists h', sto_exec ops h = (h', OOk (fst (sto_run (can_write h) ops (cell h (h_stoaddr h))))) /\
    (forall k, cell h' (h_stoaddr h) k = snd (sto_run (can_write h) ops (cell h (h_stoaddr h))) k) /\
    (forall a k, a <> h_stoaddr h -> cell h' a k = cell h a k) /\ sto_frame h h'.
Proof.
  intros HE. revert h. induction ops as [|op ops IH]; intros h Hc Hl Hv.
  - exists h. split; [reflexivity|]. split; [reflexivity|]. split; [reflexivity|].
    split; [apply sbs_refl|]. repeat split.
  - apply Forall_cons_1 in Hl. destruct Hl as [Hl1 Hl2].
    destruct Hc as (i & x & Hc & Hi & Hp & Hr).
    assert (H : running_as h i x) by (split; assumption).
    destruct op as [k|k v]; cbn [sto_exec].
    + rewrite (bind_ok _ _ _ _ _ (GetStorage_run _ _ _ _ HE H Hp Hl1 (Hv k))).
      set (y := pay _ x). set (o := out_read _ _ _ _).
      destruct (IH (with_inst i y (set_h_out o h))) as (h' & I1 & I2 & I3 & I4).
      * exists i, y. split; [exact Hc|]. split; [apply lookup_insert|]. split; [|exact Hr].
        apply pay_ok; [exact Hp|]. pose proof (key_price_nonneg E k HE). pose proof (cost_nonneg E DataCopyPerByte HE).
        pose proof (blen_nonneg (cell h (h_stoaddr h) k)). nia.
      * exact Hl2.
      * intros k'. change (go_len (ocell (h_world h) o (h_stoaddr h) k')). unfold o. rewrite ocell_read. apply Hv.
      * assert (He : forall k', cell (with_inst i y (set_h_out o h)) (h_stoaddr h) k' = cell h (h_stoaddr h) k').
        { intros k'. apply ocell_read. }
        destruct (sto_run_ext (can_write h) ops _ _ He) as [E1 E2].
        exists h'. rewrite (bind_ok _ _ _ _ _ I1).
        change (h_stoaddr (with_inst i y (set_h_out o h))) with (h_stoaddr h).
        change (can_write (with_inst i y (set_h_out o h))) with (can_write h). rewrite E1.
        split; [reflexivity|].
        split. { intros k'. etransitivity; [apply I2|]. apply E2. }
        split. { intros a k' Ha. etransitivity; [apply I3; exact Ha|]. apply ocell_read. }
        { destruct I4 as [J1 J2]. split; [eapply sbs_trans; [|exact J1]; apply sbs_read|exact J2]. }
    + destruct (can_write h k) eqn:Hw.
      * apply can_write_spec in Hw as (W1 & W2 & W3). destruct Hr as [z Hr].
        destruct Hl1 as [L1 L2].
        pose proof (SetStorage_run k v h i x z HE H Hp L1 L2 (Hv k) W1 W2 W3 Hr) as HS.
        unfold bind at 1, try. rewrite HS.
        set (y := pay _ x). set (o := set_o_refund _ _).
        assert (He : forall k', cell (with_inst i y (set_h_out o h)) (h_stoaddr h) k' =
                 if can_write h k && bool_decide (k' = k) then v else cell h (h_stoaddr h) k').
        { intros k'. replace (can_write h k) with true by (symmetry; apply can_write_spec; repeat split; assumption).
          rewrite cell_ocell. change (ocell (h_world h) (out_write (h_stoaddr h) k v (h_out h)) (h_stoaddr h) k' = 
             if bool_decide (k' = k) then v else cell h (h_stoaddr h) k').
          rewrite ocell_write, bool_decide_true by reflexivity. reflexivity. }
        destruct (IH (with_inst i y (set_h_out o h))) as (h' & I1 & I2 & I3 & I4).
        -- exists i, y. split; [exact Hc|]. split; [apply lookup_insert|]. split; [|eexists; reflexivity].
           apply pay_ok; [exact Hp|]. pose proof (key_price_nonneg E k HE).
           pose proof (value_price_nonneg E (cell h (h_stoaddr h) k) v HE). lia.
        -- exact Hl2.
        -- intros k'. change (go_len (cell (with_inst i y (set_h_out o h)) (h_stoaddr h) k')). rewrite He.
           destruct (can_write h k && bool_decide (k' = k)); [exact L2|apply Hv].
        -- destruct (sto_run_ext (can_write h) ops _ _ He) as [E1 E2].
           exists h'. cbn [sto_run]. rewrite <- E1. split; [exact I1|].
           split. { intros k'. etransitivity; [apply I2|]. apply E2. }
           split. { intros a k' Ha. etransitivity; [apply I3; exact Ha|]. rewrite !cell_ocell.
             change (ocell (h_world h) (out_write (h_stoaddr h) k v (h_out h)) a k' = ocell (h_world h) (h_out h) a k').
             rewrite ocell_write, bool_decide_false by exact Ha. reflexivity. }
           { destruct I4 as [J1 J2]. split; [eapply sbs_trans; [|exact J1]; apply sbs_refund, sbs_write|exact J2]. }
      * assert (Hden := SetStorage_denied k v h).
        assert (Hnw : ~ writable h k) by (intros Hx; apply can_write_spec in Hx; congruence).
        specialize (Hden Hnw).
        assert (Ht : exists r, try (SetStorage k v) h = (h, OOk r)).
        { unfold try. rewrite Hden. destruct (r_ro (h_rt h)); [eexists; reflexivity|].
          destruct (isElrondReservedKey k); eexists; reflexivity. }
        destruct Ht as [r Ht]. rewrite (bind_ok _ _ _ _ _ Ht).
        destruct (IH h) as (h' & I1 & I2 & I3 & I4);
          [exists i, x; split; [exact Hc|]; split; [exact Hi|]; split; [exact Hp|exact Hr]|exact Hl2|exact Hv|].
        exists h'. cbn [sto_run]. rewrite Hw.
        destruct (sto_run_ext (can_write h) ops (cell h (h_stoaddr h)) (fun x => if false && bool_decide (x = k) then v else cell h (h_stoaddr h) x)) as [E1 E2]; [reflexivity|].
        rewrite <- E1. split; [exact I1|]. split; [intros k'; rewrite <- E2; apply I2|]. split; [exact I3|exact I4].
Qed.

(** ** Locks *)
Section Locks.
Context `{E : env}.

Lemma c17_set fuel ko kl t k h : env_ok E -> calling h ->
  mem_load h (i32 ko) (i32 kl) = ROk k -> go_len (cell h (h_stoaddr h) (lock_key k)) ->
  r_ro (h_rt h) = false -> isElrondReservedKey (lock_key k) = false ->
  let old := cell h (h_stoaddr h) (lock_key k) in
  exists h', vmApi fuel (A_setStorageLock ko kl t) h = (h', OOk (kind_num (kind_of old (timelockBytes (i64 t))))) /\
    cell_set (h_stoaddr h) (lock_key k) (timelockBytes (i64 t)) h h' /\ sto_frame h h' /\
    cur_mem h' = cur_mem h /\ calling h'.
Proof.
  intros HE (i & x & Hc & Hi & Hp & [z Hr]) Hk Hlen Hro Hres old.
  assert (H : running_as h i x) by (split; assumption).
  eexists. split; [eapply setStorageLock_run; eassumption|]. cbv zeta. fold old.
  set (y := pay _ x). 
  match goal with |- context [cell_set _ _ _ h ?g] => set (h' := g) end.
  assert (H2 : running_as h' i y) by (apply (running_with_inst _ _ x); exact H).
  split. { intros b k'. rewrite !cell_ocell. apply ocell_write. }
  split. { split; [apply sbs_refund, sbs_write|]. repeat split. }
  split; [rewrite (cur_mem_run _ _ _ H2), (cur_mem_run _ _ _ H); reflexivity|].
  exists i, y. destruct H2 as [G1 G2]. split; [exact G1|]. split; [exact G2|].
  split; [|eexists; reflexivity].
  apply pay_ok; [exact Hp|].
  pose proof (cost_nonneg E CInt64StorageStore HE). pose proof (key_price_nonneg E (lock_key k) HE).
  pose proof (value_price_nonneg E old (timelockBytes (i64 t)) HE). lia.
Qed.

Lemma c17_get fuel ko kl k h : env_ok E -> calling h ->
  mem_load h (i32 ko) (i32 kl) = ROk k -> go_len (cell h (h_stoaddr h) (lock_key k)) ->
  exists h', vmApi fuel (A_getStorageLock ko kl) h = (h', OOk (timelockFromBytes (cell h (h_stoaddr h) (lock_key k)))) /\
    (forall a k', cell h' a k' = cell h a k') /\ sto_frame h h'.
Proof.
  intros HE (i & x & Hc & Hi & Hp & Hr) Hk Hlen.
  assert (H : running_as h i x) by (split; assumption).
  unfold vmApi. cbn [api]. unfold getStorageLock.
  rewrite (getStorageLock_k_run _ _ _ _ _ _ _ _ _ HE H Hp Hk Hlen).
  eexists. split; [reflexivity|]. split; [intros a k'; apply ocell_read|].
  split; [apply sbs_read|]. repeat split.
Qed.

Lemma c17_locked fuel ko kl k t h : env_ok E -> calling h ->
  mem_load h (i32 ko) (i32 kl) = ROk k -> cell h (h_stoaddr h) (lock_key k) = timelockBytes t ->
  0 <= t <= max_i64 -> 0 <= e_blockinfo E true "timestamp" <= max_i64 ->
  exists h', vmApi fuel (A_isStorageLocked ko kl) h =
      (h', OOk (if e_blockinfo E true "timestamp" <? t then 1 else 0)) /\
    (forall a k', cell h' a k' = cell h a k') /\ sto_frame h h'.
Proof.
  intros HE (i & x & Hc & Hi & Hp & Hr) Hk Hcell Ht Hn.
  assert (H : running_as h i x) by (split; assumption).
  assert (Ht' : in_i64 t) by (unfold in_i64, min_i64; lia).
  assert (Hlen : len_ok (cell h (h_stoaddr h) (lock_key k))) by (rewrite Hcell; apply be_encode_len, Ht').
  unfold vmApi. cbn [api]. unfold isStorageLocked.
  rewrite (getStorageLock_k_run _ _ _ _ _ _ _ _ _ HE H Hp Hk Hlen).
  rewrite Hcell, i64_abs_range by (lia || exact Ht').
  replace (t <? 0) with false by lia.
  unfold getBlockTimestamp_k, lock_state. set (y := pay _ x). set (h1 := set_h_out _ h).
  assert (H1 : running_as (with_inst i y h1) i y) by (apply (running_with_inst _ _ x); exact H).
  assert (Hpy : pts_ok y).
  { apply pay_ok; [exact Hp|]. pose proof (cost_nonneg E CStorageLoad HE). pose proof (key_price_nonneg E (lock_key k) HE).
    pose proof (cost_nonneg E DataCopyPerByte HE). pose proof (blen_nonneg (cell h (h_stoaddr h) (lock_key k))). nia. }
  rewrite (run_charge _ _ HE _ _ _ _ _ H1 Hpy).
  rewrite i64_id by (unfold in_i64, min_i64; lia).
  eexists. split.
  - cbn [run_cmd]. unfold ret. f_equal. f_equal. destruct (Z.leb_spec t (e_blockinfo E true "timestamp"));
      destruct (Z.ltb_spec (e_blockinfo E true "timestamp") t); (reflexivity || lia).
  - split; [intros a k'; apply ocell_read|]. split; [apply sbs_read|]. repeat split.
Qed.

Fixpoint run_apis (fuel : nat) (cs : list api_call) : M unit :=
  match cs with [] => ret tt | c :: cs => vmApi fuel c ;;; run_apis fuel cs end.

Lemma lock_key_inj k k' : lock_key k = lock_key k' -> k = k'.
Proof. unfold lock_key, CustomStorageKey. apply app_inv_tail. Qed.

Lemma mem_load_cur h h' o n : cur_mem h' = cur_mem h -> mem_load h' o n = mem_load h o n.
Proof.
  unfold cur_mem, mem_load. destruct (h_cur h') as [i|], (h_cur h) as [j|]; try destruct (h_insts h' !! i);
    try destruct (h_insts h !! j); intros Hm; try discriminate; try reflexivity. injection Hm as ->. reflexivity.
Qed.

(** a call (key offset, key length, timestamp) with the key that lies there *)
Definition lock_call : Type := (Z * Z * Z) * bytes.
Definition lc_api (c : lock_call) : api_call := let '((ko, kl, t), _) := c in A_setStorageLock ko kl t.
Definition lc_lock (c : lock_call) : bytes * Z := let '((_, _, t), k) := c in (k, i64 t).

Lemma c17_seq fuel cs h m : env_ok E -> calling h -> cur_mem h = ROk m -> r_ro (h_rt h) = false ->
  (forall k, go_len (cell h (h_stoaddr h) k)) ->
  Forall (fun c : lock_call => let '((ko, kl, t), k) := c in
     MemLoad m (i32 ko) (i32 kl) = ROk k /\ isElrondReservedKey (lock_key k) = false) cs ->
  exists h', run_apis fuel (map lc_api cs) h = (h', OOk tt) /\
    (forall a k', (forall k, k' <> lock_key k) \/ a <> h_stoaddr h -> cell h' a k' = cell h a k') /\
    (forall k, cell h' (h_stoaddr h) (lock_key k) =
       match last_lock (map lc_lock cs) k None with Some t => timelockBytes t | None => cell h (h_stoaddr h) (lock_key k) end) /\
    cur_mem h' = ROk m /\ calling h' /\ sto_frame h h'.
Proof.
  intros HE. revert h. induction cs as [|[[[ko kl] t] k] cs IH]; intros h Hc Hm Hro Hv Hcs.
  - exists h. split; [reflexivity|]. split; [reflexivity|]. split; [reflexivity|]. split; [exact Hm|]. split; [exact Hc|].
    split; [apply sbs_refl|]. repeat split.
  - apply Forall_cons_1 in Hcs as [[Hk Hres] Hcs].
    assert (Hk' : mem_load h (i32 ko) (i32 kl) = ROk k).
    { destruct Hc as (i & x & Hc & Hi & _). rewrite (mem_load_run h i x) by (split; assumption).
      rewrite (cur_mem_run h i x) in Hm by (split; assumption). injection Hm as ->. exact Hk. }
    destruct (c17_set fuel ko kl t k h HE Hc Hk' (Hv _) Hro Hres) as (h1 & R1 & C1 & F1 & M1 & K1).
    cbn [map lc_api run_apis]. rewrite (bind_ok _ _ _ _ _ R1).
    assert (Ha : h_stoaddr h1 = h_stoaddr h) by apply F1.
    destruct (IH h1 K1) as (h' & I1 & I2 & I3 & I4 & I5 & I6).
    + rewrite M1. exact Hm.
    + destruct F1 as (_ & _ & F1 & _). rewrite F1. exact Hro.
    + intros k'. rewrite Ha, C1. destruct (_ && _); [apply be_encode_len, i64_range|apply Hv].
    + exact Hcs.
    + exists h'. split; [exact I1|]. rewrite Ha in *. split; [|split; [|split; [exact I4|split; [exact I5|]]]].
      * intros a k' Hd. rewrite I2 by exact Hd. rewrite C1.
        destruct Hd as [Hd|Hd]; [rewrite (bool_decide_false (k' = lock_key k)) by apply Hd; rewrite andb_false_r; reflexivity|].
        rewrite (bool_decide_false (a = h_stoaddr h)) by exact Hd. reflexivity.
      * intros k'. rewrite I3. cbn [map lc_lock last_lock].
        assert (Hll : forall cs0 o, last_lock cs0 k' o = match last_lock cs0 k' None with Some t => Some t | None => o end).
        { clear. induction cs0 as [|[k0 t0] cs0 IH]; intros o; cbn; [reflexivity|].
          rewrite (IH (if bool_decide (k' = k0) then Some t0 else o)), (IH (if bool_decide (k' = k0) then Some t0 else None)).
          destruct (last_lock cs0 k' None); [reflexivity|]. destruct (bool_decide (k' = k0)); reflexivity. }
        rewrite (Hll (map lc_lock cs) (if bool_decide (k' = k) then Some (i64 t) else None)).
        destruct (last_lock (map lc_lock cs) k' None); [reflexivity|].
        rewrite C1, bool_decide_true by reflexivity. cbn [andb].
        destruct (decide (k' = k)) as [->|Hne].
        -- rewrite !bool_decide_true by reflexivity. reflexivity.
        -- rewrite (bool_decide_false (k' = k)) by exact Hne.
           rewrite bool_decide_false by (intros Hx; apply Hne, lock_key_inj, Hx). reflexivity.
      * destruct F1 as [S1 F1]. destruct I6 as [S2 F2]. split; [eapply sbs_trans; eassumption|].
        clear -F1 F2. destruct_and?. repeat split; congruence.
Qed.
End Locks.

(** ** The vocabulary of the specification *)
Lemma has_prefix_spec p k : CtxModel.has_prefix p k = true <-> p `prefix_of` k.
Proof.
  revert k. induction p as [|x p IH]; intros [|y k]; cbn.
  - split; [intros _; apply prefix_nil|reflexivity].
  - split; [intros _; apply prefix_nil|reflexivity].
  - split; [discriminate|]. intros H. apply prefix_nil_inv in H. discriminate.
  - rewrite andb_true_iff, bool_decide_eq_true, IH. split.
    + intros [-> H]. apply prefix_cons, H.
    + intros H. split; [eapply prefix_cons_inv_1, H|eapply prefix_cons_inv_2, H].
Qed.
Lemma reserved_spec `{E : env} k : isElrondReservedKey k = true <-> reserved_key k.
Proof. apply has_prefix_spec. Qed.
Lemma vm_key_spec k : isArwenProtectedKey k = true <-> vm_key k.
Proof. apply has_prefix_spec. Qed.
Lemma not_reserved `{E : env} k : ~ reserved_key k -> isElrondReservedKey k = false.
Proof. rewrite <- reserved_spec. apply not_true_is_false. Qed.
Lemma may_write_writable `{E : env} h k : may_write h k -> writable h k.
Proof.
  intros (H1 & H2 & H3). split; [exact H1|]. split; [apply not_reserved, H2|].
  rewrite <- vm_key_spec in H3. apply not_true_is_false in H3. rewrite H3. reflexivity.
Qed.
Lemma readable_spec u : meta_readable (ua_meta u) = true <-> readable u.
Proof.
  unfold meta_readable, meta_bit, readable. destruct (ua_meta u) as [|a [|b [|c l]]]; cbn;
    split; try discriminate.
  - intros (b0 & b1 & H & _). discriminate.
  - intros (b0 & b1 & H & _). discriminate.
  - intros H. exists a, b. split; [reflexivity|exact H].
  - intros (b0 & b1 & H & H2). injection H as -> ->. exact H2.
  - intros (b0 & b1 & H & _). discriminate.
Qed.
Lemma may_read_spec h a : may_read_from h a <-> may_read h a.
Proof.
  unfold may_read_from, may_read. split; (intros [H|(u & H1 & H2)]; [left; exact H|right; exists u; split; [exact H1|apply readable_spec, H2]]).
Qed.

Lemma kind_num_range w : 0 <= kind_num w <= 3.
Proof. destruct w; cbn; lia. Qed.

(** C14 *)
Lemma c14_partial price old new : (forall c, 0 <= price c) -> price PersistPerByte <= price StorePerByte ->
  old <> new -> blen old <> blen new -> price PersistPerByte * blen new <= value_price price old new.
Proof.
  intros Hp Hps Hne Hl. unfold value_price, kind_of. rewrite bool_decide_false by exact Hne.
  pose proof (Hp PersistPerByte). pose proof (Hp StorePerByte). pose proof (blen_nonneg old). pose proof (blen_nonneg new).
  destruct (bool_decide (old = [])); [nia|]. destruct (decide (new = [])) as [->|Hn].
  - rewrite bool_decide_true by reflexivity. change (blen []) with 0. lia.
  - rewrite bool_decide_false by exact Hn.
    destruct (Z.ltb_spec (blen old) (blen new)); [nia|]. destruct (Z.ltb_spec (blen new) (blen old)); [lia|lia].
Qed.
Lemma c14_store fuel `{E : env} ko kl dO dl k v h : env_ok E -> calling h ->
  mem_load h (i32 ko) (i32 kl) = ROk k -> mem_load h (i32 dO) (i32 dl) = ROk v ->
  go_len (cell h (h_stoaddr h) k) -> may_write h k -> e_cost E PersistPerByte <= e_cost E StorePerByte ->
  cell h (h_stoaddr h) k <> v -> blen (cell h (h_stoaddr h) k) <> blen v ->
  exists h' r, vmApi fuel (A_storageStore ko kl dO dl) h = (h', OOk r) /\
    Z.min max_i64 (points_of h + e_cost E PersistPerByte * blen v) <= points_of h'.
Proof.
  intros HE Hc Hk Hv Hl Hw Hps Hne Hlen. pose proof Hc as (i & x & _ & _ & _ & [z Hr]).
  destruct (c12_store fuel ko kl dO dl k v h z HE Hc Hk Hv Hl (may_write_writable _ _ Hw) Hr) as (h' & R & _ & _ & P & _).
  exists h'. eexists. split; [exact R|]. rewrite P.
  pose proof (c14_partial (e_cost E) _ _ (fun c => cost_nonneg E c HE) Hps Hne Hlen).
  unfold store_price. pose proof (cost_nonneg E CStorageStore HE). pose proof (key_price_nonneg E k HE). lia.
Qed.

(** C16 *)
Lemma c15_fails `{E : env} fuel ko kl dO dl k v h : env_ok E -> calling h ->
  mem_load h (i32 ko) (i32 kl) = ROk k -> mem_load h (i32 dO) (i32 dl) = ROk v ->
  r_ro (h_rt h) = false -> h_stoprot h = true -> reserved_key k \/ vm_key k ->
  exists h', vmApi fuel (A_storageStore ko kl dO dl) h = (h', OOk (-1)) /\
    (forall a k', cell h' a k' = cell h a k') /\ h_world h' = h_world h /\
    (exists i x, h_cur h' = Some i /\ h_insts h' !! i = Some x /\ in_bp x = BreakpointExecutionFailed) /\
    o_code (h_out h') = RcExecutionFailed.
Proof.
  intros HE Hc Hk Hv Hro Hs Hd. eapply c15_store; try eassumption. intros (_ & H2 & H3).
  destruct Hd as [Hd|Hd].
  - apply reserved_spec in Hd. congruence.
  - apply vm_key_spec in Hd. rewrite Hd, Hs in H3. discriminate.
Qed.

(** ** In the form of the theorems *)
Section Final.
Context `{E : env}.

Lemma c12_store_ex fuel ko kl dO dl k v h : env_ok E -> calling h ->
  mem_load h (i32 ko) (i32 kl) = ROk k -> mem_load h (i32 dO) (i32 dl) = ROk v ->
  go_len (cell h (h_stoaddr h) k) -> may_write h k ->
  exists h' r, vmApi fuel (A_storageStore ko kl dO dl) h = (h', OOk r) /\ 0 <= r /\
    cell_set (h_stoaddr h) k v h h' /\ sto_frame h h' /\ cur_mem h' = cur_mem h /\ calling h'.
Proof.
  intros HE Hc Hk Hv Hl Hw. pose proof Hc as (i & x & _ & _ & _ & [z Hr]).
  destruct (c12_store fuel ko kl dO dl k v h z HE Hc Hk Hv Hl (may_write_writable _ _ Hw) Hr)
    as (h' & R & C & F & _ & _ & _ & M & K).
  exists h'. eexists. split; [exact R|]. split; [apply kind_num_range|]. repeat (split; [assumption|]). exact K.
Qed.

Lemma c13_store fuel ko kl dO dl k v h z : env_ok E -> calling h ->
  mem_load h (i32 ko) (i32 kl) = ROk k -> mem_load h (i32 dO) (i32 dl) = ROk v ->
  go_len (cell h (h_stoaddr h) k) -> may_write h k ->
  let old := cell h (h_stoaddr h) k in
  o_refund (h_out h) = Some z -> 0 <= z -> z + released (e_cost E) old v <= max_i64 ->
  exists h', vmApi fuel (A_storageStore ko kl dO dl) h = (h', OOk (kind_num (kind_of old v))) /\
    points_of h' = Z.min max_i64 (points_of h + store_price (e_cost E) k old v) /\
    points_of h <= points_of h' /\
    o_refund (h_out h') = Some (z + released (e_cost E) old v) /\ 0 <= released (e_cost E) old v.
Proof.
  intros HE Hc Hk Hv Hl Hw old Hr Hz Hb.
  destruct (c12_store fuel ko kl dO dl k v h z HE Hc Hk Hv Hl (may_write_writable _ _ Hw) Hr)
    as (h' & R & _ & _ & P & G & _).
  pose proof (released_nonneg E old v HE) as Hrel.
  exists h'. split; [exact R|]. split; [exact P|]. split.
  - destruct Hc as (i & x & Hc & Hi & Hp & _). rewrite P. rewrite (points_run h i x) by (split; assumption).
    unfold store_price. pose proof (cost_nonneg E CStorageStore HE). pose proof (key_price_nonneg E k HE).
    pose proof (value_price_nonneg E old v HE). fold old. lia.
  - split; [|exact Hrel]. rewrite G. f_equal. apply refund_after_exact; assumption.
Qed.

Lemma c16_store fuel ko kl dO dl k v h s : env_ok E -> calling h ->
  mem_load h (i32 ko) (i32 kl) = ROk k -> mem_load h (i32 dO) (i32 dl) = ROk v ->
  go_len (cell h (h_stoaddr h) k) -> h_stoprot h = true ->
  s = str "ARWEN@TIMELOCK" \/ s = str "ARWEN@ASYNC" -> (forall k', k <> k' ++ s) ->
  exists h' r, vmApi fuel (A_storageStore ko kl dO dl) h = (h', OOk r) /\
    forall a k', cell h' a (k' ++ s) = cell h a (k' ++ s).
Proof.
  intros HE Hc Hk Hv Hl Hs _ Hf. pose proof Hc as (i & x & _ & _ & _ & [z Hr]).
  destruct (r_ro (h_rt h)) eqn:Hro.
  - destruct (c20_store fuel ko kl dO dl k v h HE Hc Hk Hv Hro) as (h' & R & Ho & Hw).
    exists h', 0. split; [exact R|]. intros a k'. unfold cell. rewrite Ho, Hw. reflexivity.
  - destruct (can_write h k) eqn:Hcw.
    + apply can_write_spec in Hcw.
      destruct (c12_store fuel ko kl dO dl k v h z HE Hc Hk Hv Hl Hcw Hr) as (h' & R & C & _).
      exists h'. eexists. split; [exact R|]. intros a k'. rewrite C.
      rewrite (bool_decide_false (k' ++ s = k)) by (intros Hx; apply (Hf k'); symmetry; exact Hx).
      rewrite andb_false_r. reflexivity.
    + destruct (c15_store fuel ko kl dO dl k v h HE Hc Hk Hv Hro) as (h' & R & C & _).
      { intros Hx. apply can_write_spec in Hx. congruence. }
      exists h', (-1). split; [exact R|]. intros a k'. apply C.
Qed.

Lemma c17_get' fuel ko kl k t h : env_ok E -> calling h ->
  mem_load h (i32 ko) (i32 kl) = ROk k -> cell h (h_stoaddr h) (lock_cell k) = timelockBytes t -> 0 <= t <= max_i64 ->
  exists h', vmApi fuel (A_getStorageLock ko kl) h = (h', OOk t) /\
    (forall a k', cell h' a k' = cell h a k') /\ sto_frame h h'.
Proof.
  intros HE Hc Hk Hv Ht.
  assert (Ht' : in_i64 t) by (unfold in_i64, min_i64; lia).
  destruct (c17_get fuel ko kl k h HE Hc Hk) as (h' & R & C & F).
  - change (go_len (cell h (h_stoaddr h) (lock_cell k))). rewrite Hv. apply be_encode_len, Ht'.
  - exists h'. change (lock_key k) with (lock_cell k) in R. rewrite Hv, i64_abs_range in R by (lia || exact Ht').
    split; [exact R|]. split; [exact C|exact F].
Qed.

Lemma c17_set_get fuel ko kl t k h : env_ok E -> calling h ->
  mem_load h (i32 ko) (i32 kl) = ROk k -> 0 <= t <= max_i64 ->
  go_len (cell h (h_stoaddr h) (lock_cell k)) -> r_ro (h_rt h) = false -> ~ reserved_key (lock_cell k) ->
  exists h' h'' r, vmApi fuel (A_setStorageLock ko kl t) h = (h', OOk r) /\ 0 <= r /\
    vmApi fuel (A_getStorageLock ko kl) h' = (h'', OOk t) /\ sto_frame h h'.
Proof.
  intros HE Hc Hk Ht Hl Hro Hres.
  assert (Ht' : in_i64 t) by (unfold in_i64, min_i64; lia).
  destruct (c17_set fuel ko kl t k h HE Hc Hk Hl Hro (not_reserved _ Hres)) as (h' & R & C & F & M & K).
  destruct (c17_get' fuel ko kl k t h' HE K) as (h'' & R' & _).
  - rewrite (mem_load_cur _ _ _ _ M). exact Hk.
  - assert (Ha : h_stoaddr h' = h_stoaddr h) by apply F. rewrite Ha, C.
    change (lock_key k) with (lock_cell k). rewrite !bool_decide_true by reflexivity. rewrite i64_id by exact Ht'. reflexivity.
  - exact Ht.
  - exists h', h''. eexists. split; [exact R|]. split; [apply kind_num_range|]. split; [exact R'|exact F].
Qed.

Lemma c17_clear fuel ko kl k h : env_ok E -> calling h ->
  mem_load h (i32 ko) (i32 kl) = ROk k ->
  go_len (cell h (h_stoaddr h) (lock_cell k)) -> r_ro (h_rt h) = false -> ~ reserved_key (lock_cell k) ->
  0 <= e_blockinfo E true "timestamp" <= max_i64 ->
  exists h' h'' r, vmApi fuel (A_clearStorageLock ko kl) h = (h', OOk r) /\ 0 <= r /\
    vmApi fuel (A_isStorageLocked ko kl) h' = (h'', OOk 0).
Proof.
  intros HE Hc Hk Hl Hro Hres Hn.
  destruct (c17_set fuel ko kl 0 k h HE Hc Hk Hl Hro (not_reserved _ Hres)) as (h' & R & C & F & M & K).
  destruct (c17_locked fuel ko kl k 0 h' HE K) as (h'' & R' & _).
  - rewrite (mem_load_cur _ _ _ _ M). exact Hk.
  - assert (Ha : h_stoaddr h' = h_stoaddr h) by apply F. rewrite Ha, C.
    rewrite !bool_decide_true by reflexivity. reflexivity.
  - unfold max_i64. lia.
  - exact Hn.
  - exists h', h''. eexists. split; [exact R|]. split; [apply kind_num_range|].
    rewrite R'. replace (_ <? 0) with false by lia. reflexivity.
Qed.

Lemma c17_seq' fuel cs h m : env_ok E -> calling h -> cur_mem h = ROk m -> r_ro (h_rt h) = false ->
  (forall k, go_len (cell h (h_stoaddr h) k)) ->
  Forall (fun c : lock_call => let '((ko, kl, t), k) := c in
     MemLoad m (i32 ko) (i32 kl) = ROk k /\ ~ reserved_key (lock_cell k)) cs ->
  exists h', run_apis fuel (map lc_api cs) h = (h', OOk tt) /\
    (forall a k', (forall k, k' <> lock_cell k) \/ a <> h_stoaddr h -> cell h' a k' = cell h a k') /\
    (forall k, cell h' (h_stoaddr h) (lock_cell k) =
       match last_lock (map lc_lock cs) k None with Some t => timelockBytes t | None => cell h (h_stoaddr h) (lock_cell k) end) /\
    cur_mem h' = ROk m /\ calling h' /\ sto_frame h h'.
Proof.
  intros HE Hc Hm Hro Hv Hcs. apply c17_seq; try assumption.
  eapply Forall_impl; [exact Hcs|]. intros [[[ko kl] t] k] [H1 H2]. split; [exact H1|apply not_reserved, H2].
Qed.

Lemma c19_allowed' fuel ao ko kl dO k a h m m' v : env_ok E -> calling h ->
  mem_load h (i32 ko) (i32 kl) = ROk k -> mem_load h (i32 ao) 32 = ROk a -> may_read_from h a ->
  (reserved_key k -> v = node_value (h_world h) a k) -> (~ reserved_key k -> v = cell h a k) ->
  go_len v -> cur_mem h = ROk m -> MemStore m (i32 dO) v = (m', ROk tt) ->
  exists h', vmApi fuel (A_storageLoadFromAddress ao ko kl dO) h = (h', OOk (zlen v)) /\
    cur_mem h' = ROk m' /\ (forall b k', cell h' b k' = cell h b k') /\ sto_frame h h'.
Proof.
  intros HE Hc Hk Ha Hr V1 V2 Hl Hm Hs.
  assert (Hv : v = if isElrondReservedKey k then node_value (h_world h) a k else cell h a k).
  { destruct (isElrondReservedKey k) eqn:He.
    - apply V1, reserved_spec, He.
    - apply V2. intros Hx. apply reserved_spec in Hx. congruence. }
  subst v. eapply c19_allowed; try eassumption. apply may_read_spec, Hr.
Qed.
End Final.
