(** Lemmas for C47 and C48. *)
From Verif Require Import VmModel OrderModel OrderSpec MathProofs GasSpec GasOutProofs.
From Coq Require Import ZifyBool ZifyNat ZifyN.

(** * Visits *)
Lemma visit_nodup {A} (m : gmap bytes A) l : visits m l -> NoDup (l.*1).
Proof. intros H. unfold visits in H. rewrite H. apply NoDup_fst_map_to_list. Qed.
Lemma visit_map {A} (m : gmap bytes A) l : visits m l -> list_to_map l = m.
Proof.
  intros H. rewrite (list_to_map_proper l (map_to_list m) (visit_nodup m l H) H). apply list_to_map_to_list.
Qed.

(** a loop whose step for a key changes this key only *)
Lemma loop_lookup {A B} (step : gmap bytes B -> bytes * A -> gmap bytes B) (f : bytes -> A -> option B -> option B) l m k :
  (forall m p k, step m p !! k = if decide (p.1 = k) then f k p.2 (m !! k) else m !! k) ->
  NoDup (l.*1) ->
  fold_left step l m !! k = match (list_to_map l : gmap bytes A) !! k with Some v => f k v (m !! k) | None => m !! k end.
Proof.
  intros Hs. revert m. induction l as [|[a v] l IH]; intros m Hn; [reflexivity|].
  apply NoDup_cons in Hn as [Hn Hn']. cbn [fold_left]. rewrite IH by exact Hn'. rewrite Hs. cbn [fst snd].
  rewrite list_to_map_cons. destruct (decide (a = k)) as [->|Hak].
  - rewrite lookup_insert. rewrite (not_elem_of_list_to_map_1 l k Hn). reflexivity.
  - rewrite lookup_insert_ne by exact Hak. reflexivity.
Qed.
Lemma insert_step {A B} (f : bytes -> A -> option B -> B) (m : gmap bytes B) (p : bytes * A) k :
  <[p.1 := f p.1 p.2 (m !! p.1)]> m !! k = if decide (p.1 = k) then Some (f k p.2 (m !! k)) else m !! k.
Proof. case_decide as H; [rewrite <- H; apply lookup_insert|apply lookup_insert_ne, H]. Qed.
Lemma alter_step {A B} (f : bytes -> A -> B -> B) (m : gmap bytes B) (p : bytes * A) k :
  alter (f p.1 p.2) p.1 m !! k = if decide (p.1 = k) then f k p.2 <$> m !! k else m !! k.
Proof. case_decide as H; [rewrite <- H; apply lookup_alter|apply lookup_alter_ne, H]. Qed.

Lemma merge_order l r visit : visits r visit -> loop_merge l visit = merge mergeAccount l r.
Proof.
  intros H. apply map_eq. intros k. unfold loop_merge.
  rewrite (loop_lookup _ (fun _ r o => Some (mergeOutputAccounts (default NewVMOutputAccount o) r))).
  - rewrite (visit_map r visit H), lookup_merge. unfold diag_None, mergeAccount. destruct (l !! k), (r !! k); reflexivity.
  - intros m p k'. apply (insert_step (fun _ r o => mergeOutputAccounts (default NewVMOutputAccount o) r)).
  - exact (visit_nodup _ _ H).
Qed.
Lemma storage_order l r visit : visits r visit -> loop_storage l visit = r ∪ l.
Proof.
  intros H. apply map_eq. intros k. unfold loop_storage.
  rewrite (loop_lookup _ (fun _ r _ => Some r)).
  - rewrite (visit_map r visit H). destruct (r !! k) eqn:Hr.
    + symmetry. apply lookup_union_Some_l, Hr.
    + symmetry. apply lookup_union_r, Hr.
  - intros m p k'. apply (insert_step (fun _ r _ => r)).
  - exact (visit_nodup _ _ H).
Qed.
Lemma add_used_order l r visit : visits r visit -> loop_add_used l visit = merge addGasUsed l r.
Proof.
  intros H. apply map_eq. intros k. unfold loop_add_used.
  rewrite (loop_lookup _ (fun _ r o => Some (u64 (default 0 o + r)))).
  - rewrite (visit_map r visit H), lookup_merge. unfold diag_None, addGasUsed. destruct (l !! k), (r !! k); reflexivity.
  - intros m p k'. apply (insert_step (fun _ r o => u64 (default 0 o + r))).
  - exact (visit_nodup _ _ H).
Qed.
Lemma set_used_order used m visit : visits m visit ->
  loop_set_used used m visit = map_imap (fun a x => Some (set_oa_gasused (default 0 (used !! a)) x)) m.
Proof.
  intros H. apply map_eq. intros k. unfold loop_set_used.
  rewrite (loop_lookup _ (fun a _ o => set_oa_gasused (default 0 (used !! a)) <$> o)).
  - rewrite (visit_map m visit H), map_lookup_imap. destruct (m !! k); reflexivity.
  - intros m' p k'. apply (alter_step (fun a (_ : out_account) x => set_oa_gasused (default 0 (used !! a)) x)).
  - exact (visit_nodup _ _ H).
Qed.
Lemma remove_code_order upd m visit : visits m visit ->
  loop_remove_code upd m visit = map_imap (fun a x =>
    Some (if bool_decide (a ∈ upd) then x else set_oa_deployer None (set_oa_meta [] (set_oa_code [] x)))) m.
Proof.
  intros H. apply map_eq. intros k. unfold loop_remove_code.
  rewrite (loop_lookup _ (fun a _ o => (fun x => if bool_decide (a ∈ upd) then x else set_oa_deployer None (set_oa_meta [] (set_oa_code [] x))) <$> o)).
  - rewrite (visit_map m visit H), map_lookup_imap. destruct (m !! k); reflexivity.
  - intros m' p k'. case_decide as Hk.
    + subst. case_bool_decide; [destruct (m' !! p.1); reflexivity|apply lookup_alter].
    + case_bool_decide; [reflexivity|apply lookup_alter_ne, Hk].
  - exact (visit_nodup _ _ H).
Qed.
Lemma missing_order (accs : gmap bytes out_account) (used : gmap bytes Z) visit : visits_keys used visit ->
  loop_missing accs visit = negb (bool_decide (dom used ⊆ dom accs)).
Proof.
  intros H.
  assert (Hd : forall a, a ∈ visit <-> a ∈ dom used).
  { intros a. unfold visits_keys in H. rewrite H. rewrite elem_of_dom, elem_of_list_fmap. split.
    - intros ([b v] & -> & Hb). apply elem_of_map_to_list in Hb. eexists; exact Hb.
    - intros [v Hv]. exists (a, v). split; [reflexivity|]. apply elem_of_map_to_list. exact Hv. }
  assert (Hm : loop_missing accs visit = true <-> exists a, a ∈ visit /\ a ∉ dom accs).
  { clear Hd H. induction visit as [|a l IH]; cbn [loop_missing].
    - split; [discriminate|]. intros (a & Ha & _). inversion Ha.
    - destruct (accs !! a) eqn:Ha.
      + rewrite IH. split; intros (b & Hb & Hn).
        * exists b. split; [right; exact Hb|exact Hn].
        * apply elem_of_cons in Hb as [->|Hb]; [destruct Hn; apply elem_of_dom; eauto|eauto].
      + split; [intros _|reflexivity]. exists a. split; [left|]. apply not_elem_of_dom, Ha. }
  apply eq_true_iff_eq. rewrite Hm, negb_true_iff, bool_decide_eq_false. split.
  - intros (a & Ha & Hn) Hs. apply Hn, Hs, Hd, Ha.
  - intros Hs. destruct (set_choose_or_empty (dom used ∖ dom accs)) as [(a & Ha)|Hn].
    + apply elem_of_difference in Ha as [Ha Hn]. exists a. split; [apply Hd, Ha|exact Hn].
    + exfalso. apply Hs. intros a Ha. destruct (decide (a ∈ dom accs)) as [|Hna]; [assumption|]. exfalso. apply (not_elem_of_empty (C := gset bytes) a), Hn.
      apply elem_of_difference. split; assumption.
Qed.

(** sums *)
Lemma fold_sat {A} (f : A -> Z) (step : Z -> A -> Z) l g :
  (forall g x, In x l -> 0 <= g -> 0 <= f x /\ step (Z.min max_u64 g) x = Z.min max_u64 (g + f x)) -> 0 <= g ->
  fold_left step l (Z.min max_u64 g) = Z.min max_u64 (g + total (map f l)).
Proof.
  revert g. induction l as [|x l IH]; intros g H Hg; cbn [fold_left map total fold_right]; [f_equal; lia|].
  destruct (H g x (or_introl eq_refl) Hg) as [H1 H2]. rewrite H2. rewrite IH; [f_equal; unfold total; lia| |lia].
  intros g' y Hy. apply H. right. exact Hy.
Qed.
Lemma total_perm l l' : Permutation l l' -> total l = total l'.
Proof. unfold total. induction 1; cbn [fold_right]; lia. Qed.
Lemma accounts_gas_list m : accounts_gas m = total (map (fun p : bytes * out_account => account_gas p.2) (map_to_list m)).
Proof.
  unfold accounts_gas, map_fold, total. cbn. induction (map_to_list m) as [|[a x] l IH]; [reflexivity|]. cbn. rewrite IH. reflexivity.
Qed.
Lemma in_visit {A} (m : gmap bytes A) visit p : visits m visit -> In p visit -> m !! p.1 = Some p.2.
Proof. intros H Hp. apply elem_of_map_to_list. apply elem_of_list_In. destruct p. apply (Permutation_in _ H Hp). Qed.
Lemma total_order m visit : typed_acc m -> visits m visit -> loop_total visit = getCurrentTotalUsedGas m.
Proof.
  intros Ht H. destruct (total_sat m Ht) as [_ ->]. unfold loop_total. change 0 with (Z.min max_u64 0) at 1.
  rewrite (fold_sat (fun p => account_gas p.2)).
  - rewrite accounts_gas_list. f_equal. rewrite Z.add_0_l. apply total_perm. apply Permutation_map. exact H.
  - intros g p Hp Hg. apply (in_visit _ _ _ H) in Hp. destruct (Ht _ _ Hp) as [H1 H2].
    destruct (transfers_sat p.2 H2) as [T1 T2]. unfold account_gas. split; [lia|]. rewrite T2, add_sat2 by lia. rewrite add_sat1 by lia. f_equal. lia.
  - lia.
Qed.
Lemma others_order h visit : typed_acc (accounts h) -> (forall a g, mt_used (h_met h) !! a = Some g -> 0 <= g) ->
  visits (accounts h) visit ->
  loop_others (r_addr (h_rt h)) (mt_used (h_met h)) visit = getGasUsedByAllOtherAccounts h.
Proof.
  intros Ht Hu H. unfold getGasUsedByAllOtherAccounts, map_fold. cbn [compose].
  set (f := fun p : bytes * out_account => (if beq p.1 (r_addr (h_rt h)) then 0 else default 0 (mt_used (h_met h) !! p.1)) + transfers_gas p.2).
  assert (Hf : forall g p, accounts h !! p.1 = Some p.2 -> 0 <= g -> 0 <= f p /\
     AddUint64 (AddUint64 (Z.min max_u64 g) (if beq p.1 (r_addr (h_rt h)) then 0 else default 0 (mt_used (h_met h) !! p.1))) (getGasTransferredByAccount p.2)
     = Z.min max_u64 (g + f p)).
  { intros g p Hp Hg. destruct (Ht _ _ Hp) as [H1 H2]. destruct (transfers_sat p.2 H2) as [T1 T2].
    assert (Hd : 0 <= (if beq p.1 (r_addr (h_rt h)) then 0 else default 0 (mt_used (h_met h) !! p.1))).
    { destruct (beq _ _); [lia|]. destruct (mt_used (h_met h) !! p.1) eqn:He; cbn; [apply (Hu _ _ He)|lia]. }
    unfold f. split; [lia|]. rewrite T2, add_sat2 by lia. rewrite add_sat1 by lia. f_equal. lia. }
  assert (Hlo : loop_others (r_addr (h_rt h)) (mt_used (h_met h)) visit = Z.min max_u64 (0 + total (map f visit))).
  { apply (fold_sat f _ visit 0); [|lia]. intros g p Hp. apply Hf, (in_visit _ _ _ H Hp). }
  rewrite Hlo. clear Hlo.
  assert (Hr : forall l, (forall p, In p l -> accounts h !! p.1 = Some p.2) ->
    0 <= total (map f l) /\
    foldr (uncurry (fun a x g => AddUint64 (AddUint64 g (if beq a (r_addr (h_rt h)) then 0 else default 0 (mt_used (h_met h) !! a))) (getGasTransferredByAccount x))) 0 l
    = Z.min max_u64 (total (map f l))).
  { induction l as [|[a x] l IH]; intros Hl; [split; reflexivity|].
    destruct (IH ltac:(intros; apply Hl; right; assumption)) as [I1 I2].
    destruct (Hf (total (map f l)) (a, x) (Hl _ (or_introl eq_refl)) I1) as [F1 F2].
    split; [unfold total in *; cbn [map fold_right]; lia|].
    rewrite <- I2 in F2. etransitivity; [exact F2|]. unfold total in *. cbn [map fold_right]. f_equal. lia. }
  destruct (Hr (map_to_list (accounts h))) as [_ Hr2]; [intros p Hp; apply (in_visit (accounts h) (map_to_list (accounts h))); [unfold visits; reflexivity|exact Hp]|].
  etransitivity; [|symmetry; exact Hr2]. f_equal. rewrite Z.add_0_l. apply total_perm, Permutation_map, H.
Qed.

(** verification of the exports: whether it succeeds *)
Section verify.
Context `{E : env}.
Lemma verifyFunctionsIn_iff m l : verifyFunctionsIn m l = ROk tt <->
  forall n, In n l -> verifyValidFunctionName n = ROk tt /\ verifyVoidFunction m n = ROk tt.
Proof.
  induction l as [|n l IH]; cbn [verifyFunctionsIn]; [split; [intros _ n []|reflexivity]|].
  destruct (verifyValidFunctionName n) as [[]| |] eqn:Hn; cycle 1.
  { split; [discriminate|]. intros H. destruct (H n (or_introl eq_refl)). congruence. }
  { split; [discriminate|]. intros H. destruct (H n (or_introl eq_refl)). congruence. }
  destruct (verifyVoidFunction m n) as [[]| |] eqn:Hv; cycle 1.
  { split; [discriminate|]. intros H. destruct (H n (or_introl eq_refl)). congruence. }
  { split; [discriminate|]. intros H. destruct (H n (or_introl eq_refl)). congruence. }
  rewrite IH. split; [intros H k [<-|Hk]; auto|]. intros H k Hk. apply H. right. exact Hk.
Qed.
Lemma verify_order m l l' : Permutation l l' -> verifyFunctionsIn m l = ROk tt <-> verifyFunctionsIn m l' = ROk tt.
Proof.
  intros Hp. rewrite !verifyFunctionsIn_iff. split; intros H n Hn; apply H; [apply (Permutation_in n (Permutation_sym Hp) Hn)|apply (Permutation_in n Hp Hn)].
Qed.
End verify.

(** * C47 *)
Lemma needed_ok left cs n z : 0 <= n < 2 ^ 64 -> (forall c, In c cs -> 0 <= gc_provided c < 2 ^ 64) -> 0 <= left < 2 ^ 64 ->
  (n <= left \/ cs <> []) ->
  match asyncGasNeeded left cs n z with
  | ROk (n', z') => n' = n + total (map gc_provided cs) /\ n' <= left /\
      z' = z + Z.of_nat (length (List.filter (fun c => gc_provided c =? 0) cs))
  | RErr _ => left < n + total (map gc_provided cs)
  | RPanic => False
  end.
Proof.
  revert n z. induction cs as [|c cs IH]; intros n z Hn Hc Hl Hs; cbn [asyncGasNeeded map total fold_right List.filter].
  - cbn. destruct Hs as [Hs|Hs]; [|congruence]. lia.
  - pose proof (Hc c (or_introl eq_refl)) as Hp.
    assert (Ht : 0 <= total (map gc_provided cs)).
    { clear -Hc. unfold total. induction cs as [|d cs IH]; cbn [map fold_right]; [lia|]. pose proof (Hc d ltac:(right; left; reflexivity)).
      assert (0 <= fold_right Z.add 0 (map gc_provided cs)); [|lia]. apply IH. intros e [<-|He]; apply Hc; [left; reflexivity|right; right; exact He]. }
    destruct (add_err_exact n (gc_provided c)) as [Hadd Hid]; [unfold in_u64, max_u64; lia..|]. rewrite Hadd.
    destruct (Z.leb_spec (n + gc_provided c) max_u64) as [Hm|Hm]; cbn [negb].
    2:{ unfold total in *. unfold max_u64 in Hm. lia. }
    { rewrite (Hid Hm).
      destruct (Z.ltb_spec left (n + gc_provided c)).
      * unfold total in *. lia.
      * specialize (IH (n + gc_provided c) (if gc_provided c =? 0 then z + 1 else z) ltac:(lia) ltac:(intros; apply Hc; right; assumption) Hl ltac:(left; lia)).
        destruct (asyncGasNeeded _ _ _ _) as [[n' z']| |]; [|unfold total in *; lia|exact IH].
        unfold total in *. destruct (gc_provided c =? 0); cbn [length]; lia. }
Qed.

Lemma concat_perm {A B} (f : A -> list B) l l' : Permutation l l' -> Permutation (concat (map f l)) (concat (map f l')).
Proof.
  induction 1 as [|x l l' _ IH|x y l|l1 l2 l3 _ IH1 _ IH2]; cbn [map concat]; [constructor| | |etransitivity; eassumption].
  - apply Permutation_app_head, IH.
  - rewrite !app_assoc. apply Permutation_app_tail, Permutation_app_comm.
Qed.
Section gas.
Context `{E : env}.
Lemma calls_perm m : env_ok E -> Permutation (map snd (async_calls m)) (all_calls m).
Proof.
  intros HE. unfold async_calls, all_calls.
  set (g := fun id => match m !! id with Some ctx => ax_calls ctx | None => [] end).
  assert (H1 : forall ids, map snd (ids ≫= (fun id => match m !! id with Some ctx => imap (fun i c => (id, i, c)) (ax_calls ctx) | None => [] end))
     = concat (map g ids)).
  { induction ids as [|id ids IH]; [reflexivity|]. cbn [mbind list_bind map concat]. rewrite map_app. f_equal; [|exact IH].
    unfold g. destruct (m !! id) as [ctx|]; [|reflexivity]. 
    change (map snd) with (fmap (M := list) (A := bytes * nat * gen_call) snd). rewrite fmap_imap.
    generalize (ax_calls ctx). clear. intros l. change (imap (fun _ c => c) l = l).
    apply list_eq. intros i. rewrite list_lookup_imap. destruct (l !! i); reflexivity. }
  rewrite H1. rewrite (concat_perm g _ _ (proj2 (proj2 HE) (map fst (map_to_list m)))).
  rewrite map_map. match goal with |- Permutation ?a ?b => assert (a = b) as ->; [|reflexivity] end. f_equal. apply map_ext_in. intros [id ctx] Hin.
  apply elem_of_list_In, elem_of_map_to_list in Hin. unfold g. cbn [fst snd]. rewrite Hin. reflexivity.
Qed.
Lemma filter_perm_len {A} (f : A -> bool) l l' : Permutation l l' -> length (List.filter f l) = length (List.filter f l').
Proof. induction 1; cbn [List.filter]; repeat (destruct (f _)); cbn [length]; lia. Qed.
Lemma setup_ok left m : env_ok E -> typed_calls m -> 0 <= left < 2 ^ 64 ->
  (asked m <= left -> unspecified m = 0 \/ asked m < left ->
   setupAsyncCallsGas left m =
   ROk ((fun ctx => set_ax_calls ((fun c => set_gc_limit (fair left m c) c) <$> ax_calls ctx) ctx) <$> m)) /\
  (~ (asked m <= left /\ (unspecified m = 0 \/ asked m < left)) -> exists e, setupAsyncCallsGas left m = RErr e).
Proof.
  intros HE Ht Hl. pose proof (calls_perm m HE) as Hp. unfold setupAsyncCallsGas.
  pose proof (needed_ok left (map snd (async_calls m)) 0 0 ltac:(lia)) as Hn.
  specialize (Hn ltac:(intros c Hc; apply Ht, (Permutation_in c Hp Hc)) Hl ltac:(left; lia)).
  rewrite (total_perm _ (map gc_provided (all_calls m))) in Hn by (apply Permutation_map, Hp). fold (asked m) in Hn.
  rewrite (filter_perm_len _ _ _ Hp) in Hn. fold (unspecified m) in Hn.
  assert (Hu : 0 <= unspecified m) by (unfold unspecified; lia).
  assert (Hex : forall f g : gen_call -> gen_call, (forall c, In c (all_calls m) -> f c = g c) ->
    (fun ctx => set_ax_calls (f <$> ax_calls ctx) ctx) <$> m = (fun ctx => set_ax_calls (g <$> ax_calls ctx) ctx) <$> m).
  { intros f g Hfg. apply map_fmap_ext. intros id ctx Hid. f_equal. apply map_ext_in. intros c Hc. apply Hfg.
    unfold all_calls. apply in_concat. exists (ax_calls ctx). split; [|exact Hc]. apply in_map_iff. exists (id, ctx). split; [reflexivity|].
    apply elem_of_list_In, elem_of_map_to_list. exact Hid. }
  destruct (asyncGasNeeded _ _ _ _) as [[n z]|e|]; cbn [mbind res_bind].
  - destruct Hn as (-> & Hle & ->). rewrite !Z.add_0_l in *. destruct (Z.eqb_spec (unspecified m) 0) as [Hz|Hz].
    + split; [|lia]. intros _ _. f_equal. apply Hex. intros c Hc. f_equal. unfold fair. destruct (Z.eqb_spec (gc_provided c) 0) as [H0|]; [|reflexivity].
      exfalso. unfold unspecified in Hz.
      assert (Hin : In c (List.filter (fun c => gc_provided c =? 0) (all_calls m))) by (apply filter_In; split; [exact Hc|lia]).
      destruct (List.filter _ _); [destruct Hin|cbn in Hz; lia].
    + destruct (Z.leb_spec left (asked m)) as [Hg|Hg].
      * split; [lia|]. intros _. eexists; reflexivity.
      * split; [|lia]. intros _ _. reflexivity.
  - split; [lia|]. intros _. eexists; reflexivity.
  - destruct Hn.
Qed.
Lemma setup_iff left m m' : env_ok E -> typed_calls m -> 0 <= left < 2 ^ 64 ->
  setupAsyncCallsGas left m = ROk m' <->
  asked m <= left /\ (unspecified m = 0 \/ asked m < left) /\
  m' = (fun ctx => set_ax_calls ((fun c => set_gc_limit (fair left m c) c) <$> ax_calls ctx) ctx) <$> m.
Proof.
  intros HE Ht Hl. destruct (setup_ok left m HE Ht Hl) as [H1 H2]. split.
  - intros H. destruct (Z.le_gt_cases (asked m) left) as [Ha|Ha].
    + destruct (decide (unspecified m = 0 \/ asked m < left)) as [Hd|Hd].
      * rewrite (H1 Ha Hd) in H. injection H as <-. tauto.
      * destruct H2 as [e He]; [tauto|congruence].
    + destruct H2 as [e He]; [lia|congruence].
  - intros (Ha & Hd & ->). apply H1; assumption.
Qed.
Lemma asked_pos m : typed_calls m -> 0 <= asked m.
Proof.
  intros H. unfold asked. unfold typed_calls in H. induction (all_calls m) as [|c l IH]; unfold total in *; cbn [map fold_right]; [lia|].
  pose proof (H c (or_introl eq_refl)). specialize (IH ltac:(intros; apply H; right; assumption)). lia.
Qed.
Lemma all_calls_fmap (f : gen_call -> gen_call) m :
  Permutation (all_calls ((fun ctx => set_ax_calls (f <$> ax_calls ctx) ctx) <$> m)) (map f (all_calls m)).
Proof.
  unfold all_calls. rewrite map_to_list_fmap.
  assert (H : forall l : list (bytes * async_ctx), concat (map (fun p => ax_calls p.2) (prod_map id (fun ctx => set_ax_calls (f <$> ax_calls ctx) ctx) <$> l)) = map f (concat (map (fun p => ax_calls p.2) l))).
  { induction l as [|[a x] l IH]; [reflexivity|]. cbn. rewrite map_app. f_equal. exact IH. }
  rewrite H. reflexivity.
Qed.
Lemma setup_total left m m' : env_ok E -> typed_calls m -> 0 <= left < 2 ^ 64 ->
  setupAsyncCallsGas left m = ROk m' -> handed_out m' <= left.
Proof.
  intros HE Ht Hl H. apply (setup_iff left m m' HE Ht Hl) in H as (Ha & Hd & ->).
  unfold handed_out. rewrite (total_perm _ _ (Permutation_map gc_limit (all_calls_fmap _ m))). rewrite map_map. cbn [gc_limit set_gc_limit].
  set (share := (left - asked m) / unspecified m).
  assert (Hs : forall l, total (map (fun c => fair left m c) l) = total (map gc_provided l) + Z.of_nat (length (List.filter (fun c => gc_provided c =? 0) l)) * share).
  { induction l as [|c l IH]; [reflexivity|]. unfold total in *. cbn [map fold_right List.filter]. rewrite IH. unfold fair at 1. fold share.
    destruct (Z.eqb_spec (gc_provided c) 0); cbn [length]; lia. }
  rewrite Hs. fold (asked m) (unspecified m).
  destruct (decide (unspecified m = 0)) as [->|Hz]; [lia|].
  assert (Hu : 0 < unspecified m) by (unfold unspecified in *; lia).
  pose proof (Z.mul_div_le (left - asked m) (unspecified m) Hu). fold share in H. lia.
Qed.
End gas.
Lemma setup_order (E E' : env) left m m' : env_ok E -> env_ok E' -> typed_calls m -> 0 <= left < 2 ^ 64 ->
  setupAsyncCallsGas (E := E) left m = ROk m' <-> setupAsyncCallsGas (E := E') left m = ROk m'.
Proof. intros HE HE' Ht Hl. rewrite !setup_iff by assumption. reflexivity. Qed.
