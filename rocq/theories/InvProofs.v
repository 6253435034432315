(** Invariants over whole executions. *)
From Verif Require Import VmModel StoSpec InvSpec StoProofs WpProofs EffProofs EffFrameProofs EffWalkProofs EffTopProofs CallSpec KeepProofs CallProofs.

Definition copied (m : gmap bytes out_account) : gmap bytes out_account := merge mergeAccount ∅ m.
Definition merged (p m : gmap bytes out_account) : gmap bytes out_account := merge mergeAccount p m.
Definition added (m r : gmap bytes out_account) : gmap bytes out_account :=
  merge mergeAccount (merge addTransfers m r) (merge addLeft m r).

Lemma copied_lookup m a : copied m !! a = mergeOutputAccounts NewVMOutputAccount <$> m !! a.
Proof. unfold copied. rewrite lookup_merge, lookup_empty. destruct (m !! a); reflexivity. Qed.
Lemma merged_lookup p m a : merged p m !! a =
  match m !! a with Some y => Some (mergeOutputAccounts (default NewVMOutputAccount (p !! a)) y) | None => p !! a end.
Proof. unfold merged. rewrite lookup_merge. destruct (p !! a), (m !! a); reflexivity. Qed.
Lemma added_lookup m r a : added m r !! a =
  match m !! a, r !! a with
  | Some x, Some y => Some (mergeOutputAccounts (set_oa_transfers (oa_transfers x ++ oa_transfers y) x)
                              (set_oa_delta (oa_delta y + oa_delta x) y))
  | Some x, None => Some x
  | None, Some y => Some (mergeOutputAccounts NewVMOutputAccount y)
  | None, None => None
  end.
Proof.
  unfold added. rewrite lookup_merge, !lookup_merge. destruct (m !! a), (r !! a); reflexivity.
Qed.

Definition new_events (h h' : host) (ok : event -> Prop) : Prop :=
  exists t, h_trace h' = t ++ h_trace h /\ Forall ok t.

Section static.
Context `{E : env} (O : opts).
(** a predicate on the node's state and its snapshots, and one on the accounts
    of outputs; [g] on the storage owner and the read-only flag, [ok] on the
    events of the execution *)
Context (W : world -> Prop) (A : gmap bytes out_account -> Prop) (g : bytes -> bool -> Prop) (ok : event -> Prop).

Record static (h : host) : Prop := mkStatic {
  st_world : W (h_world h);
  st_out : A (accounts h)
}.
(** also the snapshots taken meanwhile and left behind by a panic *)
Definition newsnaps (h h' : host) : Prop := exists s, h_bcst h' = s ++ h_bcst h /\ Forall W s.
Lemma newsnaps_same h h' : h_bcst h' = h_bcst h -> newsnaps h h'.
Proof. intros H. exists []. auto. Qed.

Hypothesis g_ro : (forall b, ~ ok (EvReadOnly b)) \/ forall s r r', g s r -> g s r'.
Hypothesis g_dest : forall s r a, g s r -> ok (EvOwner a) -> g a r.
Hypothesis A_merge : forall p m, A p -> A m -> A (merged p m).
Hypothesis A_copy : forall m, A m -> A (copied m).
Hypothesis A_new : forall m a, A m -> m !! a = None -> A (<[a := NewVMOutputAccount]> m).
Hypothesis A_accs : forall m m', A m ->
  (forall a, match m !! a, m' !! a with Some x, Some y => acc_le x y | None, None => True | _, _ => False end) -> A m'.
Hypothesis A_balance : forall w m a x u, W w -> A m -> m !! a = Some x -> oa_balance x = None ->
  w_accounts w !! a = Some u -> A (<[a := set_oa_balance (Some (ua_balance u)) x]> m).
Hypothesis A_cell : forall w m a x k, W w -> A m -> m !! a = Some x -> oa_storage x !! k = None ->
  A (<[a := set_oa_storage (<[k := GetStorageData w a k]> (oa_storage x)) x]> m).
Hypothesis A_store : forall m s x k v, A m -> m !! s = Some x -> g s false -> writable_key k ->
  A (<[s := set_oa_storage (<[k := v]> (oa_storage x)) x]> m).
Hypothesis A_move : forall h sender dest v, static h -> 0 <= v -> funded h sender v -> paid O h sender dest v ->
  is_Some (accounts h !! sender) -> is_Some (accounts h !! dest) ->
  ok (EvMove (r_addr (h_rt h)) (r_addr <$> head (h_rtst h)) sender dest v) ->
  A (alter (fun x => set_oa_delta (oa_delta x + v) x) dest
       (alter (fun x => set_oa_delta (oa_delta x - v) x) sender (accounts h))).
Hypothesis A_delete : forall m a c n s, op_create O = true -> e_newAddress E c n = ROk a ->
  g s false -> A m -> A (delete a m).
Hypothesis W_builtin : forall w i, W w -> W (fst (e_builtin E w i)).
Hypothesis A_addout : forall w i w' o o' m, e_builtin E w i = (w', ROk o) -> retransfer o o' -> A m ->
  A (added m (o_accounts o')).

Lemma new_events_trans h1 h2 h3 : (exists t, h_trace h2 = t ++ h_trace h1) -> (exists t, h_trace h3 = t ++ h_trace h2) ->
  new_events h1 h3 ok -> new_events h1 h2 ok /\ new_events h2 h3 ok.
Proof.
  intros [t1 H1] [t2 H2] (t & H & Hf). assert (t = t2 ++ t1) as ->.
  { rewrite H2, H1, app_assoc in H. apply app_inv_tail in H. symmetry. exact H. }
  apply Forall_app in Hf as [F2 F1]. split; [exists t1|exists t2]; auto.
Qed.

Let G (h : host) : Prop := g (h_stoaddr h) (r_ro (h_rt h)).
Lemma G_eff l h h' b : eff O l h h' b -> wf h -> new_events h h' ok -> G h -> G h'.
Proof.
  intros He Hw (t & Ht & Hf). pose proof (eff_kept O _ _ _ _ He Hw) as K. unfold G. rewrite (k_stoaddr _ _ _ _ _ K).
  destruct g_ro as [Ho|Hr]; [|apply Hr].
  rewrite (k_ro _ _ _ _ _ K t Ht); [auto|]. eapply Forall_impl; [exact Hf|]. intros [] He'; try exact I. exact (Ho _ He').
Qed.

Lemma eff_static l h h' b : eff O l h h' b -> wf h -> G h -> new_events h h' ok -> static h -> static h' /\ newsnaps h h'.
Proof.
  induction 1 as [ | l h1 h2 h3 b1 b2 H1 IH1 H2 IH2 | l h i x y Hi Hm Hl | | | l h o Ho Ho2 Ho3 | l h a Ha | l h m Hm
    | l h a x u Ha Hb Hu | l h a x k Ha Hk | l h x k v Hx Hro Hk | l h h2 b H IH | l h s d v Hv Hf Hp Hs Hd
    | l h f Hf | l h ro | h m gas Hm | h | h m gas
    | | | | | l h h2 a Ho (c & n & Hc) Hrd H IH | l h i | l h w i w' o o' Hb Hr | l h h2 b H IH | l h h2 rv H IH | l h h2 H IH | l h i h2 b k H IH | l h i h2 b k H IH];
    intros Hw Hg Hn S;
    try (solve [split; [destruct S as [S1 S3]; constructor; assumption|apply newsnaps_same; reflexivity]]).
  - pose proof (eff_kept O _ _ _ _ H1 Hw) as K1. assert (Hw2 : wf h2) by exact (kept_wf _ _ _ _ _ K1 Hw).
    pose proof (eff_kept O _ _ _ _ H2 Hw2) as K2.
    destruct (new_events_trans h1 h2 h3 (k_trace _ _ _ _ _ K1) (k_trace _ _ _ _ _ K2) Hn) as [N1 N2].
    destruct (IH1 Hw Hg N1 S) as [S2 (s1 & B1 & F1)].
    destruct (IH2 Hw2 (G_eff _ _ _ _ H1 Hw N1 Hg) N2 S2) as [S3 (s2 & B2 & F2)].
    split; [exact S3|]. exists (s2 ++ s1). rewrite B2, B1, app_assoc. split; [reflexivity|apply Forall_app; auto].
  - split; [|apply newsnaps_same; reflexivity]. destruct S as [S1 S3]. constructor; try assumption.
    unfold accounts in *. cbn [h_out set_h_out]. rewrite Ho. exact S3.
  - split; [|apply newsnaps_same; reflexivity]. destruct S as [S1 S3]. constructor; try assumption. exact (A_new _ _ S3 Ha).
  - split; [|apply newsnaps_same; reflexivity]. destruct S as [S1 S3]. constructor; try assumption. exact (A_accs _ _ S3 Hm).
  - split; [|apply newsnaps_same; reflexivity]. destruct S as [S1 S3]. constructor; try assumption. exact (A_balance _ _ _ _ _ S1 S3 Ha Hb Hu).
  - split; [|apply newsnaps_same; reflexivity]. destruct S as [S1 S3]. constructor; try assumption. exact (A_cell _ _ _ _ _ S1 S3 Ha Hk).
  - split; [|apply newsnaps_same; reflexivity]. destruct S as [S1 S3]. constructor; try assumption.
    apply (A_store (accounts h) (h_stoaddr h) x k v S3 Hx); [|exact Hk].
    unfold G in Hg. rewrite Hro in Hg. exact Hg.
  - destruct (IH Hw Hg Hn) as [S' B'].
    { destruct S as [S1 S3]. constructor; assumption. }
    split; [|exact B']. destruct S' as [S1 S3]. constructor; assumption.
  - split; [|apply newsnaps_same; reflexivity].
    destruct Hn as (t & Ht & Hok). cbn in Ht.
    assert (t = [EvMove (r_addr (h_rt h)) (r_addr <$> head (h_rtst h)) s d v]) as ->.
    { apply (app_inv_tail (h_trace h)). symmetry. exact Ht. }
    pose proof (Forall_inv Hok) as Hok1.
    pose proof (A_move h s d v S Hv Hf Hp Hs Hd Hok1) as Hmv.
    destruct S as [S1 S3]. constructor; try assumption.
  - pose proof (eff_kept O _ _ _ _ H Hw) as K. destruct (k_trace _ _ _ _ _ K) as [t Ht].
    assert (Hn2 : new_events h h2 ok).
    { exists t. split; [exact Ht|]. destruct Hn as (t' & Ht' & Hf). cbn [h_trace set_h_trace] in Ht'.
      rewrite Ht, app_comm_cons in Ht'. apply app_inv_tail in Ht'. subst t'. exact (Forall_inv_tail Hf). }
    destruct (IH Hw Hg Hn2 S) as [[S1 S3] B]. split; [|exact B]. constructor; [exact S1|].
    unfold G in Hg. rewrite Hrd in Hg. exact (A_delete _ _ _ _ _ Ho Hc Hg S3).
  - split; [|apply newsnaps_same; reflexivity]. destruct S as [S1 S3]. constructor; try assumption. apply W_builtin, S1.
  - split; [|apply newsnaps_same; reflexivity]. destruct S as [S1 S3]. constructor; try assumption. exact (A_addout _ _ _ _ _ _ Hb Hr S3).
  - destruct (IH Hw Hg Hn S) as [[S1 S3] B]. split; [|exact B]. constructor; try assumption. apply S.
  - destruct (IH Hw Hg) as [S' _].
    { destruct Hn as (t & Ht & Hok). rewrite bcPop_h_trace in Ht. exists t. split; assumption. }
    { destruct S as [S1 S3]. constructor; assumption. }
    pose proof (eff_kept O _ _ _ _ H Hw) as K. pose proof (k_bcst_same _ _ _ _ _ K eq_refl) as Hbc.
    destruct (bcPop_set h2 rv _ _ Hbc) as [B1 B2]. split; [|apply newsnaps_same; exact B2].
    constructor.
    + rewrite B1. destruct rv; [apply S|apply S'].
    + unfold accounts. rewrite bcPop_h_out. apply S'.
  - destruct (IH Hw Hg Hn) as [S' (s & B & F)].
    { destruct S as [S1 S3]. constructor; assumption. }
    split; [exact S'|]. exists (s ++ [h_world h]). rewrite B, <-app_assoc. split; [reflexivity|].
    apply Forall_app. split; [exact F|]. constructor; [apply S|constructor].
  - pose proof (eff_kept O _ _ _ _ H Hw) as K.
    destruct Hn as (t & Ht & Hok). rewrite destPop_unfold in Ht. autorewrite with pops in Ht.
    destruct (k_trace _ _ _ _ _ K) as (t' & Ht'). rewrite Ht' in Ht.
    change (h_trace (destPush i h)) with ([EvOwner (ci_rcpt i)] ++ h_trace h) in Ht. rewrite app_assoc in Ht.
    apply app_inv_tail in Ht. subst t. apply Forall_app in Hok as [Hok1 Hok2].
    destruct IH as [S' (s & B & F)].
    { exact Hw. }
    { exact (g_dest _ _ (ci_rcpt i) Hg (Forall_inv Hok2)). }
    { exists t'; split; [exact Ht'|exact Hok1]. }
    { destruct S as [S1 S3]. constructor; assumption. }
    pose proof (k_outst _ _ _ _ _ K) as Ko. change (h_outst (destPush i h)) with (mergeVMOutputs newVMOutput (h_out h) :: h_outst h) in Ko.
    rewrite destPop_unfold. set (h5 := metPop k (stoPop (bigPop h2))).
    assert (Ko5 : h_outst h5 = mergeVMOutputs newVMOutput (h_out h) :: h_outst h) by (unfold h5; autorewrite with pops; exact Ko).
    destruct (outPop_set h5 k _ _ Ko5) as [B1 B2].
    split; [constructor; unfold accounts; autorewrite with pops|].
    + unfold h5. autorewrite with pops. apply S'.
    + rewrite B1. unfold h5. autorewrite with pops. destruct k.
      * apply A_copy. apply (A_merge (o_accounts (mergeVMOutputs newVMOutput (h_out h)))); [exact (A_copy _ (st_out _ S))|exact (st_out _ S')].
      * exact (A_copy _ (st_out _ S)).
    + exists s. autorewrite with pops. unfold h5. autorewrite with pops. split; [exact B|exact F].
  - pose proof (eff_kept O _ _ _ _ H Hw) as K.
    assert (Ht0 : h_trace (samePop k h2) = h_trace h2) by (rewrite samePop_unfold; destruct k; autorewrite with pops; reflexivity).
    destruct Hn as (t & Ht & Hok). rewrite Ht0 in Ht.
    destruct IH as [S' (s & Hbc & F)].
    { exact Hw. }
    { exact Hg. }
    { exists t; split; [exact Ht|exact Hok]. }
    { destruct S as [S1 S3]. constructor; assumption. }
    pose proof (k_outst _ _ _ _ _ K) as Ko. change (h_outst (samePush i h)) with (mergeVMOutputs newVMOutput (h_out h) :: h_outst h) in Ko.
    change (h_bcst (samePush i h)) with (h_world h :: h_bcst h) in Hbc.
    assert (Hbp : forall h5 (rv : bool), W (h_world h5) -> h_bcst h5 = s ++ h_world h :: h_bcst h ->
      W (h_world (bcPop rv h5)) /\ exists s', h_bcst (bcPop rv h5) = s' ++ h_bcst h /\ Forall W s').
    { intros h5 rv Hw5 Hb5. unfold bcPop, blockchain_PopSetActiveState, blockchain_PopDiscard, modify.
      destruct s as [|w5 s5]; cbn in Hb5.
      - destruct rv; cbn; rewrite Hb5; cbn; (split; [first [apply S|exact Hw5]|exists []; auto]).
      - inversion F as [|? ? F1 F2]; subst.
        assert (F' : Forall W (s5 ++ [h_world h])) by (apply Forall_app; split; [exact F2|constructor; [apply S|constructor]]).
        destruct rv; cbn; rewrite Hb5; cbn; (split; [assumption|]); exists (s5 ++ [h_world h]); rewrite <-app_assoc; auto. }
    destruct S' as [S1 S3]. rewrite samePop_unfold. destruct k.
    + set (h5 := bigDrop (outDrop (metPop true h2))).
      assert (B1 : h_world h5 = h_world h2) by (unfold h5; autorewrite with pops; reflexivity).
      assert (B2 : h_bcst h5 = h_bcst h2) by (unfold h5; autorewrite with pops; reflexivity).
      destruct (Hbp h5 false) as [C1 C2]; [rewrite B1; exact S1|rewrite B2; exact Hbc|].
      split; [constructor; unfold accounts; autorewrite with pops; [exact C1|]|].
      * unfold h5; autorewrite with pops. exact S3.
      * unfold newsnaps. autorewrite with pops. exact C2.
    + set (h5 := rtPop _).
      assert (B1 : h_world h5 = h_world h2) by (unfold h5; autorewrite with pops; reflexivity).
      assert (B2 : h_bcst h5 = h_bcst h2) by (unfold h5; autorewrite with pops; reflexivity).
      destruct (Hbp h5 true) as [C1 C2]; [rewrite B1; exact S1|rewrite B2; exact Hbc|].
      split; [|exact C2].
      set (h6 := metPop false (bigPop h2)) in h5.
      assert (Ko6 : h_outst h6 = mergeVMOutputs newVMOutput (h_out h) :: h_outst h) by (unfold h6; autorewrite with pops; exact Ko).
      destruct (outPop_set h6 false _ _ Ko6) as [D1 D2].
      constructor; unfold accounts; [exact C1|]; autorewrite with pops; unfold h5; autorewrite with pops.
      rewrite D1. exact (A_copy _ (st_out _ S)).
Qed.
End static.

(** * One storage cell *)
Definition entry (m : gmap bytes out_account) (a k : bytes) : option bytes := x ← m !! a; oa_storage x !! k.
Lemma cell_entry h a k : cell h a k = default (node_value (h_world h) a k) (entry (accounts h) a k).
Proof. unfold cell, entry, accounts. destruct (o_accounts (h_out h) !! a) as [x|]; reflexivity. Qed.
Lemma union_get (x y : gmap bytes bytes) k : (x ∪ y) !! k = match x !! k with Some v => Some v | None => y !! k end.
Proof. rewrite lookup_union. destruct (x !! k), (y !! k); reflexivity. Qed.
Lemma entry_merged p m a k : entry (merged p m) a k = match entry m a k with Some v => Some v | None => entry p a k end.
Proof.
  unfold entry. rewrite merged_lookup. destruct (m !! a) as [y|]; cbn; [|destruct (p !! a); reflexivity].
  rewrite union_get. destruct (oa_storage y !! k) as [v|]; [reflexivity|]. destruct (p !! a); reflexivity.
Qed.
Lemma entry_copied m a k : entry (copied m) a k = entry m a k.
Proof. unfold copied. rewrite entry_merged. unfold entry at 2. rewrite lookup_empty. destruct (entry m a k); reflexivity. Qed.
Lemma entry_added m r a k : entry (added m r) a k = match entry r a k with Some v => Some v | None => entry m a k end.
Proof.
  unfold entry. rewrite added_lookup. destruct (m !! a) as [x|], (r !! a) as [y|]; cbn; try reflexivity; rewrite union_get; reflexivity.
Qed.
Lemma entry_insert_ne m b x a k : b <> a -> entry (<[b := x]> m) a k = entry m a k.
Proof. intros H. unfold entry. rewrite lookup_insert_ne by exact H. reflexivity. Qed.
Lemma entry_alter_delta m b (f : out_account -> Z) a k : entry (alter (fun x => set_oa_delta (f x) x) b m) a k = entry m a k.
Proof.
  unfold entry. destruct (decide (b = a)) as [->|H]; [rewrite lookup_alter|rewrite lookup_alter_ne by exact H; reflexivity].
  destruct (m !! a); reflexivity.
Qed.
Lemma retransfer_entry o o' a k : retransfer o o' -> entry (o_accounts o') a k = entry (o_accounts o) a k.
Proof.
  intros H. specialize (H a). unfold entry. apply (f_equal oa_storage) in H. cbn in H.
  destruct (o_accounts o !! a) as [x|], (o_accounts o' !! a) as [y|]; cbn in *; rewrite ?H; try apply lookup_empty; try reflexivity.
  rewrite <-H. symmetry. apply lookup_empty.
Qed.

Section cell.
Context `{E : env} (O : opts) (g : bytes -> bool -> Prop) (ok : event -> Prop) (a k : bytes).
Hypothesis g_ro : (forall b, ~ ok (EvReadOnly b)) \/ forall s r r', g s r -> g s r'.
Hypothesis g_dest : forall s r a, g s r -> ok (EvOwner a) -> g a r.
Hypothesis g_store : g a false -> writable_key k -> False.
Hypothesis builtins : builtins_leave a k.

Lemma eff_cell l h h' b :
  cell h a k = node_value (h_world h) a k \/ ~ fresh_address a \/ (forall s, g s false -> False) ->
  eff O l h h' b -> wf h -> g (h_stoaddr h) (r_ro (h_rt h)) -> new_events h h' ok ->
  cell h' a k = cell h a k /\ node_value (h_world h') a k = node_value (h_world h) a k.
Proof.
  intros Hfresh He Hw Hg Hn.
  set (w0 := node_value (h_world h) a k) in *. set (e0 := entry (accounts h) a k).
  set (W := fun w => node_value w a k = w0).
  set (A := fun m => entry m a k = e0 \/ (e0 = None \/ e0 = Some w0) /\ (entry m a k = None \/ entry m a k = Some w0)).
  assert (HA : forall m m', A m -> entry m' a k = entry m a k -> A m') by (unfold A; intros m m' H1 H2; rewrite H2; exact H1).
  destruct (eff_static O W A g ok g_ro g_dest) with (l := l) (h := h) (h' := h') (b := b) as [[S1 S2] _]; try assumption.
  - intros p m Hp Hm. unfold A in *. rewrite entry_merged. destruct (entry m a k); [exact Hm|].
    destruct Hm as [<-|[? ?]], Hp as [Hp|[? Hp]]; auto.
  - intros m Hm. apply (HA m); [exact Hm|]. apply entry_copied.
  - intros m b' Hm Hb. apply (HA m); [exact Hm|]. unfold entry. destruct (decide (b' = a)) as [->|Hne].
    + rewrite lookup_insert, Hb. cbn. apply lookup_empty.
    + rewrite lookup_insert_ne by exact Hne. reflexivity.
  - intros m m' Hm Hacc. apply (HA m); [exact Hm|]. unfold entry. specialize (Hacc a).
    destruct (m !! a) as [x|], (m' !! a) as [y|]; try contradiction; [|reflexivity].
    cbn. destruct Hacc as (_ & _ & -> & _). reflexivity.
  - intros w m b' x u Hww Hm Hx _ _. apply (HA m); [exact Hm|]. destruct (decide (b' = a)) as [->|Hne].
    + unfold entry. rewrite lookup_insert, Hx. reflexivity.
    + apply entry_insert_ne, Hne.
  - intros w m b' x k' Hww Hm Hx Hk'. destruct (decide (b' = a)) as [->|Hne].
    + unfold A, entry. rewrite lookup_insert. cbn. destruct (decide (k' = k)) as [->|Hkk].
      * rewrite lookup_insert. assert (Hen : entry m a k = None) by (unfold entry; rewrite Hx; exact Hk').
        unfold A in Hm. rewrite Hen in Hm. change (GetStorageData w a k) with (node_value w a k). rewrite Hww.
        destruct Hm as [<-|[? _]]; auto.
      * rewrite lookup_insert_ne by exact Hkk. unfold A, entry in Hm. rewrite Hx in Hm. exact Hm.
    + apply (HA m); [exact Hm|]. apply entry_insert_ne, Hne.
  - intros m s x k' v Hm Hx Hgs Hk'. apply (HA m); [exact Hm|]. destruct (decide (s = a)) as [->|Hne]; [|apply entry_insert_ne, Hne].
    unfold entry. rewrite lookup_insert, Hx. cbn. destruct (decide (k' = k)) as [->|Hkk]; [destruct (g_store Hgs Hk')|].
    rewrite lookup_insert_ne by exact Hkk. reflexivity.
  - intros h0 s d v [_ Hm] _ _ _ _ _ _. apply (HA (accounts h0)); [exact Hm|]. rewrite !entry_alter_delta. reflexivity.
  - intros m b' c n s Hop Hnew Hgs Hm. destruct (decide (b' = a)) as [->|Hne].
    + unfold A. assert (Hd : entry (delete a m) a k = None) by (unfold entry; rewrite lookup_delete; reflexivity). rewrite Hd.
      destruct Hfresh as [Hf|[Hf|Hf]].
      * right. split; [|auto]. rewrite cell_entry in Hf. fold e0 in Hf. fold w0 in Hf. destruct e0; cbn in Hf; subst; auto.
      * exfalso. apply Hf. exists c, n. exact Hnew.
      * destruct (Hf s Hgs).
    + apply (HA m); [exact Hm|]. unfold entry. rewrite lookup_delete_ne by exact Hne. reflexivity.
  - intros w i Hww. unfold W in *. destruct (e_builtin E w i) as [w' r] eqn:Hb. cbn. rewrite <-Hww.
    exact (proj1 (builtins w i w' r Hb)).
  - intros w i w' o o' m Hb Hr Hm. apply (HA m); [exact Hm|]. rewrite entry_added, (retransfer_entry _ _ _ _ Hr).
    pose proof (proj2 (builtins w i w' _ Hb) o eq_refl) as Ho. unfold entry at 1.
    destruct (o_accounts o !! a) as [x|] eqn:Hx; [|reflexivity]. cbn. rewrite (Ho x eq_refl). reflexivity.
  - split; [reflexivity|]. left. reflexivity.
  - split; [|exact S1]. rewrite !cell_entry. rewrite S1. fold w0 e0. destruct S2 as [->|[[->| ->] [->| ->]]]; reflexivity.
Qed.
End cell.
