(** Value over whole executions. *)
From Verif Require Import VmModel StoSpec InvSpec MoneySpec StoProofs WpProofs EffProofs EffFrameProofs EffWalkProofs EffTopProofs CallSpec KeepProofs CallProofs InvProofs KindProofs TxProofs CellProofs.

(** * Sums *)
Notation accs := (gmap bytes out_account).
Lemma total_empty : total_change ∅ = 0.
Proof. apply map_fold_empty. Qed.
Lemma total_insert (m : accs) a x : m !! a = None -> total_change (<[a := x]> m) = oa_delta x + total_change m.
Proof. intros H. unfold total_change. rewrite (map_fold_insert_L (fun _ x s => oa_delta x + s)); [reflexivity|intros; lia|exact H]. Qed.
Lemma total_delete (m : accs) a : total_change m = change m a + total_change (delete a m).
Proof.
  unfold change. destruct (m !! a) as [x|] eqn:Hx.
  - rewrite <-(insert_delete m a x Hx) at 1. apply total_insert, lookup_delete.
  - rewrite delete_notin by exact Hx. reflexivity.
Qed.
Lemma total_zero (m : accs) : (forall a, change m a = 0) -> total_change m = 0.
Proof.
  induction m as [|i x m Hi IH] using map_ind; intros H; [apply total_empty|].
  rewrite total_insert by exact Hi. pose proof (H i) as Hx. unfold change in Hx. rewrite lookup_insert in Hx. rewrite Hx.
  rewrite IH; [reflexivity|]. intros a. destruct (decide (i = a)) as [<-|Hne].
  - unfold change. rewrite Hi. reflexivity.
  - specialize (H a). unfold change in *. rewrite lookup_insert_ne in H by exact Hne. exact H.
Qed.
Lemma total_ext (m m' : accs) : (forall a, change m' a = change m a) -> total_change m' = total_change m.
Proof.
  revert m'. induction m as [|i x m Hi IH] using map_ind; intros m' H.
  - rewrite total_empty. apply total_zero. intros a. rewrite H. reflexivity.
  - rewrite (total_delete m' i), (total_insert m i x Hi). rewrite H. unfold change at 1. rewrite lookup_insert.
    rewrite (IH (delete i m')); [reflexivity|]. intros a. destruct (decide (i = a)) as [<-|Hne].
    + unfold change. rewrite lookup_delete, Hi. reflexivity.
    + specialize (H a). unfold change in *. rewrite lookup_delete_ne, H, lookup_insert_ne by exact Hne. reflexivity.
Qed.
Lemma total_add (m r s : accs) : (forall a, change s a = change m a + change r a) -> total_change s = total_change m + total_change r.
Proof.
  revert m s. induction r as [|i x r Hi IH] using map_ind; intros m s H.
  - rewrite total_empty, Z.add_0_r. apply total_ext. intros a. rewrite H. unfold change at 2. rewrite lookup_empty. lia.
  - rewrite (total_insert r i x Hi). rewrite (total_delete s i), (total_delete m i).
    rewrite (IH (delete i m) (delete i s)).
    + rewrite H. unfold change at 2. rewrite lookup_insert. lia.
    + intros a. specialize (H a). unfold change in *. destruct (decide (i = a)) as [<-|Hne].
      * rewrite !lookup_delete, Hi. reflexivity.
      * rewrite !lookup_delete_ne by exact Hne. rewrite lookup_insert_ne in H by exact Hne. exact H.
Qed.

Lemma change_insert (m : accs) a x b : change (<[a := x]> m) b = if bool_decide (a = b) then oa_delta x else change m b.
Proof. unfold change. case_bool_decide as Hb; [subst; rewrite lookup_insert|rewrite lookup_insert_ne by exact Hb]; reflexivity. Qed.
Lemma change_alter (m : accs) a v b : is_Some (m !! a) ->
  change (alter (fun x => set_oa_delta (oa_delta x + v) x) a m) b = change m b + if bool_decide (a = b) then v else 0.
Proof.
  intros [x Hx]. unfold change. case_bool_decide as Hb; [subst; rewrite lookup_alter|rewrite lookup_alter_ne by exact Hb; lia].
  rewrite Hx. reflexivity.
Qed.
Lemma total_alter (m : accs) a v : is_Some (m !! a) ->
  total_change (alter (fun x => set_oa_delta (oa_delta x + v) x) a m) = total_change m + v.
Proof.
  intros Ha. rewrite (total_add m {[a := set_oa_delta v NewVMOutputAccount]}).
  - f_equal. rewrite <-insert_empty, total_insert, total_empty by apply lookup_empty. cbn. lia.
  - intros b. rewrite change_alter by exact Ha. f_equal. rewrite <-insert_empty, change_insert. unfold change. rewrite lookup_empty. reflexivity.
Qed.
Lemma change_copied m a : change (copied m) a = change m a.
Proof. unfold change. rewrite copied_lookup. destruct (m !! a); reflexivity. Qed.
Lemma change_merged p m a : change (merged p m) a = match m !! a with Some x => oa_delta x | None => change p a end.
Proof. unfold change. rewrite merged_lookup. destruct (m !! a); reflexivity. Qed.
Lemma change_added m r a : change (added m r) a = change m a + change r a.
Proof. unfold change. rewrite added_lookup. destruct (m !! a), (r !! a); cbn; lia. Qed.
Lemma change_retransfer o o' a : retransfer o o' -> change (o_accounts o') a = change (o_accounts o) a.
Proof.
  intros H. specialize (H a). apply (f_equal oa_delta) in H. unfold change.
  destruct (o_accounts o !! a), (o_accounts o' !! a); cbn in H |- *; congruence.
Qed.

Section money.
Context `{E : env} (O : opts).

(** * C22 *)
Definition deletes (h h' : host) (P : bytes -> list Z -> Prop) : Prop :=
  exists t, h_trace h' = t ++ h_trace h /\ forall a ds, In (EvDelete a ds) t -> P a ds.
Lemma deletes_trans h1 h2 h3 P : (exists t, h_trace h2 = t ++ h_trace h1) -> (exists t, h_trace h3 = t ++ h_trace h2) ->
  deletes h1 h3 P -> deletes h1 h2 P /\ deletes h2 h3 P.
Proof.
  intros [t1 H1] [t2 H2] (t & H & Hf). assert (t = t2 ++ t1) as ->.
  { rewrite H2, H1, app_assoc in H. apply app_inv_tail in H. symmetry. exact H. }
  split; [exists t1|exists t2]; (split; [assumption|]); intros a ds Hin; apply Hf, in_or_app; auto.
Qed.
Lemma deletes_join h1 h2 h3 P : deletes h1 h2 P -> deletes h2 h3 P -> deletes h1 h3 P.
Proof.
  intros (t1 & H1 & F1) (t2 & H2 & F2). exists (t2 ++ t1). rewrite H2, H1, app_assoc. split; [reflexivity|].
  intros a ds [Hin|Hin]%in_app_or; auto.
Qed.
Lemma deletes_none h h' P : h_trace h' = h_trace h -> deletes h h' P.
Proof. intros H. exists []. split; [exact H|]. intros a ds []. Qed.

Definition stacked (s : list vm_output) (a : bytes) (ds : list Z) : Prop :=
  exists l, ds = l ++ map (fun o => oa_delta (default NewVMOutputAccount (o_accounts o !! a))) s.

(** deletions see the saved outputs *)
Lemma eff_stacked l h h' b : eff O l h h' b -> wf h -> deletes h h' (stacked (h_outst h)).
Proof.
  induction 1 as [ | l h1 h2 h3 b1 b2 H1 IH1 H2 IH2 | l h i x y Hi Hm Hl | | | l h o Ho Ho2 Ho3 | l h a Ha | l h m Hm
    | l h a x u Ha Hb Hu | l h a x k Ha Hk | l h x k v Hx Hro Hk | l h h2 b H IH | l h s d v Hv Hf Hp Hs Hd
    | l h f Hf | l h ro | h m gas Hm | h | h m gas
    | | | | | l h h2 a Ho Hc Hrd H IH | l h i | l h w i w' o o' Hb Hr | l h h2 b H IH | l h h2 rv H IH | l h h2 H IH | l h i h2 b k H IH | l h i h2 b k H IH];
    intros Hw; try (apply deletes_none; reflexivity); try exact (IH Hw).
  - pose proof (eff_kept O _ _ _ _ H1 Hw) as K1. specialize (IH1 Hw). specialize (IH2 (kept_wf _ _ _ _ _ K1 Hw)).
    rewrite (k_outst _ _ _ _ _ K1) in IH2. eapply deletes_join; eauto.
  - eexists [_]. split; [reflexivity|]. intros a ds [|[]]. discriminate.
  - eexists [_]. split; [reflexivity|]. intros a ds [|[]]. discriminate.
  - eexists [_]. split; [reflexivity|]. intros a ds [|[]]. discriminate.
  - eexists [_]. split; [reflexivity|]. intros a ds [|[]]. discriminate.
  - apply (deletes_join h h2); [exact (IH Hw)|]. eexists [_]. split; [reflexivity|]. intros a' ds [[= <- <-]|[]].
    pose proof (eff_kept O _ _ _ _ H Hw) as K. rewrite <-(k_outst _ _ _ _ _ K). eexists [_]. reflexivity.
  - destruct (IH Hw) as (t & Ht & Hf). exists t. rewrite bcPop_h_trace. auto.
  - destruct (IH Hw) as (t & Ht & Hf). exists (t ++ [EvOwner (ci_rcpt i)]). rewrite destPop_unfold. autorewrite with pops.
    rewrite Ht. change (h_trace (destPush i h)) with ([EvOwner (ci_rcpt i)] ++ h_trace h). rewrite app_assoc. split; [reflexivity|].
    intros a ds [Hin|[|[]]]%in_app_or; [|discriminate]. destruct (Hf a ds Hin) as [l0 ->].
    change (h_outst (destPush i h)) with (mergeVMOutputs newVMOutput (h_out h) :: h_outst h). eexists (l0 ++ [_]). rewrite <-app_assoc. reflexivity.
  - destruct (IH Hw) as (t & Ht & Hf). exists t.
    assert (Ht0 : h_trace (samePop k h2) = h_trace h2) by (rewrite samePop_unfold; destruct k; autorewrite with pops; reflexivity).
    rewrite Ht0, Ht. split; [reflexivity|]. intros a ds Hin. destruct (Hf a ds Hin) as [l0 ->].
    change (h_outst (samePush i h)) with (mergeVMOutputs newVMOutput (h_out h) :: h_outst h). eexists (l0 ++ [_]). rewrite <-app_assoc. reflexivity.
Qed.

(** accounts leave the output only by deletions *)
Lemma eff_dom l h h' b a : eff O l h h' b -> wf h -> is_Some (accounts h !! a) ->
  is_Some (accounts h' !! a) \/ exists t ds, h_trace h' = t ++ h_trace h /\ In (EvDelete a ds) t.
Proof.
  induction 1 as [ | l h1 h2 h3 b1 b2 H1 IH1 H2 IH2 | l h i x y Hi Hm Hl | | | l h o Ho Ho2 Ho3 | l h a' Ha | l h m Hm
    | l h a' x u Ha Hb Hu | l h a' x k Ha Hk | l h x k v Hx Hro Hk | l h h2 b H IH | l h s d v Hv Hf Hp Hs Hd
    | l h f Hf | l h ro | h m gas Hm | h | h m gas
    | | | | | l h h2 a' Ho Hc Hrd H IH | l h i | l h w i w' o o' Hb Hr | l h h2 b H IH | l h h2 rv H IH | l h h2 H IH | l h i h2 b k H IH | l h i h2 b k H IH];
    intros Hw Hd0; try (left; exact Hd0); try exact (IH Hw Hd0).
  - pose proof (eff_kept O _ _ _ _ H1 Hw) as K1. pose proof (kept_wf _ _ _ _ _ K1 Hw) as Hw2.
    pose proof (eff_kept O _ _ _ _ H2 Hw2) as K2. destruct (k_trace _ _ _ _ _ K1) as [t1 T1], (k_trace _ _ _ _ _ K2) as [t2 T2].
    destruct (IH1 Hw Hd0) as [D1|(t & ds & Ht & Hin)].
    + destruct (IH2 Hw2 D1) as [D2|(t & ds & Ht & Hin)]; [auto|]. right. exists (t ++ t1), ds. rewrite Ht, T1, app_assoc. split; [reflexivity|apply in_or_app; auto].
    + right. exists (t2 ++ t), ds. rewrite T2, Ht, app_assoc. split; [reflexivity|apply in_or_app; auto].
  - left. unfold accounts in *. cbn [h_out set_h_out]. rewrite Ho. exact Hd0.
  - left. change (is_Some ((<[a':=NewVMOutputAccount]> (accounts h)) !! a)). apply lookup_insert_is_Some'. auto.
  - left. change (is_Some (m !! a)). specialize (Hm a). destruct (accounts h !! a), (m !! a); try contradiction; eauto; destruct Hd0; discriminate.
  - left. change (is_Some ((<[a':=set_oa_balance (Some (ua_balance u)) x]> (accounts h)) !! a)). apply lookup_insert_is_Some'. auto.
  - left. change (is_Some ((<[a':=set_oa_storage (<[k:=GetStorageData (h_world h) a' k]> (oa_storage x)) x]> (accounts h)) !! a)). apply lookup_insert_is_Some'. auto.
  - left. change (is_Some ((<[h_stoaddr h:=set_oa_storage (<[k:=v]> (oa_storage x)) x]> (accounts h)) !! a)). apply lookup_insert_is_Some'. auto.
  - left. change (is_Some (alter (fun x => set_oa_delta (oa_delta x + v) x) d (alter (fun x => set_oa_delta (oa_delta x - v) x) s (accounts h)) !! a)).
    rewrite !lookup_alter_is_Some. exact Hd0.
  - pose proof (eff_kept O _ _ _ _ H Hw) as K. destruct (k_trace _ _ _ _ _ K) as [t Ht].
    destruct (decide (a' = a)) as [->|Hne].
    + right. exists (EvDelete a (changes_of a h2) :: t), (changes_of a h2). split; [cbn; rewrite Ht; reflexivity|left; reflexivity].
    + destruct (IH Hw Hd0) as [D|(t' & ds & Ht' & Hin)].
      * left. change (is_Some (delete a' (accounts h2) !! a)). rewrite lookup_delete_ne by exact Hne. exact D.
      * right. exists (EvDelete a' (changes_of a' h2) :: t'), ds. split; [cbn; rewrite Ht'; reflexivity|right; exact Hin].
  - left. change (is_Some (added (accounts h) (o_accounts o') !! a)). rewrite added_lookup. destruct Hd0 as [x ->]. destruct (_ !! a); eauto.
  - destruct (IH Hw Hd0) as [D|D]; [left; unfold accounts; rewrite bcPop_h_out; exact D|right; rewrite bcPop_h_trace; exact D].
  - pose proof (eff_kept O _ _ _ _ H Hw) as K. pose proof (k_outst _ _ _ _ _ K) as Ko. change (h_outst (destPush i h)) with (mergeVMOutputs newVMOutput (h_out h) :: h_outst h) in Ko.
    left. rewrite destPop_unfold. set (h5 := metPop k (stoPop (bigPop h2))).
    assert (Ko5 : h_outst h5 = mergeVMOutputs newVMOutput (h_out h) :: h_outst h) by (unfold h5; autorewrite with pops; exact Ko).
    destruct (outPop_set h5 k _ _ Ko5) as [B1 B2]. unfold accounts. autorewrite with pops. rewrite B1.
    assert (C : is_Some (copied (accounts h) !! a)). { rewrite copied_lookup. apply fmap_is_Some. exact Hd0. }
    destruct k; [|exact C]. change (is_Some (copied (merged (copied (accounts h)) (accounts h5)) !! a)).
    rewrite copied_lookup. apply fmap_is_Some. rewrite merged_lookup. destruct (accounts h5 !! a); [eauto|exact C].
  - pose proof (eff_kept O _ _ _ _ H Hw) as K. pose proof (k_outst _ _ _ _ _ K) as Ko. change (h_outst (samePush i h)) with (mergeVMOutputs newVMOutput (h_out h) :: h_outst h) in Ko.
    assert (Ht0 : h_trace (samePop k h2) = h_trace h2) by (rewrite samePop_unfold; destruct k; autorewrite with pops; reflexivity).
    destruct k.
    + destruct (IH Hw Hd0) as [D|D]; [left|right; rewrite Ht0; exact D]. rewrite samePop_unfold. unfold accounts. autorewrite with pops. exact D.
    + left. rewrite samePop_unfold. set (h4 := metPop false (bigPop h2)).
      destruct (outPop_set h4 false (mergeVMOutputs newVMOutput (h_out h)) (h_outst h)) as [F1 F2]; [unfold h4; autorewrite with pops; exact Ko|].
      unfold accounts. autorewrite with pops. rewrite F1. change (is_Some (copied (accounts h) !! a)). rewrite copied_lookup. apply fmap_is_Some. exact Hd0.
Qed.

Definition zeroes (a : bytes) (ds : list Z) : Prop := forall d, In d ds -> d = 0.
Lemma eff_total l h h' b : eff O l h h' b -> wf h -> builtins_conserve -> deletes h h' zeroes ->
  total_change (accounts h') = total_change (accounts h).
Proof.
  intros H Hw Hbc. revert Hw.
  induction H as [ | l h1 h2 h3 b1 b2 H1 IH1 H2 IH2 | l h i x y Hi Hm Hl | | | l h o Ho Ho2 Ho3 | l h a Ha | l h m Hm
    | l h a x u Ha Hb Hu | l h a x k Ha Hk | l h x k v Hx Hro Hk | l h h2 b H IH | l h s d v Hv Hf Hp Hs Hd
    | l h f Hf | l h ro | h m gas Hm | h | h m gas
    | | | | | l h h2 a Ho Hc Hrd H IH | l h i | l h w i w' o o' Hb Hr | l h h2 b H IH | l h h2 rv H IH | l h h2 H IH | l h i h2 b k H IH | l h i h2 b k H IH];
    intros Hw Hz; try reflexivity; try exact (IH Hw Hz).
  - pose proof (eff_kept O _ _ _ _ H1 Hw) as K1. pose proof (kept_wf _ _ _ _ _ K1 Hw) as Hw2.
    pose proof (eff_kept O _ _ _ _ H2 Hw2) as K2.
    destruct (deletes_trans _ _ _ _ (k_trace _ _ _ _ _ K1) (k_trace _ _ _ _ _ K2) Hz) as [Z1 Z2].
    rewrite (IH2 Hw2 Z2). exact (IH1 Hw Z1).
  - unfold accounts. cbn [h_out set_h_out]. rewrite Ho. reflexivity.
  - change (total_change (<[a:=NewVMOutputAccount]> (accounts h)) = total_change (accounts h)). rewrite total_insert by exact Ha. reflexivity.
  - change (total_change m = total_change (accounts h)). apply total_ext. intros a. specialize (Hm a). unfold change.
    destruct (accounts h !! a), (m !! a); try contradiction; [apply Hm|reflexivity].
  - change (total_change (<[a:=set_oa_balance (Some (ua_balance u)) x]> (accounts h)) = total_change (accounts h)).
    apply total_ext. intros b. rewrite change_insert. case_bool_decide as He; [subst|reflexivity]. unfold change. rewrite Ha. reflexivity.
  - change (total_change (<[a:=set_oa_storage (<[k:=GetStorageData (h_world h) a k]> (oa_storage x)) x]> (accounts h)) = total_change (accounts h)).
    apply total_ext. intros b. rewrite change_insert. case_bool_decide as He; [subst|reflexivity]. unfold change. rewrite Ha. reflexivity.
  - change (total_change (<[h_stoaddr h:=set_oa_storage (<[k:=v]> (oa_storage x)) x]> (accounts h)) = total_change (accounts h)).
    apply total_ext. intros b. rewrite change_insert. case_bool_decide as He; [subst|reflexivity]. unfold change. rewrite Hx. reflexivity.
  - change (total_change (alter (fun x => set_oa_delta (oa_delta x + v) x) d (alter (fun x => set_oa_delta (oa_delta x + - v) x) s (accounts h))) = total_change (accounts h)).
    rewrite total_alter by (rewrite lookup_alter_is_Some; exact Hd). rewrite total_alter by exact Hs. lia.
  - pose proof (eff_kept O _ _ _ _ H Hw) as K.
    destruct (fun X => deletes_trans h h2 _ zeroes (k_trace _ _ _ _ _ K) X Hz) as [Z1 (t & Ht & Hf)]; [eexists [_]; reflexivity|].
    change (total_change (delete a (accounts h2)) = total_change (accounts h)). rewrite <-(IH Hw Z1), (total_delete (accounts h2) a).
    assert (t = [EvDelete a (changes_of a h2)]) as -> by (apply (app_inv_tail (h_trace h2)); symmetry; exact Ht).
    pose proof (Hf a _ (or_introl eq_refl) _ (or_introl eq_refl)) as Hd. unfold change. unfold accounts in *.
    destruct (o_accounts (h_out h2) !! a); cbn in Hd; lia.
  - change (total_change (added (accounts h) (o_accounts o')) = total_change (accounts h)).
    rewrite (total_add (accounts h) (o_accounts o')) by (intros; apply change_added).
    rewrite (total_ext (o_accounts o) (o_accounts o')) by (intros a; exact (change_retransfer _ _ a Hr)). rewrite (Hbc _ _ _ _ Hb). lia.
  - unfold accounts. rewrite bcPop_h_out. apply (IH Hw). destruct Hz as (t & Ht & Hf). exists t. rewrite bcPop_h_trace in Ht. auto.
  - pose proof (eff_kept O _ _ _ _ H Hw) as K. pose proof (k_outst _ _ _ _ _ K) as Ko. change (h_outst (destPush i h)) with (mergeVMOutputs newVMOutput (h_out h) :: h_outst h) in Ko.
    pose proof (eff_stacked _ _ _ _ H Hw) as (t & Ht & Hst).
    assert (Hz2 : forall a ds, In (EvDelete a ds) t -> zeroes a ds).
    { destruct Hz as (t' & Ht' & Hf). rewrite destPop_unfold in Ht'. autorewrite with pops in Ht'. rewrite Ht in Ht'.
      change (h_trace (destPush i h)) with ([EvOwner (ci_rcpt i)] ++ h_trace h) in Ht'. rewrite app_assoc in Ht'. apply app_inv_tail in Ht'. subst t'.
      intros a ds Hin. apply Hf, in_or_app. auto. }
    rewrite destPop_unfold. set (h5 := metPop k (stoPop (bigPop h2))).
    assert (Ko5 : h_outst h5 = mergeVMOutputs newVMOutput (h_out h) :: h_outst h) by (unfold h5; autorewrite with pops; exact Ko).
    assert (Ka5 : accounts h5 = accounts h2) by (unfold h5, accounts; autorewrite with pops; reflexivity).
    destruct (outPop_set h5 k _ _ Ko5) as [B1 B2]. unfold accounts. autorewrite with pops. rewrite B1. clear B1 B2.
    destruct k; [|apply total_ext; exact (change_copied (accounts h))].
    change (total_change (copied (merged (copied (accounts h)) (accounts h5))) = total_change (accounts h)). rewrite Ka5.
    transitivity (total_change (accounts h2)); [|apply (IH Hw); exists t; auto].
    apply total_ext. intros a. rewrite change_copied, change_merged. unfold change at 2. destruct (accounts h2 !! a) eqn:H2; [reflexivity|].
    rewrite change_copied. destruct (accounts h !! a) eqn:Ha; unfold change; rewrite Ha; [|reflexivity].
    destruct (eff_dom _ _ _ _ a H Hw) as [[z Hs]|(t' & ds & Ht' & Hin)]; [|rewrite H2 in Hs; discriminate|].
    { change (is_Some (accounts h !! a)). rewrite Ha. eauto. }
    assert (t' = t) as ->. { rewrite Ht in Ht'. apply app_inv_tail in Ht'. auto. }
    destruct (Hst a ds Hin) as [l1 ->]. specialize (Hz2 _ _ Hin).
    specialize (Hz2 (oa_delta (default NewVMOutputAccount (o_accounts (mergeVMOutputs newVMOutput (h_out h)) !! a)))).
    change (o_accounts (mergeVMOutputs newVMOutput (h_out h))) with (copied (accounts h)) in Hz2. rewrite copied_lookup, Ha in Hz2. apply Hz2.
    apply in_or_app. right. left. transitivity (oa_delta (default NewVMOutputAccount (copied (accounts h) !! a))); [reflexivity|rewrite copied_lookup, Ha; reflexivity].
  - pose proof (eff_kept O _ _ _ _ H Hw) as K. pose proof (k_outst _ _ _ _ _ K) as Ko. change (h_outst (samePush i h)) with (mergeVMOutputs newVMOutput (h_out h) :: h_outst h) in Ko.
    assert (Ht0 : h_trace (samePop k h2) = h_trace h2) by (rewrite samePop_unfold; destruct k; autorewrite with pops; reflexivity).
    destruct k.
    + rewrite samePop_unfold. unfold accounts. autorewrite with pops. apply (IH Hw). destruct Hz as (t & Ht & Hf). exists t. rewrite Ht0 in Ht. auto.
    + rewrite samePop_unfold. set (h4 := metPop false (bigPop h2)).
      destruct (outPop_set h4 false (mergeVMOutputs newVMOutput (h_out h)) (h_outst h)) as [F1 F2]; [unfold h4; autorewrite with pops; exact Ko|].
      unfold accounts. autorewrite with pops. rewrite F1. apply total_ext. exact (change_copied (accounts h)).
Qed.
End money.

(** * C23 *)
Section covered.
Context `{E : env} (O : opts) (a : bytes) (w0 : world).
Definition cov (m : accs) : Prop := forall x, m !! a = Some x ->
  (forall b, oa_balance x = Some b -> b = node_balance w0 a) /\ (oa_delta x < 0 -> 0 <= node_balance w0 a + oa_delta x).
Definition same_acc (w : world) : Prop := w_accounts w !! a = w_accounts w0 !! a.
Lemma cov_alter m b v : cov m -> (b = a -> forall x, m !! a = Some x -> oa_delta x + v < 0 -> 0 <= node_balance w0 a + (oa_delta x + v)) ->
  cov (alter (fun x => set_oa_delta (oa_delta x + v) x) b m).
Proof.
  intros Hc Hv x Hx. destruct (decide (b = a)) as [->|Hne]; [rewrite lookup_alter in Hx|rewrite lookup_alter_ne in Hx by exact Hne; exact (Hc x Hx)].
  destruct (m !! a) as [y|] eqn:Hy; [|discriminate]. injection Hx as <-. destruct (Hc y Hy) as [C1 C2]. split; [exact C1|]. cbn. exact (Hv eq_refl y eq_refl).
Qed.
Lemma covered_eff l h h' b : builtins_take_nothing a -> eff O l h h' b -> wf h -> same_acc (h_world h) -> cov (accounts h) ->
  same_acc (h_world h') /\ cov (accounts h').
Proof.
  intros Hb He Hw Hs Hc.
  destruct (eff_static O same_acc cov (fun _ _ => True) (fun _ => True)) with (l := l) (h := h) (h' := h') (b := b) as [[S1 S2] _]; auto.
  - intros p m Hp Hm x Hx. rewrite merged_lookup in Hx. destruct (m !! a) as [y|] eqn:Hy; [|exact (Hp x Hx)].
    injection Hx as <-. destruct (Hm y Hy) as [C1 C2]. split; [|exact C2]. intros v. cbn. destruct (oa_balance y) eqn:Hyb; [apply C1|].
    intros Hv. destruct (p !! a) as [z|] eqn:Hz; [exact (proj1 (Hp z Hz) v Hv)|discriminate].
  - intros m Hm x Hx. rewrite copied_lookup in Hx. destruct (m !! a) as [y|] eqn:Hy; [|discriminate]. injection Hx as <-.
    destruct (Hm y Hy) as [C1 C2]. split; [|exact C2]. cbn. intros v. destruct (oa_balance y); [apply C1|discriminate].
  - intros m a' Hm Hn x Hx. destruct (decide (a' = a)) as [->|Hne]; [rewrite lookup_insert in Hx|rewrite lookup_insert_ne in Hx by exact Hne; exact (Hm x Hx)].
    injection Hx as <-. cbn. split; [discriminate|lia].
  - intros m m' Hm Hl x Hx. specialize (Hl a). rewrite Hx in Hl. destruct (m !! a) as [y|] eqn:Hy; [|contradiction].
    destruct Hl as (-> & -> & _). exact (Hm y Hy).
  - intros w m a' x u HW Hm Hx Hn Hu y Hy. destruct (decide (a' = a)) as [->|Hne]; [rewrite lookup_insert in Hy|rewrite lookup_insert_ne in Hy by exact Hne; exact (Hm y Hy)].
    injection Hy as <-. cbn. split; [|exact (proj2 (Hm x Hx))]. intros b' [= <-]. unfold same_acc in HW. rewrite HW in Hu. unfold node_balance. rewrite Hu. reflexivity.
  - intros w m a' x k HW Hm Hx Hn y Hy. destruct (decide (a' = a)) as [->|Hne]; [rewrite lookup_insert in Hy|rewrite lookup_insert_ne in Hy by exact Hne; exact (Hm y Hy)].
    injection Hy as <-. exact (Hm x Hx).
  - intros m a' x k v Hm Hx _ _ y Hy. destruct (decide (a' = a)) as [->|Hne]; [rewrite lookup_insert in Hy|rewrite lookup_insert_ne in Hy by exact Hne; exact (Hm y Hy)].
    injection Hy as <-. exact (Hm x Hx).
  - intros h1 s d v [S1 S2] Hv Hf _ Hs' Hd' _.
    change (cov (alter (fun x => set_oa_delta (oa_delta x + v) x) d (alter (fun x => set_oa_delta (oa_delta x + - v) x) s (accounts h1)))).
    apply cov_alter; [apply cov_alter; [exact S2|]|].
    + intros -> x Hx Hlt. destruct (S2 x Hx) as [C1 C2]. destruct Hf as [->|(y & b' & Hy & Hb' & Hle)]; [lia|].
      assert (y = x) as -> by congruence. rewrite <-(C1 b' Hb'). lia.
    + intros -> x Hx Hlt. assert (C : cov (alter (fun x => set_oa_delta (oa_delta x + - v) x) s (accounts h1))).
      { apply cov_alter; [exact S2|]. intros -> x' Hx' Hlt'. destruct (S2 x' Hx') as [C1 C2]. destruct Hf as [->|(y & b' & Hy & Hb' & Hle)]; [lia|].
        assert (y = x') as -> by congruence. rewrite <-(C1 b' Hb'). lia. }
      destruct (C x Hx) as [_ C2]. lia.
  - intros m a' c n s _ _ _ Hm x Hx. apply lookup_delete_Some in Hx as [_ Hx]. exact (Hm x Hx).
  - intros w i HW. unfold same_acc. destruct (e_builtin E w i) as [w' r] eqn:Hbi. destruct (Hb _ _ _ _ Hbi) as [Hacc _]. cbn [fst]. rewrite Hacc. exact HW.
  - intros w i w' o o' m Hbi Hr Hm x Hx. destruct (Hb _ _ _ _ Hbi) as [_ Hb2]. specialize (Hr a).
    assert (D : forall y, o_accounts o' !! a = Some y -> 0 <= oa_delta y /\ oa_balance y = None).
    { intros y Hy. rewrite Hy in Hr. cbn in Hr. pose proof (f_equal oa_delta Hr) as R1. pose proof (f_equal oa_balance Hr) as R2. cbn in R1, R2. rewrite R1, R2.
      destruct (o_accounts o !! a) as [z|] eqn:Hz; [exact (Hb2 o z eq_refl Hz)|cbn; split; [lia|reflexivity]]. }
    rewrite added_lookup in Hx. destruct (m !! a) as [z|] eqn:Hz, (o_accounts o' !! a) as [y|] eqn:Hy; try discriminate; injection Hx as <-.
    + destruct (D y eq_refl) as [D1 D2], (Hm z Hz) as [C1 C2]. cbn. rewrite D2. split; [exact C1|]. intros Hlt. lia.
    + exact (Hm z Hz).
    + destruct (D y eq_refl) as [D1 D2]. cbn. rewrite D2. split; [discriminate|lia].
  - exact (all_events _ _ _ _ _ He Hw).
  - constructor; assumption.
Qed.
End covered.

(** * C24 *)
Section moves.
Context `{E : env} (O : opts).
Definition proper (e : event) : Prop :=
  match e with EvMove sc par s d v => own_money sc par s d v | _ => True end.
Lemma eff_moves l h h' b : op_byc O = false -> op_any O = false -> eff O l h h' b -> wf h -> new_events h h' proper.
Proof.
  intros O1 O2.
  induction 1 as [ | l h1 h2 h3 b1 b2 H1 IH1 H2 IH2 | l h i x y Hi Hm Hl | | | l h o Ho Ho2 Ho3 | l h a Ha | l h m Hm
    | l h a x u Ha Hb Hu | l h a x k Ha Hk | l h x k v Hx Hro Hk | l h h2 b H IH | l h s d v Hv Hf Hp Hs Hd
    | l h f Hf | l h ro | h m gas Hm | h | h m gas
    | | | | | l h h2 a Ho Hc Hrd H IH | l h i | l h w i w' o o' Hb Hr | l h h2 b H IH | l h h2 rv H IH | l h h2 H IH | l h i h2 b k H IH | l h i h2 b k H IH];
    intros Hw; try (exists []; split; [reflexivity|constructor]); try exact (IH Hw).
  - pose proof (eff_kept O _ _ _ _ H1 Hw) as K1. destruct (IH1 Hw) as (t1 & T1 & F1), (IH2 (kept_wf _ _ _ _ _ K1 Hw)) as (t2 & T2 & F2).
    exists (t2 ++ t1). rewrite T2, T1, app_assoc. split; [reflexivity|apply Forall_app; auto].
  - eexists [_]. split; [reflexivity|]. constructor; [|constructor]. unfold proper, own_money. destruct Hp as [Hp|[Hp|[Hp|[Hp|(_ & Hp & _)]]]]; [left; exact Hp|congruence|right; left; exact Hp|right; right; exact Hp|congruence].
  - eexists [_]. split; [reflexivity|]. repeat constructor.
  - eexists [_]. split; [reflexivity|]. repeat constructor.
  - eexists [_]. split; [reflexivity|]. repeat constructor.
  - destruct (IH Hw) as (t & Ht & Hf). exists (EvDelete a (changes_of a h2) :: t). cbn. rewrite Ht. split; [reflexivity|]. constructor; [exact I|exact Hf].
  - destruct (IH Hw) as (t & Ht & Hf). exists t. rewrite bcPop_h_trace. auto.
  - destruct (IH Hw) as (t & Ht & Hf). exists (t ++ [EvOwner (ci_rcpt i)]). rewrite destPop_unfold. autorewrite with pops.
    rewrite Ht. change (h_trace (destPush i h)) with ([EvOwner (ci_rcpt i)] ++ h_trace h). rewrite app_assoc. split; [reflexivity|].
    apply Forall_app. split; [exact Hf|]. repeat constructor.
  - destruct (IH Hw) as (t & Ht & Hf). exists t.
    assert (Ht0 : h_trace (samePop k h2) = h_trace h2) by (rewrite samePop_unfold; destruct k; autorewrite with pops; reflexivity).
    rewrite Ht0, Ht. auto.
Qed.

Definition not_from (a : bytes) (e : event) : Prop :=
  match e with EvMove _ _ s _ v => s = a -> v = 0 | _ => True end.
Lemma lower_bound l h h' b a c0 : builtins_take_nothing a -> eff O l h h' b -> wf h ->
  c0 <= 0 \/ ~ fresh_address a -> new_events h h' (not_from a) ->
  c0 <= change (accounts h) a -> c0 <= change (accounts h') a.
Proof.
  intros Hb He Hw Hf Hn Hc0.
  destruct (eff_static O (fun _ => True) (fun m => c0 <= change m a) (fun _ _ => True) (not_from a)) with (l := l) (h := h) (h' := h') (b := b) as [[S1 S2] _]; auto.
  - intros p m Hp Hm. rewrite change_merged. unfold change in Hm. destruct (m !! a); [exact Hm|exact Hp].
  - intros m Hm. rewrite change_copied. exact Hm.
  - intros m a' Hm Hx. rewrite change_insert. case_bool_decide as Hd; [subst|exact Hm]. unfold change in Hm. rewrite Hx in Hm. exact Hm.
  - intros m m' Hm Hl. specialize (Hl a). unfold change in *. destruct (m !! a), (m' !! a); try contradiction; [|exact Hm]. destruct Hl as (_ & -> & _). exact Hm.
  - intros w m a' x u _ Hm Hx _ _. rewrite change_insert. case_bool_decide as Hd; [subst|exact Hm]. unfold change in Hm. rewrite Hx in Hm. exact Hm.
  - intros w m a' x u _ Hm Hx _. rewrite change_insert. case_bool_decide as Hd; [subst|exact Hm]. unfold change in Hm. rewrite Hx in Hm. exact Hm.
  - intros m a' x k v Hm Hx _ _. rewrite change_insert. case_bool_decide as Hd; [subst|exact Hm]. unfold change in Hm. rewrite Hx in Hm. exact Hm.
  - intros h1 s d v [_ S2] Hv _ _ Hs Hd Hok. cbn in Hok.
    change (c0 <= change (alter (fun x => set_oa_delta (oa_delta x + v) x) d (alter (fun x => set_oa_delta (oa_delta x + - v) x) s (accounts h1))) a).
    rewrite change_alter by (rewrite lookup_alter_is_Some; exact Hd). rewrite change_alter by exact Hs.
    repeat case_bool_decide; try lia.
  - intros m a' c n s _ Hc _ Hm. unfold change in *. destruct (decide (a' = a)) as [->|Hne]; [|rewrite lookup_delete_ne by exact Hne; exact Hm].
    rewrite lookup_delete. destruct Hf as [Hf|Hf]; [exact Hf|]. destruct Hf. exists c, n. exact Hc.
  - intros w i w' o o' m Hbi Hr Hm. rewrite change_added. rewrite (change_retransfer _ _ a Hr).
    destruct (Hb _ _ _ _ Hbi) as [_ Hb2]. assert (0 <= change (o_accounts o) a); [|lia]. unfold change. destruct (o_accounts o !! a) as [x|] eqn:Hx; [|lia].
    exact (proj1 (Hb2 o x eq_refl Hx)).
  - constructor; [exact I|exact Hc0].
Qed.
Lemma lower_eff l h h' b a : builtins_take_nothing a -> eff O l h h' b -> wf h ->
  change (accounts h) a <= 0 \/ ~ fresh_address a -> new_events h h' (not_from a) ->
  change (accounts h) a <= change (accounts h') a.
Proof. intros Hb He Hw Hf Hn. exact (lower_bound l h h' b a _ Hb He Hw Hf Hn (Z.le_refl _)). Qed.
Definition not_about (a : bytes) (e : event) : Prop :=
  match e with EvMove _ _ s d v => s = a \/ d = a -> v = 0 | _ => True end.
Lemma still_eff l h h' b a : builtins_pay_nothing a -> eff O l h h' b -> wf h ->
  change (accounts h) a = 0 \/ ~ fresh_address a -> new_events h h' (not_about a) ->
  change (accounts h') a = change (accounts h) a.
Proof.
  intros Hb He Hw Hf Hn. set (c0 := change (accounts h) a) in *.
  destruct (eff_static O (fun _ => True) (fun m => change m a = c0) (fun _ _ => True) (not_about a)) with (l := l) (h := h) (h' := h') (b := b) as [[S1 S2] _]; auto.
  - intros p m Hp Hm. rewrite change_merged. unfold change in Hm. destruct (m !! a); [exact Hm|exact Hp].
  - intros m Hm. rewrite change_copied. exact Hm.
  - intros m a' Hm Hx. rewrite change_insert. case_bool_decide as Hd; [subst|exact Hm]. unfold change in Hm. rewrite Hx in Hm. exact Hm.
  - intros m m' Hm Hl. specialize (Hl a). unfold change in *. destruct (m !! a), (m' !! a); try contradiction; [|exact Hm]. destruct Hl as (_ & -> & _). exact Hm.
  - intros w m a' x u _ Hm Hx _ _. rewrite change_insert. case_bool_decide as Hd; [subst|exact Hm]. unfold change in Hm. rewrite Hx in Hm. exact Hm.
  - intros w m a' x u _ Hm Hx _. rewrite change_insert. case_bool_decide as Hd; [subst|exact Hm]. unfold change in Hm. rewrite Hx in Hm. exact Hm.
  - intros m a' x k v Hm Hx _ _. rewrite change_insert. case_bool_decide as Hd; [subst|exact Hm]. unfold change in Hm. rewrite Hx in Hm. exact Hm.
  - intros h1 s d v [_ S2] Hv _ _ Hs Hd Hok. cbn in Hok.
    change (change (alter (fun x => set_oa_delta (oa_delta x + v) x) d (alter (fun x => set_oa_delta (oa_delta x + - v) x) s (accounts h1))) a = c0).
    rewrite change_alter by (rewrite lookup_alter_is_Some; exact Hd). rewrite change_alter by exact Hs.
    repeat case_bool_decide; try (rewrite Hok by auto); lia.
  - intros m a' c n s _ Hc _ Hm. unfold change in *. destruct (decide (a' = a)) as [->|Hne]; [|rewrite lookup_delete_ne by exact Hne; exact Hm].
    rewrite lookup_delete. destruct Hf as [Hf|Hf]; [symmetry; exact Hf|]. destruct Hf. exists c, n. exact Hc.
  - intros w i w' o o' m Hbi Hr Hm. rewrite change_added. rewrite (change_retransfer _ _ a Hr), (Hb _ _ _ _ Hbi). lia.
  - constructor; [exact I|reflexivity].
Qed.
Lemma about_dec a e : {not_about a e} + {~ not_about a e}.
Proof.
  destruct e as [| |sc par s d v| |]; try (left; exact I). cbn. destruct (Z.eq_dec v 0) as [->|Hv]; [left; auto|].
  destruct (decide (s = a)); [right; tauto|]. destruct (decide (d = a)); [right; tauto|left; tauto].
Qed.
Lemma moved_eff l h h' b a : builtins_pay_nothing a -> eff O l h h' b -> wf h -> change (accounts h) a = 0 \/ ~ fresh_address a ->
  change (accounts h') a <> change (accounts h) a ->
  exists sc par s d v, moved h h' sc par s d v /\ v <> 0 /\ (s = a \/ d = a).
Proof.
  intros Hb He Hw Hf Hne. destruct (k_trace _ _ _ _ _ (eff_kept _ _ _ _ _ He Hw)) as (t & Ht).
  destruct (List.Forall_Exists_dec (not_about a) (about_dec a) t) as [Hn|Hx].
  - destruct Hne. exact (still_eff _ _ _ _ a Hb He Hw Hf (ex_intro _ t (conj Ht Hn))).
  - apply List.Exists_exists in Hx as (e & Hin & Hnot). destruct e as [| |sc par s d v| |]; try (destruct Hnot; exact I). cbn in Hnot.
    exists sc, par, s, d, v. split; [exists t; auto|]. destruct (Z.eq_dec v 0) as [->|Hv]; [destruct Hnot; auto|]. split; [exact Hv|].
    destruct (decide (s = a)); [auto|]. destruct (decide (d = a)); [auto|]. destruct Hnot. tauto.
Qed.
Lemma from_dec a e : {not_from a e} + {~ not_from a e}.
Proof.
  destruct e as [| |sc par s d v| |]; try (left; exact I). cbn. destruct (decide (s = a)) as [->|Hs]; [|left; tauto].
  destruct (Z.eq_dec v 0) as [->|Hv]; [left; auto|right; auto].
Qed.
Lemma debit_eff l h h' b a : op_byc O = false -> op_any O = false -> builtins_take_nothing a -> eff O l h h' b -> wf h ->
  change (accounts h) a <= 0 \/ ~ fresh_address a -> change (accounts h') a < change (accounts h) a ->
  exists sc par d v, moved h h' sc par a d v /\ v <> 0 /\ (sc = a \/ (d = sc /\ par = Some a)).
Proof.
  intros O1 O2 Hb He Hw Hf Hlt. destruct (eff_moves _ _ _ _ O1 O2 He Hw) as (t & Ht & Hp).
  destruct (List.Forall_Exists_dec (not_from a) (from_dec a) t) as [Hn|Hx].
  - pose proof (lower_eff _ _ _ _ a Hb He Hw Hf (ex_intro _ t (conj Ht Hn))). lia.
  - apply List.Exists_exists in Hx as (e & Hin & Hnot). destruct e as [| |sc par s d v| |]; try (destruct Hnot; exact I).
    cbn in Hnot. destruct (decide (s = a)) as [->|Hs]; [|destruct Hnot; tauto]. destruct (Z.eq_dec v 0) as [->|Hv]; [destruct Hnot; auto|].
    rewrite List.Forall_forall in Hp. specialize (Hp _ Hin). cbn in Hp. exists sc, par, d, v. split; [exists t; auto|]. split; [exact Hv|].
    destruct Hp as [Hp|[Hp|Hp]]; [contradiction|auto|auto].
Qed.
End moves.

(** * Transactions *)
(** where the execution of a transaction begins: only the recipient [a] has a
    balance change, the value [v] of the transaction *)
Record begins (h h0 : host) (a : bytes) (v : Z) : Prop := mkBegins {
  bg_wf : wf h0;
  bg_world : h_world h0 = h_world h;
  bg_trace : exists t, h_trace h0 = t ++ h_trace h /\ Forall proper t /\ Forall (fun e => match e with EvOwner _ => True | _ => False end) t;
  bg_acc : forall b x, accounts h0 !! b = Some x -> oa_balance x = None /\ oa_delta x = if bool_decide (a = b) then v else 0;
  bg_rcpt : is_Some (accounts h0 !! a)
}.
Lemma begins_change h h0 a v b : begins h h0 a v -> change (accounts h0) b = if bool_decide (a = b) then v else 0.
Proof.
  intros B. unfold change. destruct (accounts h0 !! b) as [x|] eqn:Hx; [exact (proj2 (bg_acc _ _ _ _ B b x Hx))|].
  case_bool_decide as Hb; [|reflexivity]. subst b. destruct (bg_rcpt _ _ _ _ B) as [x Hy]. congruence.
Qed.
Lemma begins_total h h0 a v : begins h h0 a v -> total_change (accounts h0) = v.
Proof.
  intros B. rewrite (total_delete _ a), (begins_change _ _ _ _ a B), bool_decide_eq_true_2 by reflexivity.
  rewrite total_zero; [lia|]. intros b. unfold change. destruct (decide (a = b)) as [->|Hne]; [rewrite lookup_delete; reflexivity|].
  rewrite lookup_delete_ne by exact Hne. pose proof (begins_change _ _ _ _ b B) as Hb. unfold change in Hb. rewrite Hb.
  rewrite bool_decide_eq_false_2 by exact Hne. reflexivity.
Qed.
Lemma begins_start h h1 f m a v : wf h1 -> h_world h1 = h_world h -> h_trace h1 = h_trace h ->
  (forall b x, accounts h1 !! b = Some x -> oa_balance x = None /\ oa_delta x = 0) -> begins h (start f m a v h1) a v.
Proof.
  intros Hw H1 H2 Ha. constructor.
  - exact Hw.
  - exact H1.
  - exists [EvOwner a]. change (h_trace (start f m a v h1)) with (EvOwner a :: h_trace h1). rewrite H2. split; [reflexivity|]. repeat constructor.
  - intros b x. change (accounts (start f m a v h1)) with
      (<[a := let x := default NewVMOutputAccount (accounts h1 !! a) in set_oa_delta (oa_delta x + v) x]> (accounts h1)).
    destruct (decide (a = b)) as [->|Hne].
    + rewrite lookup_insert. intros [= <-]. rewrite bool_decide_eq_true_2 by reflexivity.
      destruct (accounts h1 !! b) as [y|] eqn:Hy; cbn; [|split; [reflexivity|lia]]. destruct (Ha b y Hy) as [-> ->]. split; [reflexivity|lia].
    + rewrite lookup_insert_ne, bool_decide_eq_false_2 by exact Hne. apply Ha.
  - change (is_Some (<[a := let x := default NewVMOutputAccount (accounts h1 !! a) in set_oa_delta (oa_delta x + v) x]> (accounts h1) !! a)).
    rewrite lookup_insert. eauto.
Qed.

Definition ends `{E : env} (O : opts) (h h' : host) (o : vm_output) (a : bytes) (v : Z) : Prop :=
  exists h0 h2, begins h h0 a v /\ eff O true h0 h2 false /\ h_world h' = h_world h2 /\ h_trace h' = h_trace h2 /\
    (o_accounts o = accounts h2 \/ error_output o).
Section txs.
Context `{E : env} (O : opts) (codes_ok : forall code m, e_compile E code = Some m -> mod_ok O m).
Lemma bare_unstarted h : no_stacks h -> unstarted O h.
Proof. intros N _. rewrite (ns_running _ N), (ns_instances _ N). reflexivity. Qed.
Lemma call_ends n i h h' o : good O true h -> no_stacks h -> RunSmartContractCall n i h = (h', OOk o) ->
  ends O h h' o (ci_rcpt i) (vi_value (ci_vm i)).
Proof.
  intros Hg N H. destruct (call_top0 O codes_ok n i h h' (OOk o) Hg (bare_unstarted h N) H ltac:(discriminate)) as (h2 & He & Hh').
  destruct (init0_ok h) as (_ & _ & _ & _ & _ & _ & _ & I7 & _). rewrite (ns_running _ N) in I7.
  destruct (init0_parts h) as (IW & IA & IT & _). revert He IW I7 IA IT. generalize (init0 h). intros h0 He IW I7 IA IT.
  eexists _, h2. split; [apply begins_start; [intros j; rewrite I7; discriminate|exact IW|exact IT|]|].
  { rewrite IA. intros b x. rewrite lookup_empty. discriminate. }
  split; [exact He|]. destruct (clean_fields h2) as [W2 T2]. rewrite Hh', W2, T2. split; [reflexivity|]. split; [reflexivity|].
  destruct (call_out n i h h' o H) as [Ho|Ho]; [left|right; exact Ho]. rewrite Ho, Hh', clean_out. reflexivity.
Qed.
Lemma NewAddress_acc b h h' r : NewAddress b h = (h', r) -> accounts h = ∅ ->
  forall c x, accounts h' !! c = Some x -> oa_balance x = None /\ oa_delta x = 0.
Proof.
  intros H HA. unfold NewAddress in H. unfold bind at 1 in H. destruct (GetNonce b h) as [h1 on] eqn:Hn.
  assert (G : forall c x, accounts h1 !! c = Some x -> oa_balance x = None /\ oa_delta x = 0).
  { clear H. unfold GetNonce in Hn. unfold bind at 1 in Hn. unfold GetOutputAccount in Hn. rewrite HA, lookup_empty in Hn.
    assert (G0 : forall c x, (<[b:=NewVMOutputAccount]> ∅ : accs) !! c = Some x -> oa_balance x = None /\ oa_delta x = 0).
    { intros c x. destruct (decide (b = c)) as [->|Hne]; [rewrite lookup_insert; intros [= <-]; auto|rewrite lookup_insert_ne, lookup_empty by exact Hne; discriminate]. }
    cbn [fst snd negb] in Hn. cbn beta iota zeta in Hn. 
    try (destruct (negb _); [injection Hn as <- _; exact G0|]). rewrite bind_gets in Hn.
    unfold bind at 1 in Hn. destruct (GetUserAccount _ b) as [[u|] | |]; cbn [lift] in Hn; try (injection Hn as <- _; exact G0).
    injection Hn as <- _. intros c x. change (accounts (set_accounts ?m _)) with m.
    destruct (decide (b = c)) as [->|Hne]; [rewrite lookup_alter|rewrite lookup_alter_ne by exact Hne; apply G0].
    change (accounts (set_accounts ?m _)) with m. rewrite lookup_insert. intros [= <-]. auto. }
  destruct on; try (injection H as <- _; exact G). cbv zeta in H. destruct (e_newAddress _ _ _); injection H as <- _; exact G.
Qed.
Lemma create_ends n i h h' o : good O true h -> no_stacks h -> RunSmartContractCreate n i h = (h', OOk o) ->
  error_output o \/ exists a, ends O h h' o a (vi_value (cc_vm i)).
Proof.
  intros Hg N H. destruct (create_top0 O codes_ok n i h h' (OOk o) Hg (bare_unstarted h N) H ltac:(discriminate)) as (h1 & b1 & He1 & Hc).
  destruct Hc as [(_ & _ & Herr)|(a & h2 & -> & He & Hh' & Hna)].
  { left. destruct (Herr o eq_refl) as (e & h4 & h5 & H4). exact (error_out _ _ _ _ H4). }
  right. exists a. destruct (init0_ok h) as (_ & _ & _ & _ & _ & _ & _ & I7 & _). rewrite (ns_running _ N) in I7.
  destruct (init0_parts h) as (IW & IA & IT & _). revert He1 Hna He IW I7 IA IT. generalize (init0 h). intros h0 He1 Hna He IW I7 IA IT.
  assert (Hw0 : wf h0) by (intros j; rewrite I7; discriminate).
  pose proof (NewAddress_cell _ _ _ _ [] [] Hna) as (_ & NW & NT).
  eexists _, h2. split; [apply begins_start|].
  - exact (kept_wf _ _ _ _ _ (eff_kept _ _ _ _ _ He1 Hw0) Hw0).
  - rewrite NW. exact IW.
  - rewrite NT. exact IT.
  - exact (NewAddress_acc _ _ _ _ Hna IA).
  - split; [exact He|]. destruct (clean_fields h2) as [W2 T2]. rewrite Hh', W2, T2. split; [reflexivity|]. split; [reflexivity|].
    destruct (create_out n i h h' o H) as [Ho|Ho]; [left|right; exact Ho]. rewrite Ho, Hh', clean_out. reflexivity.
Qed.
End txs.
Lemma error_accounts o : error_output o -> o_accounts o = ∅.
Proof. intros (e & msg & ->). reflexivity. Qed.

Section tx2.
Context `{E : env} (O : opts).
Lemma ends_total h h' o a v : builtins_conserve -> no_funds_deleted h h' -> ends O h h' o a v ->
  total_change (o_accounts o) = v \/ (error_output o /\ total_change (o_accounts o) = 0).
Proof.
  intros Hb (t & Ht & Hz) (h0 & h2 & B & He & HW & HT & Ho). destruct Ho as [Ho|Ho].
  - left. rewrite Ho, <-(begins_total _ _ _ _ B). apply (eff_total O _ _ _ _ He (bg_wf _ _ _ _ B) Hb).
    destruct (bg_trace _ _ _ _ B) as (t0 & Ht0 & _). destruct (k_trace _ _ _ _ _ (eff_kept _ _ _ _ _ He (bg_wf _ _ _ _ B))) as (t2 & Ht2).
    exists t2. split; [exact Ht2|]. intros b ds Hin d Hd. apply (Hz b ds d); [|exact Hd].
    rewrite HT, Ht2, Ht0, app_assoc in Ht. apply app_inv_tail in Ht. subst t. apply in_or_app. auto.
  - right. split; [exact Ho|]. rewrite (error_accounts _ Ho). apply total_empty.
Qed.
Lemma ends_covered h h' o a v b : builtins_take_nothing b -> 0 <= v -> ends O h h' o a v ->
  0 <= change (o_accounts o) b \/ 0 <= node_balance (h_world h) b + change (o_accounts o) b.
Proof.
  intros Hb Hv (h0 & h2 & B & He & HW & HT & Ho). destruct Ho as [Ho|Ho]; [|left; rewrite (error_accounts _ Ho); unfold change; rewrite lookup_empty; lia].
  destruct (covered_eff O b (h_world h) _ _ _ _ Hb He (bg_wf _ _ _ _ B)) as [_ C].
  - unfold same_acc. rewrite (bg_world _ _ _ _ B). reflexivity.
  - intros x Hx. destruct (bg_acc _ _ _ _ B b x Hx) as [-> ->]. split; [discriminate|]. case_bool_decide; lia.
  - rewrite Ho. unfold change. destruct (accounts h2 !! b) as [x|] eqn:Hx; [|left; lia]. destruct (C x Hx) as [_ C2]. lia.
Qed.
Lemma ends_debit h h' o a v b : op_byc O = false -> op_any O = false -> builtins_take_nothing b -> 0 <= v -> ends O h h' o a v ->
  change (o_accounts o) b < 0 ->
  exists sc par d x, moved h h' sc par b d x /\ x <> 0 /\ (sc = b \/ (d = sc /\ par = Some b)).
Proof.
  intros O1 O2 Hb Hv (h0 & h2 & B & He & HW & HT & Ho) Hlt.
  destruct Ho as [Ho|Ho]; [|rewrite (error_accounts _ Ho) in Hlt; unfold change in Hlt; rewrite lookup_empty in Hlt; lia].
  destruct (bg_trace _ _ _ _ B) as (t0 & Ht0 & _).
  assert (M : forall sc par d x, moved h0 h2 sc par b d x -> moved h h' sc par b d x).
  { intros sc par d x (t & Ht & Hin). exists (t ++ t0). rewrite HT, Ht, Ht0, app_assoc. split; [reflexivity|]. apply in_or_app. auto. }
  assert (G : 0 <= change (accounts h0) b) by (rewrite (begins_change _ _ _ _ b B); case_bool_decide; lia).
  destruct (eff_moves O _ _ _ _ O1 O2 He (bg_wf _ _ _ _ B)) as (t & Ht & Hp).
  destruct (List.Forall_Exists_dec (not_from b) (from_dec b) t) as [Hn|Hx].
  2:{ apply List.Exists_exists in Hx as (e & Hin & Hnot). destruct e as [| |sc par s d x| |]; try (destruct Hnot; exact I).
      cbn in Hnot. destruct (decide (s = b)) as [->|Hs]; [|destruct Hnot; tauto]. destruct (Z.eq_dec x 0) as [->|Hx]; [destruct Hnot; auto|].
      rewrite List.Forall_forall in Hp. specialize (Hp _ Hin). cbn in Hp. exists sc, par, d, x. split; [apply M; exists t; auto|]. split; [exact Hx|].
      destruct Hp as [Hp|[Hp|Hp]]; [contradiction|auto|auto]. }
  exfalso. rewrite Ho in Hlt.
  assert (0 <= change (accounts h2) b); [|lia].
  exact (lower_bound O _ _ _ _ b 0 Hb He (bg_wf _ _ _ _ B) (or_introl (Z.le_refl 0)) (ex_intro _ t (conj Ht Hn)) G).
Qed.
End tx2.

(** contracts that do not call in the name of their callers *)
Definition own_opts : opts := mkOpts false true false false.
Global Instance own_lax : lax own_opts := eq_refl.
Lemma own_cmd `{E : env} c : ~ is_bycaller c -> cmd_ok own_opts (api c).
Proof.
  intros Hc. apply (kinds_cmd_ok own_opts (api_kind c)); [|auto|apply api_kinds].
  destruct c; cbn; try discriminate. intros _. destruct Hc. exact I.
Qed.
Section own.
Context `{E : env}.
Lemma own_run n p h h' r : host_ok h -> nobody_calls is_bycaller h -> never_calls is_bycaller p ->
  vmRun n p h = (h', r) -> r <> OFuel -> eff own_opts false h h' (pan r).
Proof.
  intros [Hs Hw] Hn Hp H Hr.
  exact (walk_vmRun own_opts (never_codes own_opts _ h own_cmd Hn) n false p (never_prog_ok own_opts _ _ own_cmd Hp) h h' r (never_good own_opts _ h own_cmd Hn Hs) H Hr).
Qed.
Lemma own_moves n p h h' r sc par s d v : host_ok h -> nobody_calls is_bycaller h -> never_calls is_bycaller p ->
  vmRun n p h = (h', r) -> r <> OFuel -> moved h h' sc par s d v -> own_money sc par s d v.
Proof.
  intros Hok Hn Hp H Hr (t & Ht & Hin). pose proof (own_run n p h h' r Hok Hn Hp H Hr) as He.
  destruct (eff_moves own_opts _ _ _ _ eq_refl eq_refl He (proj2 Hok)) as (t' & Ht' & Hf).
  assert (t' = t) as -> by (rewrite Ht in Ht'; apply app_inv_tail in Ht'; auto). rewrite List.Forall_forall in Hf. exact (Hf _ Hin).
Qed.
Lemma own_debit n p h h' r a : host_ok h -> nobody_calls is_bycaller h -> never_calls is_bycaller p ->
  vmRun n p h = (h', r) -> r <> OFuel -> builtins_take_nothing a -> change (o_accounts (h_out h)) a <= 0 \/ ~ fresh_address a ->
  change (o_accounts (h_out h')) a < change (o_accounts (h_out h)) a ->
  exists sc par d v, moved h h' sc par a d v /\ v <> 0 /\ (sc = a \/ (d = sc /\ par = Some a)).
Proof.
  intros Hok Hn Hp H Hr. pose proof (own_run n p h h' r Hok Hn Hp H Hr) as He. intros.
  eapply (debit_eff own_opts); eauto. exact (proj2 Hok).
Qed.
Lemma own_call n i h h' o : h_stoprot h = true -> no_stacks h -> nobody_calls is_bycaller h ->
  RunSmartContractCall n i h = (h', OOk o) -> ends own_opts h h' o (ci_rcpt i) (vi_value (ci_vm i)).
Proof.
  intros Hs N Hn H. exact (call_ends own_opts (never_codes own_opts _ h own_cmd Hn) n i h h' o (never_good own_opts _ h own_cmd Hn Hs) N H).
Qed.
Lemma own_create n i h h' o : h_stoprot h = true -> no_stacks h -> nobody_calls is_bycaller h ->
  RunSmartContractCreate n i h = (h', OOk o) -> error_output o \/ exists a, ends own_opts h h' o a (vi_value (cc_vm i)).
Proof.
  intros Hs N Hn H. exact (create_ends own_opts (never_codes own_opts _ h own_cmd Hn) n i h h' o (never_good own_opts _ h own_cmd Hn Hs) N H).
Qed.
Lemma ends_own h h' o a v sc par s d x : ends own_opts h h' o a v -> moved h h' sc par s d x -> own_money sc par s d x.
Proof.
  intros (h0 & h2 & B & He & HW & HT & _) (t & Ht & Hin). destruct (bg_trace _ _ _ _ B) as (t0 & Ht0 & F0 & _).
  destruct (eff_moves own_opts _ _ _ _ eq_refl eq_refl He (bg_wf _ _ _ _ B)) as (t2 & Ht2 & F2).
  rewrite HT, Ht2, Ht0, app_assoc in Ht. apply app_inv_tail in Ht. subst t.
  apply in_app_or in Hin as [Hin|Hin]; [rewrite List.Forall_forall in F2; exact (F2 _ Hin)|rewrite List.Forall_forall in F0; exact (F0 _ Hin)].
Qed.

Lemma run_total n p h h' r : host_ok h -> vmRun n p h = (h', r) -> r <> OFuel -> builtins_conserve -> no_funds_deleted h h' ->
  total_change (o_accounts (h_out h')) = total_change (o_accounts (h_out h)).
Proof.
  intros [Hs Hw] H Hr Hb (t & Ht & Hz). apply (eff_total any_opts _ _ _ _ (any_run n p h h' r Hs H Hr) Hw Hb).
  exists t. split; [exact Ht|]. intros a ds Hin d. exact (Hz a ds d Hin).
Qed.
Lemma api_total n c h h' r : host_ok h -> vmApi n c h = (h', r) -> r <> OFuel -> builtins_conserve -> no_funds_deleted h h' ->
  total_change (o_accounts (h_out h')) = total_change (o_accounts (h_out h)).
Proof.
  intros [Hs Hw] H Hr Hb (t & Ht & Hz). apply (eff_total any_opts _ _ _ _ (any_api n c h h' r Hs H Hr) Hw Hb).
  exists t. split; [exact Ht|]. intros a ds Hin d. exact (Hz a ds d Hin).
Qed.
Lemma run_covered n p h h' r a : host_ok h -> vmRun n p h = (h', r) -> r <> OFuel -> builtins_take_nothing a -> covered h a -> covered h' a.
Proof.
  intros [Hs Hw] H Hr Hb Hc. destruct (covered_eff any_opts a (h_world h) _ _ _ _ Hb (any_run n p h h' r Hs H Hr) Hw eq_refl Hc) as [C1 C2].
  unfold same_acc in C1. unfold covered, node_balance. rewrite C1. exact C2.
Qed.

Lemma api_moved n c h h' r a : host_ok h -> vmApi n c h = (h', r) -> r <> OFuel -> builtins_pay_nothing a ->
  change (o_accounts (h_out h)) a = 0 \/ ~ fresh_address a ->
  change (o_accounts (h_out h')) a <> change (o_accounts (h_out h)) a ->
  exists sc par s d v, moved h h' sc par s d v /\ v <> 0 /\ (s = a \/ d = a).
Proof. intros [Hs Hw] H Hr Hb Hf Hne. exact (moved_eff any_opts _ _ _ _ a Hb (any_api n c h h' r Hs H Hr) Hw Hf Hne). Qed.
(** a transfer goes through only when it is covered *)
Lemma transfer_enough dest sender v cp h h' : covered h sender -> TransferValueOnly dest sender v cp h = (h', OOk tt) ->
  0 <= v /\ (v = 0 \/ v <= node_balance (h_world h) sender + change (o_accounts (h_out h)) sender).
Proof.
  intros Hc H. unfold TransferValueOnly in H. destruct (Z.ltb_spec v 0) as [Hv|Hv]; [discriminate|]. split; [exact Hv|].
  cbn [fail_if] in H. rewrite bind_ret in H. unfold hasSufficientBalance in H. rewrite bind_assoc in H.
  unfold bind at 1 in H. destruct (GetBalanceBigInt sender h) as [h1 [b| | |]] eqn:Hb; try discriminate.
  rewrite bind_ret in H. destruct (Z.leb_spec v b) as [Hle|]; [|discriminate]. clear H.
  assert (Hb2 : b = 0 \/ b = node_balance (h_world h) sender + change (o_accounts (h_out h)) sender); [|lia].
  unfold GetBalanceBigInt in Hb. unfold bind at 1, GetOutputAccount in Hb. unfold covered in Hc. unfold change, accounts in *.
  destruct (o_accounts (h_out h) !! sender) as [x|] eqn:Hx; rewrite bind_gets in Hb; cbn [negb] in Hb.
  - destruct (Hc x eq_refl) as [C1 _]. destruct (oa_balance x) as [b0|] eqn:Hb0; [injection Hb as _ <-; right; rewrite <-(C1 b0 eq_refl); reflexivity|].
    unfold node_balance. destruct (w_accounts (h_world h) !! sender) as [u|]; [|injection Hb as _ <-; left; reflexivity]. injection Hb as _ <-. right. reflexivity.
  - unfold node_balance. change (h_world (set_accounts _ h)) with (h_world h) in Hb.
    destruct (w_accounts (h_world h) !! sender) as [u|]; [|injection Hb as _ <-; left; reflexivity]. injection Hb as _ <-. right. cbn. lia.
Qed.
Lemma transfer_negative dest sender v cp h : v < 0 -> TransferValueOnly dest sender v cp h = (h, OErr ErrTransferNegativeValue).
Proof. intros Hv. unfold TransferValueOnly. destruct (Z.ltb_spec v 0); [reflexivity|lia]. Qed.
End own.
