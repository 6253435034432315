(** Storage cells over whole executions. *)
From Verif Require Import VmModel StoSpec InvSpec StoProofs WpProofs EffProofs EffFrameProofs EffWalkProofs EffTopProofs CallSpec KeepProofs CallProofs InvProofs KindProofs TxProofs.

Section cells.
Context `{E : env}.

Lemma not_writable k : protected_key k -> writable_key k -> False.
Proof.
  intros [Hr|[Hv Hs]] [W1 W2].
  - apply reserved_spec in Hr. congruence.
  - destruct W2 as [W2|[k' [->| ->]]].
    + apply (proj2 (has_prefix_spec ProtectedStoragePrefix k)) in Hv. unfold isArwenProtectedKey in W2. congruence.
    + exact (proj1 (Hs k') eq_refl).
    + exact (proj2 (Hs k') eq_refl).
Qed.
Lemma all_events l h h' b O : eff O l h h' b -> wf h -> new_events h h' (fun _ => True).
Proof.
  intros He Hw. destruct (k_trace _ _ _ _ _ (eff_kept O _ _ _ _ He Hw)) as [t Ht]. exists t. split; [exact Ht|].
  apply Forall_forall. auto.
Qed.

(** protected keys, anywhere *)
Lemma protected_eff l h h' b a k : eff any_opts l h h' b -> wf h -> protected_key k -> builtins_leave a k ->
  cell h a k = node_value (h_world h) a k \/ ~ fresh_address a ->
  cell h' a k = cell h a k /\ node_value (h_world h') a k = node_value (h_world h) a k.
Proof.
  intros He Hw Hk Hb Hf. apply (eff_cell any_opts (fun _ _ => True) (fun _ => True) a k) with (l := l) (b := b); auto.
  - intros _. apply not_writable, Hk.
  - destruct Hf; auto.
  - exact (all_events _ _ _ _ _ He Hw).
Qed.
(** other accounts' keys *)
Lemma foreign_eff l h h' b a k : eff any_opts l h h' b -> wf h -> h_stoaddr h <> a -> builtins_leave a k ->
  cell h a k = node_value (h_world h) a k \/ ~ fresh_address a ->
  new_events h h' (fun e => e <> EvOwner a) ->
  cell h' a k = cell h a k /\ node_value (h_world h') a k = node_value (h_world h) a k.
Proof.
  intros He Hw Hs Hb Hf Hn. apply (eff_cell any_opts (fun s _ => s <> a) (fun e => e <> EvOwner a) a k) with (l := l) (b := b); auto.
  - intros s r a' _ Hne ->. apply Hne. reflexivity.
  - destruct Hf; auto.
Qed.
(** read-only *)
Lemma readonly_eff l h h' b a k : eff any_opts l h h' b -> wf h -> r_ro (h_rt h) = true -> new_events h h' not_ro -> builtins_leave a k ->
  cell h' a k = cell h a k /\ node_value (h_world h') a k = node_value (h_world h) a k.
Proof.
  intros He Hw Hs Hn Hb. apply (eff_cell any_opts (fun _ r => r = true) not_ro a k) with (l := l) (b := b); auto.
  - discriminate.
  - right; right. discriminate.
Qed.

(** * Transactions *)
Lemma event_dec (e f : event) : {e = f} + {e <> f}.
Proof.
  decide equality; first [apply (decide (_ = _))|apply Z.eq_dec].
Qed.
Lemma trace_split h h' a : (exists t, h_trace h' = t ++ h_trace h) ->
  new_events h h' (fun e => e <> EvOwner a) \/ exists t, h_trace h' = t ++ h_trace h /\ In (EvOwner a) t.
Proof.
  intros [t Ht]. destruct (in_dec event_dec (EvOwner a) t) as [Hin|Hin]; [right; eauto|left].
  exists t. split; [exact Ht|]. apply Forall_forall. intros e He ->. apply Hin. apply elem_of_list_In, He.
Qed.

Lemma start_cell f m b v h a k : cell (start f m b v h) a k = cell h a k.
Proof.
  rewrite !cell_entry. change (h_world (start f m b v h)) with (h_world h). f_equal.
  change (accounts (start f m b v h)) with (accounts (addTx b v h)). unfold addTx.
  change (accounts (set_accounts ?m ?h)) with m. unfold entry.
  destruct (decide (b = a)) as [->|Hne]; [rewrite lookup_insert|rewrite lookup_insert_ne by exact Hne; reflexivity].
  destruct (accounts h !! a); [reflexivity|]. cbn. apply lookup_empty.
Qed.
Lemma init0_parts h : h_world (init0 h) = h_world h /\ accounts (init0 h) = ∅ /\ h_trace (init0 h) = h_trace h /\
  h_insts (init0 h) = h_insts h /\ h_rt (init0 h) = frame0 /\ h_bcst (init0 h) = h_bcst h.
Proof. Transparent init0. repeat split. Opaque init0. Qed.
Lemma init0_cell h a k : cell (init0 h) a k = node_value (h_world h) a k.
Proof. rewrite cell_entry. destruct (init0_parts h) as (-> & -> & _). reflexivity. Qed.
Lemma clean_fields h : h_world (clean h) = h_world h /\ h_trace (clean h) = h_trace h.
Proof. unfold clean, CleanWasmerInstance. destruct (h_cur h); split; reflexivity. Qed.
Lemma out_cell w o h a k : o = h_out h \/ error_output o ->
  cell h a k = node_value w a k -> node_value (h_world h) a k = node_value w a k -> output_value w o a k = node_value w a k.
Proof.
  intros [->|(e & msg & ->)] Hc Hw; [|reflexivity]. unfold cell in Hc. rewrite Hw in Hc. exact Hc.
Qed.

Lemma call_cells n i h h' o a k (Hs : h_stoprot h = true) (N : no_stacks h) :
  RunSmartContractCall n i h = (h', OOk o) -> protected_key k -> builtins_leave a k ->
  output_value (h_world h) o a k = node_value (h_world h) a k /\ node_value (h_world h') a k = node_value (h_world h) a k.
Proof.
  intros H Hk Hb. destruct (call_top any_opts any_codes n i h h' (OOk o) (any_good h Hs) H ltac:(discriminate)) as (h2 & He & Hh').
  destruct (init0_ok h) as (_ & _ & _ & _ & _ & _ & _ & I7 & _). rewrite (ns_running _ N) in I7.
  destruct (init0_parts h) as (IW & _). pose proof (init0_cell h a k) as IC. revert He IW I7 IC. generalize (init0 h). intros h0 He IW I7 IC.
  destruct (protected_eff _ _ _ _ a k He) as [C1 C2]; try assumption.
  - intros j. change (h_cur h0 = Some j -> (j < h_next h0)%nat). rewrite I7. discriminate.
  - left. rewrite start_cell, IC. change (h_world (start _ _ _ _ h0)) with (h_world h0). rewrite IW. reflexivity.
  - rewrite start_cell, IC in C1. change (h_world (start _ _ _ _ h0)) with (h_world h0) in C2. rewrite IW in C2.
    destruct (clean_fields h2) as [W2 _]. rewrite <-Hh' in W2. split; [|rewrite W2; exact C2].
    apply (out_cell _ o h'); [exact (call_out n i h h' o H)| |rewrite W2; exact C2].
    unfold cell. rewrite W2, Hh', clean_out. exact C1.
Qed.
Lemma create_cells n i h h' o a k (Hs : h_stoprot h = true) (N : no_stacks h) :
  RunSmartContractCreate n i h = (h', OOk o) -> protected_key k -> builtins_leave a k ->
  output_value (h_world h) o a k = node_value (h_world h) a k /\ node_value (h_world h') a k = node_value (h_world h) a k.
Proof.
  intros H Hk Hb. destruct (create_top any_opts any_codes n i h h' (OOk o) (any_good h Hs) H ltac:(discriminate)) as (h1 & b1 & He1 & Hc).
  destruct (init0_ok h) as (I0 & _ & _ & _ & _ & _ & _ & I7 & _). rewrite (ns_running _ N) in I7.
  destruct (init0_parts h) as (IW & _). pose proof (init0_cell h a k) as IC. revert He1 IW I7 IC I0. generalize (init0 h). intros h0 He1 IW I7 IC I0.
  assert (Hw0 : wf h0) by (intros j; rewrite I7; discriminate).
  destruct (protected_eff _ _ _ _ a k He1 Hw0 Hk Hb) as [C1 C2]; [left; rewrite IC, IW; reflexivity|]. rewrite IC in C1. rewrite IW in C2.
  assert (Hfin : exists h2, h' = clean h2 /\ cell h2 a k = node_value (h_world h) a k /\ node_value (h_world h2) a k = node_value (h_world h) a k).
  { destruct Hc as [[-> _]|(b & h2 & -> & He2 & -> & _)]; [eauto|]. exists h2. split; [reflexivity|].
    destruct (eff_host_ok _ _ _ _ (conj (eq_trans I0 Hs) Hw0) He1) as [_ Hw1].
    destruct (protected_eff _ _ _ _ a k He2 Hw1 Hk Hb) as [D1 D2].
    - left. rewrite start_cell, C1. symmetry. exact C2.
    - rewrite start_cell, C1 in D1. split; [exact D1|]. rewrite D2. exact C2. }
  destruct Hfin as (h2 & Hh' & F1 & F2). destruct (clean_fields h2) as [W2 _]. rewrite <-Hh' in W2. split; [|rewrite W2; exact F2].
  apply (out_cell _ o h'); [exact (create_out n i h h' o H)| |rewrite W2; exact F2].
  unfold cell. rewrite W2, Hh', clean_out. exact F1.
Qed.

(** storage is changed only after it was made the storage in use *)
Lemma call_owner n i h h' o a k (Hs : h_stoprot h = true) (N : no_stacks h) :
  RunSmartContractCall n i h = (h', OOk o) -> builtins_leave a k ->
  output_value (h_world h) o a k <> node_value (h_world h) a k -> entered_storage a h h'.
Proof.
  intros H Hb Hv. destruct (call_top any_opts any_codes n i h h' (OOk o) (any_good h Hs) H ltac:(discriminate)) as (h2 & He & Hh').
  destruct (init0_ok h) as (_ & _ & _ & _ & _ & _ & _ & I7 & _). rewrite (ns_running _ N) in I7.
  destruct (init0_parts h) as (IW & _ & IT & _). pose proof (init0_cell h a k) as IC. revert He IW I7 IC IT. generalize (init0 h). intros h0 He IW I7 IC IT.
  assert (Hw : wf (start (call_frame i) (met0 (ci_vm i)) (ci_rcpt i) (vi_value (ci_vm i)) h0)).
  { intros j. change (h_cur h0 = Some j -> (j < h_next h0)%nat). rewrite I7. discriminate. }
  destruct (k_trace _ _ _ _ _ (eff_kept any_opts _ _ _ _ He Hw)) as [t Ht].
  change (h_trace (start _ _ _ _ h0)) with ([EvOwner (ci_rcpt i)] ++ h_trace h0) in Ht.
  destruct (clean_fields h2) as [W2 T2]. rewrite <-Hh' in W2, T2. unfold entered_storage. rewrite T2, Ht, IT, app_assoc.
  eexists. split; [reflexivity|].
  destruct (in_dec event_dec (EvOwner a) (t ++ [EvOwner (ci_rcpt i)])) as [Hin|Hin]; [exact Hin|]. exfalso.
  destruct (foreign_eff _ _ _ _ a k He Hw) as [C1 C2]; try assumption.
  - intros Heq. apply Hin. apply in_or_app. right. left. f_equal. exact Heq.
  - left. rewrite start_cell, IC. change (h_world (start _ _ _ _ h0)) with (h_world h0). rewrite IW. reflexivity.
  - exists t. split; [rewrite Ht; reflexivity|]. apply Forall_forall. intros e Hel ->. apply Hin, in_or_app. left. apply elem_of_list_In, Hel.
  - apply Hv. rewrite start_cell, IC in C1. change (h_world (start _ _ _ _ h0)) with (h_world h0) in C2. rewrite IW in C2.
    apply (out_cell _ o h'); [exact (call_out n i h h' o H)| |rewrite W2; exact C2].
    unfold cell. rewrite W2, Hh', clean_out. exact C1.
Qed.
Lemma GetOutputAccount_cell b h h' r a k : GetOutputAccount b h = (h', r) -> entry (accounts h') a k = entry (accounts h) a k.
Proof.
  unfold GetOutputAccount. destruct (accounts h !! b) eqn:Hb; intros [= <- _]; [reflexivity|].
  change (accounts (set_accounts ?m h)) with m. unfold entry. destruct (decide (b = a)) as [->|Hne].
  - rewrite lookup_insert, Hb. cbn. apply lookup_empty.
  - rewrite lookup_insert_ne by exact Hne. reflexivity.
Qed.
Lemma NewAddress_cell b h h' r a k : NewAddress b h = (h', r) ->
  cell h' a k = cell h a k /\ h_world h' = h_world h /\ h_trace h' = h_trace h.
Proof.
  intros H. assert (Hg : entry (accounts h') a k = entry (accounts h) a k /\ h_world h' = h_world h /\ h_trace h' = h_trace h).
  { unfold NewAddress in H. unfold bind at 1 in H. destruct (GetNonce b h) as [h1 on] eqn:Hn.
    assert (G : entry (accounts h1) a k = entry (accounts h) a k /\ h_world h1 = h_world h /\ h_trace h1 = h_trace h).
    { clear H. unfold GetNonce in Hn. unfold bind at 1 in Hn. destruct (GetOutputAccount b h) as [h2 o2] eqn:Hoa.
      pose proof (GetOutputAccount_cell _ _ _ _ a k Hoa) as Hc.
      assert (Hf : h_world h2 = h_world h /\ h_trace h2 = h_trace h).
      { unfold GetOutputAccount in Hoa. destruct (accounts h !! b); injection Hoa as <- _; auto. }
      destruct o2 as [[x nw]| | |]; try (injection Hn as <- _; auto).
      destruct (negb _); [injection Hn as <- _; auto|]. rewrite bind_gets in Hn.
      unfold bind at 1 in Hn. destruct (GetUserAccount (h_world h2) b) as [[u|] | |]; cbn [lift] in Hn; try (injection Hn as <- _; auto).
      rewrite <-Hc. destruct Hf as [<- <-]. repeat split. change (accounts (set_accounts ?m h2)) with m.
      unfold entry. destruct (decide (b = a)) as [->|]; [rewrite lookup_alter|rewrite lookup_alter_ne by assumption; reflexivity].
      destruct (accounts h2 !! a); reflexivity. }
    destruct on; try (injection H as <- _; exact G). cbv zeta in H.
    destruct (e_newAddress _ _ _); injection H as <- _; exact G. }
  destruct Hg as (G1 & G2 & G3). rewrite !cell_entry, G1, G2. auto.
Qed.
Lemma error_out e h h' o : CreateVMOutputInCaseOfError e h = (h', OOk o) -> error_output o.
Proof.
  unfold CreateVMOutputInCaseOfError. rewrite bind_gets. cbv zeta. unfold bind. destruct (UpdateGasStateOnFailure h) as [h1 [| | |]];
    intros [= _ <-]; eexists _, _; reflexivity.
Qed.
Lemma create_owner n i h h' o a k (Hs : h_stoprot h = true) (N : no_stacks h) :
  RunSmartContractCreate n i h = (h', OOk o) -> builtins_leave a k ->
  output_value (h_world h) o a k <> node_value (h_world h) a k -> entered_storage a h h'.
Proof.
  intros H Hb Hv. destruct (create_top any_opts any_codes n i h h' (OOk o) (any_good h Hs) H ltac:(discriminate)) as (h1 & b1 & He1 & Hc).
  destruct Hc as [(_ & _ & Herr)|(b & h2 & -> & He2 & Hh' & Hna)].
  { destruct (Herr o eq_refl) as (e & h4 & h5 & He). apply error_out in He. destruct He as (e' & msg & ->). destruct Hv. reflexivity. }
  destruct (init0_ok h) as (I0 & _ & _ & _ & _ & _ & _ & I7 & _). rewrite (ns_running _ N) in I7.
  destruct (init0_parts h) as (IW & _ & IT & _). pose proof (init0_cell h a k) as IC.
  revert He1 Hna IW I7 IC I0 IT. generalize (init0 h). intros h0 He1 Hna IW I7 IC I0 IT.
  assert (Hw0 : wf h0) by (intros j; rewrite I7; discriminate).
  destruct (eff_host_ok _ _ _ _ (conj (eq_trans I0 Hs) Hw0) He1) as [_ Hw1].
  destruct (NewAddress_cell _ _ _ _ a k Hna) as (F1 & F2 & F3). rewrite IC in F1. rewrite IW in F2. rewrite IT in F3.
  change (wf (start (create_frame i b) (met0 (cc_vm i)) b (vi_value (cc_vm i)) h1)) in Hw1.
  destruct (k_trace _ _ _ _ _ (eff_kept any_opts _ _ _ _ He2 Hw1)) as [t Ht].
  change (h_trace (start _ _ _ _ h1)) with ([EvOwner b] ++ h_trace h1) in Ht.
  destruct (clean_fields h2) as [W2 T2]. rewrite <-Hh' in W2, T2. unfold entered_storage. rewrite T2, Ht, F3, app_assoc.
  eexists. split; [reflexivity|].
  destruct (in_dec event_dec (EvOwner a) (t ++ [EvOwner b])) as [Hin|Hin]; [exact Hin|]. exfalso.
  destruct (foreign_eff _ _ _ _ a k He2 Hw1) as [C1 C2]; try assumption.
  - intros Heq. apply Hin. apply in_or_app. right. left. f_equal. exact Heq.
  - left. rewrite start_cell, F1. change (h_world (start _ _ _ _ h1)) with (h_world h1). rewrite F2. reflexivity.
  - exists t. split; [rewrite Ht; reflexivity|]. apply Forall_forall. intros e Hel ->. apply Hin, in_or_app. left. apply elem_of_list_In, Hel.
  - apply Hv. rewrite start_cell, F1 in C1. change (h_world (start _ _ _ _ h1)) with (h_world h1) in C2. rewrite F2 in C2.
    apply (out_cell _ o h'); [exact (create_out n i h h' o H)| |rewrite W2; exact C2].
    unfold cell. rewrite W2, Hh', clean_out. exact C1.
Qed.

(** * executeReadOnly *)
Lemma marks_app t t' : readonly_marks (t ++ t') = (readonly_marks t + readonly_marks t')%nat.
Proof. unfold readonly_marks. rewrite List.filter_app, app_length. reflexivity. Qed.
Lemma marks_zero t : readonly_marks t = 0%nat -> Forall not_ro t.
Proof.
  induction t as [|e t IH]; [constructor|]. intros H. change (e :: t) with ([e] ++ t) in H. rewrite marks_app in H.
  constructor; [|apply IH; lia]. destruct e; cbn in H |- *; auto. lia.
Qed.
Lemma no_ro_call h h' : no_readonly_call h h' -> new_events h h' not_ro.
Proof. intros (t & Ht & Hm). exists t. split; [exact Ht|apply marks_zero, Hm]. Qed.

Lemma plain_keeps {B} ed es (p : prim B) : prim_kind p = KPlain -> keeps (fun h => (h_world h, accounts h, h_trace h)) (interp ed es p).
Proof.
  destruct p; cbn [prim_kind]; intros Hk; try discriminate; cbn [interp]; try (destruct byCaller; discriminate);
    unfold accounts; kp.
Qed.

Definition ro_kind (k : kind) : bool := match k with KPlain | KReadOnly => true | _ => false end.
Lemma ro_prim n {B} (p : prim B) h h' r a k : ro_kind (prim_kind p) = true -> host_ok h -> builtins_leave a k ->
  interp (vmDest n) (vmSame n) p h = (h', r) -> r <> OFuel -> r <> OPanic -> one_readonly_call h h' ->
  cell h' a k = cell h a k.
Proof.
  intros Hk [Hs Hw] Hb H Hr Hp (t & Ht & Hm). destruct (prim_kind p) eqn:Hpk; try discriminate.
  { pose proof (plain_keeps _ _ p Hpk h h' r H) as Hf. cbn in Hf. injection Hf as F1 F2 _. rewrite !cell_entry, F1, F2. reflexivity. }
  destruct p; try discriminate. { destruct byCaller; discriminate. }
  cbn [interp] in H. rewrite bind_gets in H. unfold SetReadOnly in H. rewrite bind_modify in H.
  set (h1 := set_h_trace _ _) in H. unfold bind at 1, try in H. destruct (vmSame n _ h1) as [h2 o] eqn:Hx.
  assert (Ho : o <> OFuel) by (intros ->; injection H as <- <-; congruence).
  assert (Ho' : o <> OPanic) by (intros ->; injection H as <- <-; congruence).
  pose proof (any_same n _ h1 h2 o Hs Hx Ho) as He.
  destruct (k_trace _ _ _ _ _ (eff_kept any_opts _ _ _ _ He Hw)) as [t' Ht'].
  assert (Hh' : h' = set_h_trace (EvReadOnly false :: h_trace h2) (set_h_rt (set_r_ro false (h_rt h2)) h2)).
  { destruct o; try contradiction; rewrite bind_modify in H; injection H as <- _; reflexivity. }
  assert (t = [EvReadOnly false] ++ t' ++ [EvReadOnly true]) as ->.
  { apply (app_inv_tail (h_trace h)). rewrite <-Ht, Hh', <-!app_assoc. cbn [h_trace set_h_trace set_h_rt].
    rewrite Ht'. reflexivity. }
  rewrite !marks_app in Hm. change (readonly_marks [EvReadOnly false]) with 1%nat in Hm. change (readonly_marks [EvReadOnly true]) with 1%nat in Hm.
  destruct (readonly_eff _ _ _ _ a k He Hw) as [C _]; [reflexivity| |exact Hb|].
  { exists t'. split; [exact Ht'|]. apply marks_zero. lia. }
  rewrite Hh'. exact C.
Qed.
Lemma ro_cmd n c a k : cmd_all ro_kind c -> builtins_leave a k -> forall h h' r, host_ok h ->
  run_cmd (vmDest n) (vmSame n) c h = (h', r) -> r <> OFuel -> r <> OPanic -> one_readonly_call h h' ->
  cell h' a k = cell h a k.
Proof.
  intros Hc Hb. induction c as [x| |B p kk IH]; cbn [run_cmd].
  - intros h h' r _ [= <- <-] _ _ _. reflexivity.
  - intros h h' r _ [= <- <-] _ Hp. congruence.
  - intros h h' r Hok H Hr Hp (t & Ht & Hm). destruct Hc as [Hp1 Hk]. unfold bind, try in H.
    destruct (interp _ _ p h) as [h1 o] eqn:Hi.
    assert (Ho : o <> OFuel) by (intros ->; injection H as <- <-; congruence).
    assert (Ho' : o <> OPanic) by (intros ->; injection H as <- <-; congruence).
    destruct (walk_vm any_opts any_codes n) as [Wd Ws].
    assert (He : eff any_opts false h h1 (pan o)).
    { refine (walk_interp any_opts any_codes _ _ Wd Ws false p _ h h1 o (any_good h (proj1 Hok)) Hi Ho). destruct p; cbn; auto. }
    pose proof (eff_host_ok _ _ _ _ Hok He) as Hok1.
    assert (Hrest : exists x, run_cmd (vmDest n) (vmSame n) (kk x) h1 = (h', r)) by (destruct o; try contradiction; eauto).
    destruct Hrest as [x Hx].
    destruct (k_trace _ _ _ _ _ (eff_kept any_opts _ _ _ _ He (proj2 Hok))) as [t1 Ht1].
    assert (He2 : eff any_opts false h1 h' (pan r)).
    { refine (walk_run_cmd any_opts any_codes _ _ Wd Ws false (kk x) (any_cmd _) h1 h' r (any_good h1 (proj1 Hok1)) Hx Hr). }
    destruct (k_trace _ _ _ _ _ (eff_kept any_opts _ _ _ _ He2 (proj2 Hok1))) as [t2 Ht2].
    assert (t = t2 ++ t1) as ->. { apply (app_inv_tail (h_trace h)). rewrite <-Ht, Ht2, Ht1, app_assoc. reflexivity. }
    rewrite marks_app in Hm. rewrite (IH x (Hk x) h1 h' r Hok1 Hx Hr Hp).
    + apply (ro_prim n p h h1 o a k Hp1 Hok Hb Hi Ho Ho'). exists t1. split; [exact Ht1|lia].
    + exists t2. split; [exact Ht2|lia].
Qed.
Lemma cmd_all_impl (P Q : kind -> bool) c : (forall k, P k = true -> Q k = true) -> cmd_all P c -> cmd_all Q c.
Proof. intros H. induction c as [| |B p k IH]; cbn; auto. intros [H1 H2]. auto. Qed.
Lemma ro_api n x1 x2 x3 x4 x5 x6 x7 h h' r a k : host_ok h -> builtins_leave a k ->
  vmApi n (A_executeReadOnly x1 x2 x3 x4 x5 x6 x7) h = (h', r) -> r <> OFuel -> r <> OPanic -> one_readonly_call h h' ->
  cell h' a k = cell h a k.
Proof.
  intros Hok Hb H. apply (ro_cmd n (api (A_executeReadOnly x1 x2 x3 x4 x5 x6 x7)) a k); try assumption.
  eapply cmd_all_impl; [|apply api_kinds]. intros []; cbn; auto.
Qed.
End cells.
