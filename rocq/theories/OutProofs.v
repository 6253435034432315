(** Lemmas about outputs after nested calls. *)
From Verif Require Import VmModel WpProofs EffProofs EffFrameProofs EffWalkProofs EffTopProofs CallSpec KeepProofs CallProofs OutSpec InvSpec InvProofs.
From Coq Require Import ZifyBool.

Lemma code_left (c : bytes) : (if 0 <? blen c then c else []) = c.
Proof. destruct c; reflexivity. Qed.
Lemma code_later (c d : bytes) : (if 0 <? blen c then c else d) = match c with [] => d | _ => c end.
Proof. destruct c; [reflexivity|]. unfold blen. destruct (Z.ltb_spec 0 (Z.of_nat (length (b :: c)))); [reflexivity|cbn in *; lia]. Qed.
Lemma copy_same x : same_account x (mergeOutputAccounts NewVMOutputAccount x).
Proof.
  constructor; cbn [mergeOutputAccounts oa_nonce oa_balance oa_delta oa_storage oa_code oa_meta oa_deployer oa_transfers oa_gasused NewVMOutputAccount].
  - destruct (Z.ltb_spec 0 (oa_nonce x)); lia.
  - destruct (oa_balance x); reflexivity.
  - reflexivity.
  - rewrite (right_id_L ∅ (∪)). reflexivity.
  - apply code_left.
  - apply code_left.
  - destruct (oa_deployer x); reflexivity.
  - destruct (oa_transfers x); reflexivity.
  - reflexivity.
Qed.

Lemma copy_output o : same_output o (mergeVMOutputs newVMOutput o).
Proof.
  constructor; try reflexivity. intros a. unfold mergeVMOutputs. cbn [o_accounts newVMOutput].
  change (merge mergeAccount ∅ (o_accounts o)) with (copied (o_accounts o)). rewrite copied_lookup.
  destruct (o_accounts o !! a) as [x|]; cbn; [apply copy_same|exact I].
Qed.

Section out.
Context `{E : env}.

(** ** C25 *)
Lemma nb_failed n i h h' o info e : h_stoprot h = true -> wf h ->
  executeOnDestContextNoBuiltinFunction (vmRun n) (vmDest n) i h = (h', OOk (o, info, Some e)) ->
  same_output (h_out h) (h_out h') /\ h_met h' = h_met h /\ h_bcst h' = h_bcst h.
Proof.
  intros Hs Hw H. destruct (nb_shape n i h h' _ Hs H ltac:(discriminate)) as (hb & bo & h1 & o1 & _ & Ho & Hc & _ & He & ro & Hro & Hr).
  destruct Hr as [(-> & x & Hx & Hxe)|(Hr & _)]; [|discriminate Hr]. injection Hxe as <-.
  destruct (RestoreGas_regas _ _ _ _ Hro) as [Hg _]. destruct (regas_same _ _ Hg) as (_ & _ & A3 & _ & A5 & A6 & _).
  destruct (destPop_kept (bool_decide (o_code o1 = RcOk)) i h h1 _ Hw He) as (_ & _ & _ & _ & B5 & B6 & _ & B8 & B9).
  assert (Hcode : bool_decide (o_code o1 = RcOk) = false).
  { apply bool_decide_eq_false. destruct bo as [[inf er]|er| |]; cbn [body_err dest_result] in *; try discriminate Hx.
    - destruct er as [er|]; [cbn [compute_output] in Hc; exact (CreateErr_code _ _ _ _ Hc)|].
      destruct (bool_decide (o_code o1 = RcOk)) eqn:Hd; [discriminate Hx|exact (bool_decide_eq_false_1 _ Hd)].
    - exact (CreateErr_code _ _ _ _ Hc). }
  rewrite Hcode in A3, A5, A6, B5, B6, B8, B9. split; [rewrite A3, B5; apply copy_output|]. split; [congruence|].
  assert (Hp : pan bo = false) by (destruct bo; [reflexivity|reflexivity|discriminate Hx|reflexivity]).
  rewrite Hp in B9. pose proof (k_bcst_same _ _ _ _ _ B9 eq_refl) as B. rewrite A6, <-B, B8. destruct B9. congruence.
Qed.

Lemma bcPop_true_world h w s : h_bcst h = w :: s -> h_world (bcPop true h) = w.
Proof. intros H. unfold bcPop, blockchain_PopSetActiveState, modify. cbn [fst]. rewrite H. reflexivity. Qed.
Lemma bcPop_outmet b h : h_out (bcPop b h) = h_out h /\ h_met (bcPop b h) = h_met h.
Proof. unfold bcPop. destruct b; cbn [fst blockchain_PopSetActiveState blockchain_PopDiscard modify]; destruct (h_bcst h); split; reflexivity. Qed.

Lemma plain_dest n i h : e_isBuiltin E (ci_fn i) = false ->
  vmDest (S n) i h =
  ('(o, info, e) <- executeOnDestContextNoBuiltinFunction (vmRun n) (vmDest n) i ;;
   match e with Some _ => blockchain_PopSetActiveState | None => blockchain_PopDiscard end ;;; ret (o, info, e)) (bcPush h).
Proof.
  intros Hb. change (vmDest (S n) i h) with (ExecuteOnDestContext (vmRun n) (vmDest n) i h).
  unfold ExecuteOnDestContext. rewrite (bind_ok _ _ h (bcPush h) tt) by reflexivity. rewrite Hb. reflexivity.
Qed.
Lemma plain_dest_ok n i h h' o info e : e_isBuiltin E (ci_fn i) = false -> vmDest n i h = (h', OOk (o, info, e)) ->
  exists n' h2, executeOnDestContextNoBuiltinFunction (vmRun n') (vmDest n') i (bcPush h) = (h2, OOk (o, info, e)) /\
    h' = bcPop (match e with Some _ => true | None => false end) h2.
Proof.
  intros Hb H. destruct n as [|n]; [discriminate H|]. rewrite (plain_dest n i h Hb) in H. exists n.
  unfold bind at 1 in H. destruct (executeOnDestContextNoBuiltinFunction _ _ i (bcPush h)) as [h2 [[[o2 info2] e2]|?| |]] eqn:Hx; try discriminate H.
  exists h2. destruct e2; [rewrite (bind_ok _ _ _ _ _ (bcPopSet_ok h2)) in H|rewrite (bind_ok _ _ _ _ _ (bcPopDiscard_ok h2)) in H];
    injection H as <- <- <- <-; split; reflexivity.
Qed.

Lemma dest_failed n i h h' o info e : host_ok h -> e_isBuiltin E (ci_fn i) = false ->
  vmDest n i h = (h', OOk (o, info, Some e)) ->
  same_output (h_out h) (h_out h') /\ h_world h' = h_world h /\ h_met h' = h_met h.
Proof.
  intros [Hs Hw] Hb H. destruct (plain_dest_ok n i h h' o info (Some e) Hb H) as (n' & h2 & Hx & ->).
  destruct (nb_failed n' i (bcPush h) h2 o info e Hs Hw Hx) as (A1 & A2 & A3).
  destruct (bcPop_outmet true h2) as [-> ->]. split; [exact A1|]. split; [|exact A2].
  apply (bcPop_true_world _ _ (h_bcst h)). rewrite A3. reflexivity.
Qed.

Lemma dest_failed_all n i h h' o info e : host_ok h -> e_isBuiltin E (ci_fn i) = false ->
  vmDest n i h = (h', OOk (o, info, Some e)) ->
  same_output (h_out h) (h_out h') /\ h_world h' = h_world h /\ h_met h' = h_met h /\
  h_rt h' = h_rt h /\ h_big h' = h_big h /\ frame_restored h h'.
Proof.
  intros Hok Hb H. destruct (dest_failed n i h h' o info e Hok Hb H) as (A1 & A2 & A3).
  destruct (dest_all n i h h' _ Hok H ltac:(discriminate)) as (B1 & _ & _ & B4 & B5). auto 10.
Qed.

Lemma dest_failed_code n i h h' o info e : host_ok h -> e_isBuiltin E (ci_fn i) = false ->
  vmDest n i h = (h', OOk (o, info, Some e)) ->
  forall a, let code_of (m : gmap bytes out_account) := (fun x => (oa_code x, oa_meta x, oa_deployer x)) <$> m !! a in
    code_of (o_accounts (h_out h')) = code_of (o_accounts (h_out h)).
Proof.
  intros Hok Hb H a. destruct (dest_failed n i h h' o info e Hok Hb H) as (A1 & _). cbv zeta.
  pose proof (so_accounts _ _ A1 a) as S. destruct (o_accounts (h_out h) !! a) eqn:H1, (o_accounts (h_out h') !! a) eqn:H2; try contradiction; rewrite ?H1, ?H2; [|reflexivity].
  destruct S. cbn. congruence.
Qed.

(** ** C27 *)
Lemma later_merge x y :
  later_account x y (mergeOutputAccounts NewVMOutputAccount (mergeOutputAccounts (mergeOutputAccounts NewVMOutputAccount x) y)).
Proof.
  destruct (copy_same x) as [C1 C2 C3 C4 C5 C6 C7 C8 C9].
  destruct (copy_same (mergeOutputAccounts (mergeOutputAccounts NewVMOutputAccount x) y)) as [D1 D2 D3 D4 D5 D6 D7 D8 D9].
  set (x' := mergeOutputAccounts NewVMOutputAccount x) in *. constructor.
  - rewrite D1. cbn [mergeOutputAccounts oa_nonce]. rewrite C1. destruct (Z.ltb_spec (Z.max 0 (oa_nonce x)) (oa_nonce y)); lia.
  - rewrite D2. cbn [mergeOutputAccounts oa_balance]. rewrite C2. reflexivity.
  - rewrite D3. reflexivity.
  - intros k. rewrite D4. cbn [mergeOutputAccounts oa_storage]. rewrite C4.
    rewrite lookup_union. destruct (oa_storage y !! k), (oa_storage x !! k); reflexivity.
  - rewrite D5. cbn [mergeOutputAccounts oa_code]. rewrite C5. apply code_later.
  - rewrite D6. cbn [mergeOutputAccounts oa_meta]. rewrite C6. apply code_later.
  - rewrite D7. cbn [mergeOutputAccounts oa_deployer]. rewrite C7. reflexivity.
  - rewrite D8. cbn [mergeOutputAccounts oa_transfers]. rewrite C8.
    destruct (Nat.ltb_spec (length (oa_transfers x)) (length (oa_transfers y))); [reflexivity|].
    rewrite drop_ge by assumption. rewrite app_nil_r. reflexivity.
  - rewrite D9. reflexivity.
Qed.
Lemma same_later y : same_account y (mergeOutputAccounts NewVMOutputAccount (mergeOutputAccounts NewVMOutputAccount y)).
Proof.
  destruct (copy_same y) as [C1 C2 C3 C4 C5 C6 C7 C8 C9]. destruct (copy_same (mergeOutputAccounts NewVMOutputAccount y)) as [D1 D2 D3 D4 D5 D6 D7 D8 D9].
  constructor; try congruence. rewrite D1, C1. lia.
Qed.
Lemma later_merged m m' : later_accounts m m' (copied (merged (copied m) m')).
Proof.
  intros a. rewrite copied_lookup, merged_lookup, copied_lookup.
  destruct (m !! a) as [x|], (m' !! a) as [y|]; cbn; [apply later_merge|apply same_later|apply same_later|exact I].
Qed.

(** transfers are only ever added *)
Lemma transfers_eff O l h h' b a : eff O l h h' b -> wf h -> transfers_to (accounts h) a = [] \/ ~ fresh_address a ->
  exists t, transfers_to (accounts h') a = transfers_to (accounts h) a ++ t.
Proof.
  intros He Hw Hf. set (t0 := transfers_to (accounts h) a) in *. assert (Ht0 : transfers_to (accounts h) a = t0) by reflexivity. clearbody t0.
  destruct (k_trace _ _ _ _ _ (eff_kept _ _ _ _ _ He Hw)) as (tr & Htr).
  assert (Hpre : forall x t, exists t', (if (length (t0 ++ t) <? length (oa_transfers x))%nat then
     (t0 ++ t) ++ drop (length (t0 ++ t)) (oa_transfers x) else t0 ++ t) = t0 ++ t').
  { intros x t. destruct (_ <? _)%nat; [rewrite <-app_assoc|]; eauto. }
  destruct (eff_static O (fun _ => True) (fun m => exists t, transfers_to m a = t0 ++ t) (fun _ _ => True) (fun _ => True))
    with (l := l) (h := h) (h' := h') (b := b) as [[S1 S2] _]; auto; unfold transfers_to in *.
  - intros p m [t Hp] [t' Hm]. rewrite merged_lookup. destruct (m !! a) as [y|] eqn:Hy; [|destruct (p !! a); eauto].
    destruct (p !! a) as [x|]; cbn; [rewrite Hp; apply Hpre|].
    symmetry in Hp. apply app_eq_nil in Hp as [-> _]. cbn. eauto.
  - intros m [t Hm]. rewrite copied_lookup. destruct (m !! a) as [y|]; cbn; [|eauto].
    destruct (oa_transfers y); cbn; eauto.
  - intros m a' [t Hm] Hn. destruct (decide (a' = a)) as [->|Hne]; [|rewrite lookup_insert_ne by exact Hne; eauto].
    rewrite lookup_insert. rewrite Hn in Hm. cbn. eauto.
  - intros m m' [t Hm] Hl. specialize (Hl a). destruct (m !! a) as [x|], (m' !! a) as [y|]; try contradiction; [|eauto].
    destruct Hl as (_ & _ & _ & t' & ->). rewrite Hm, <-app_assoc. eauto.
  - intros w m a' x u _ [t Hm] Hx _ _. destruct (decide (a' = a)) as [->|Hne]; [|rewrite lookup_insert_ne by exact Hne; eauto].
    rewrite lookup_insert. rewrite Hx in Hm. cbn. eauto.
  - intros w m a' x k _ [t Hm] Hx _. destruct (decide (a' = a)) as [->|Hne]; [|rewrite lookup_insert_ne by exact Hne; eauto].
    rewrite lookup_insert. rewrite Hx in Hm. cbn. eauto.
  - intros m a' x k v [t Hm] Hx _ _. destruct (decide (a' = a)) as [->|Hne]; [|rewrite lookup_insert_ne by exact Hne; eauto].
    rewrite lookup_insert. rewrite Hx in Hm. cbn. eauto.
  - intros h1 s d v [_ [t Hm]] _ _ _ _ _ _.
    assert (Ha : forall f (m : gmap bytes out_account) b0, (forall x, oa_transfers (f x) = oa_transfers x) ->
      match alter f b0 m !! a with Some x => oa_transfers x | None => [] end = match m !! a with Some x => oa_transfers x | None => [] end).
    { intros f m b0 Hff. destruct (decide (b0 = a)) as [->|Hne]; [|rewrite lookup_alter_ne by exact Hne; reflexivity].
      rewrite lookup_alter. destruct (m !! a); cbn; [apply Hff|reflexivity]. }
    rewrite !Ha by reflexivity. eauto.
  - intros m a' c n s _ Hc _ [t Hm]. destruct (decide (a' = a)) as [->|Hne]; [|rewrite lookup_delete_ne by exact Hne; eauto].
    rewrite lookup_delete. destruct Hf as [Hf|Hf]; [rewrite Hf; eauto|]. destruct Hf. exists c, n. exact Hc.
  - intros w i w' o o' m _ _ [t Hm]. rewrite added_lookup. destruct (m !! a) as [x|], (o_accounts o' !! a) as [y|]; cbn; eauto.
    + rewrite Hm. match goal with |- context [if ?c then _ else _] => destruct c end; rewrite <-!app_assoc; eauto.
    + symmetry in Hm. apply app_eq_nil in Hm as [-> _]. cbn. eauto.
  - exists tr. split; [exact Htr|]. apply List.Forall_forall. auto.
  - constructor; [exact I|]. exists []. rewrite app_nil_r. exact Ht0.
Qed.

Lemma GetVMOutput_out h h1 o : GetVMOutput h = (h1, OOk o) -> o_code o = RcOk -> o = h_out h1.
Proof.
  unfold GetVMOutput, removeNonUpdatedCode. rewrite bind_modify. unfold GasLeft. rewrite bind_gets, bind_modify.
  unfold bind at 1, try. destruct (UpdateGasStateOnSuccess _) as [h2 [u|e| |]]; intros H Hc; try discriminate H.
  - injection H as <- <-. reflexivity.
  - destruct (CreateErr_code _ _ _ _ H Hc).
Qed.
Lemma nb_success n i h h' o info : h_stoprot h = true -> wf h ->
  executeOnDestContextNoBuiltinFunction (vmRun n) (vmDest n) i h = (h', OOk (o, info, None)) ->
  exists o1 h1, o = Some o1 /\ o_code o1 = RcOk /\ o1 = h_out h1 /\ eff any_opts true (destPush i h) h1 false /\
    h_out h' = mergeVMOutputs newVMOutput (mergeVMOutputs (mergeVMOutputs newVMOutput (h_out h)) o1).
Proof.
  intros Hs Hw H. destruct (nb_shape n i h h' _ Hs H ltac:(discriminate)) as (hb & bo & h1 & o1 & _ & Ho & Hc & _ & He & ro & Hro & Hr).
  destruct Hr as [(-> & x & Hx & Hxe)|(Hr & _)]; [|discriminate Hr]. injection Hxe as <-.
  destruct (RestoreGas_regas _ _ _ _ Hro) as [Hg _]. destruct (regas_same _ _ Hg) as (_ & _ & A3 & _).
  destruct (destPop_kept (bool_decide (o_code o1 = RcOk)) i h h1 _ Hw He) as (_ & _ & _ & _ & B5 & _).
  destruct bo as [[inf [er|]]|er| |]; cbn [body_err dest_result compute_output] in *; try discriminate Hx.
  destruct (bool_decide (o_code o1 = RcOk)) eqn:Hd; [|discriminate Hx]. apply bool_decide_eq_true in Hd.
  injection Hx as Hx1 _. pose proof (GetVMOutput_out _ _ _ Hc Hd) as Ho1. exists o1, h1. repeat split; auto. rewrite A3, B5, Ho1. reflexivity.
Qed.
Lemma dest_success n i h h' o info : host_ok h -> e_isBuiltin E (ci_fn i) = false ->
  vmDest n i h = (h', OOk (o, info, None)) ->
  exists o1, o = Some o1 /\ o_code o1 = RcOk /\
    o_retdata (h_out h') = o_retdata (h_out h) ++ o_retdata o1 /\ o_logs (h_out h') = o_logs (h_out h) ++ o_logs o1 /\
    later_accounts (o_accounts (h_out h)) (o_accounts o1) (o_accounts (h_out h')) /\
    forall a, ~ fresh_address a -> (exists t, transfers_to (o_accounts o1) a = transfers_to (o_accounts (h_out h)) a ++ t) /\
      transfers_to (o_accounts (h_out h')) a = transfers_to (o_accounts o1) a.
Proof.
  intros [Hs Hw] Hb H. destruct (plain_dest_ok n i h h' o info None Hb H) as (n' & h2 & Hx & ->).
  destruct (nb_success n' i (bcPush h) h2 o info Hs Hw Hx) as (o1 & h1 & -> & Hc & Ho1 & He & Hout).
  destruct (bcPop_outmet false h2) as [-> _]. exists o1. split; [reflexivity|]. split; [exact Hc|]. rewrite Hout.
  split; [reflexivity|]. split; [reflexivity|]. split; [apply later_merged|]. intros a Ha.
  assert (Hw' : wf (destPush i (bcPush h))) by exact Hw.
  assert (Ht : exists t, transfers_to (o_accounts o1) a = transfers_to (o_accounts (h_out h)) a ++ t).
  { destruct (transfers_eff any_opts true _ _ false a He Hw' (or_intror Ha)) as [t Ht]. exists t. rewrite Ho1. exact Ht. }
  split; [exact Ht|]. destruct Ht as [t Ht].
  unfold transfers_to in *. pose proof (later_merged (o_accounts (h_out h)) (o_accounts o1) a) as L.
  change (o_accounts (mergeVMOutputs newVMOutput (mergeVMOutputs (mergeVMOutputs newVMOutput (h_out (bcPush h))) o1)))
    with (copied (merged (copied (o_accounts (h_out h))) (o_accounts o1))).
  set (r := copied (merged (copied (o_accounts (h_out h))) (o_accounts o1))) in *.
  destruct (o_accounts (h_out h) !! a) as [x|], (o_accounts o1 !! a) as [y|], (r !! a) as [z|]; try contradiction; try reflexivity.
  - rewrite (la_transfers _ _ _ L), Ht, drop_app. reflexivity.
  - rewrite (sa_transfers _ _ L). destruct (oa_transfers x); [reflexivity|discriminate Ht].
  - exact (sa_transfers _ _ L).
Qed.
End out.
