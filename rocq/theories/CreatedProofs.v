(** Proofs about the calls created with createAsyncCall. *)
From Verif Require Import VmModel WpProofs AsyncProofs CreatedSpec.

Lemma answered_none info : all_answered info -> ai_map (getPendingAsyncCalls info) = ∅.
Proof.
  intros H. apply map_eq. intros id. cbn. rewrite lookup_omap, lookup_empty.
  destruct (ai_map info !! id) as [ctx|] eqn:Hi; [|reflexivity]. cbn.
  destruct (filter _ (ax_calls ctx)) as [|c l] eqn:Hf; [reflexivity|exfalso].
  assert (Hc : c ∈ filter (fun c => gc_status c = AsPending) (ax_calls ctx)) by (rewrite Hf; left).
  apply elem_of_list_filter in Hc as [Hs Hc]. exact (H id ctx c Hi Hc Hs).
Qed.
Lemma none_answered info : ai_map (getPendingAsyncCalls info) = ∅ -> all_answered info.
Proof.
  intros H id ctx c Hi Hc Hs. assert (Hn : ai_map (getPendingAsyncCalls info) !! id = None) by (rewrite H; apply lookup_empty).
  cbn in Hn. rewrite lookup_omap, Hi in Hn. cbn in Hn.
  assert (Hf : c ∈ filter (fun c => gc_status c = AsPending) (ax_calls ctx)) by (apply elem_of_list_filter; split; assumption).
  destruct (filter _ (ax_calls ctx)); [inversion Hf|discriminate Hn].
Qed.
Lemma marked id n s h : marks id n s h (fst (set_actx_map (upd_call id n (set_gc_status s)) h)).
Proof.
  split; [eexists; reflexivity|]. intros id' n'. cbn. unfold upd_call.
  destruct (decide (id' = id)) as [->|Hi].
  - rewrite lookup_alter. destruct (ai_map (r_actx (h_rt h)) !! id) as [ctx|]; cbn; [|destruct (bool_decide _); reflexivity].
    destruct (decide (n' = n)) as [->|Hn].
    + rewrite list_lookup_alter, bool_decide_eq_true_2 by (split; reflexivity). reflexivity.
    + rewrite list_lookup_alter_ne by congruence. rewrite bool_decide_eq_false_2 by tauto. reflexivity.
  - rewrite lookup_alter_ne by congruence. rewrite bool_decide_eq_false_2 by tauto. reflexivity.
Qed.

Section created.
Context {E : env}.
Lemma created_run rd id n c f args h h1 o info e : env_ok E -> asks (created c) f args ->
  rd (dest_call h (created c) f args) h = (h1, OOk (Some o, Some info, e)) -> all_answered info ->
  sendable (told c o) o e -> answer_gas o 0 ->
  exists h2 i, marks id n (settled o) h1 h2 /\ answers h2 (gc_dest c) (told c o) 0 o e i /\
  forall h' r, processAsyncCall rd (fun s => set_actx_map (upd_call id n (set_gc_status s))) c h = (h', r) ->
  if o_gasrem o <=? callback_price (told c o) o e then h' = h2 /\ r = OErr ErrNotEnoughGas
  else
    (forall h3 o' info', rd i h2 = (h3, OOk (o', info', None)) -> h' = h3 /\ r = OOk tt) /\
    (forall h3 o' info' e', rd i h2 = (h3, OOk (o', info', Some e')) ->
       r = OOk tt /\ exists code msg, reports_failure h3 h' code msg /\ forall ob, o' = Some ob -> code = o_code ob /\ msg = o_msg ob) /\
    (forall h3, rd i h2 = (h3, OPanic) -> r = OPanic).
Proof.
  intros HE Ha Hrd Hp Hs Hg.
  exists (fst (set_actx_map (upd_call id n (set_gc_status (settled o))) h1)).
  destruct (create_answer (created c) o (gc_dest c) (told c o) e (fst (set_actx_map (upd_call id n (set_gc_status (settled o))) h1)) HE Hs Hg) as (i & Hi & Hc).
  exists i. split; [apply marked|]. split; [exact Hi|].
  pose proof (dest_input_run (created c) f args h h Ha eq_refl eq_refl) as Hd. apply try_ok in Hd.
  intros h' r H. unfold processAsyncCall in H. change (gen_handler c) with (created c) in H.
  rewrite (bind_ok _ _ _ _ _ Hd), (bind_ok _ _ _ _ _ Hrd) in H.
  rewrite bool_decide_eq_true_2 in H by (apply answered_none; exact Hp).
  unfold callbackAsync in H. cbv zeta in H. change (gen_handler c) with (created c) in H.
  fold (settled o) (told c o) in H.
  assert (Hset : set_actx_map (upd_call id n (set_gc_status (settled o))) h1 = (fst (set_actx_map (upd_call id n (set_gc_status (settled o))) h1), OOk tt)) by reflexivity.
  rewrite (bind_ok _ _ _ _ _ Hset) in H. set (h2 := fst _) in *. clearbody h2.
  replace (o_gasrem o + ac_locked (created c)) with (o_gasrem o) in Hc by (cbn; lia).
  destruct (o_gasrem o <=? callback_price (told c o) o e).
  - unfold bind in H. rewrite Hc in H. injection H as <- <-. split; reflexivity.
  - rewrite (bind_ok _ _ _ _ _ Hc) in H. split_and!.
    + intros h3 o' info' H3. rewrite (bind_ok _ _ _ _ _ H3) in H. injection H as <- <-. split; reflexivity.
    + intros h3 o' info' e' H3. rewrite (bind_ok _ _ _ _ _ H3) in H.
      destruct (report_run _ _ _ _ _ H) as (H1 & code & msg & H2 & H5). split; [exact H1|]. exists code, msg. split; [exact H2|]. intros ob ->. exact H5.
    + intros h3 H3. unfold bind in H. rewrite H3 in H. injection H as <- <-. reflexivity.
Qed.
Lemma created_lost rd id n c f args h h1 o e : asks (created c) f args ->
  rd (dest_call h (created c) f args) h = (h1, OOk (o, None, e)) ->
  processAsyncCall rd (fun s => set_actx_map (upd_call id n (set_gc_status s))) c h = (h1, OPanic).
Proof.
  intros Ha Hrd. pose proof (dest_input_run (created c) f args h h Ha eq_refl eq_refl) as Hd. apply try_ok in Hd.
  unfold processAsyncCall. change (gen_handler c) with (created c). rewrite (bind_ok _ _ _ _ _ Hd), (bind_ok _ _ _ _ _ Hrd). reflexivity.
Qed.
Lemma created_waits rd id n c f args h h1 o info e : asks (created c) f args ->
  rd (dest_call h (created c) f args) h = (h1, OOk (o, Some info, e)) -> ~ all_answered info ->
  processAsyncCall rd (fun s => set_actx_map (upd_call id n (set_gc_status s))) c h = (h1, match e with Some e => OErr e | None => OOk tt end).
Proof.
  intros Ha Hrd Hp. pose proof (dest_input_run (created c) f args h h Ha eq_refl eq_refl) as Hd. apply try_ok in Hd.
  unfold processAsyncCall. change (gen_handler c) with (created c). rewrite (bind_ok _ _ _ _ _ Hd), (bind_ok _ _ _ _ _ Hrd).
  rewrite bool_decide_eq_false_2 by (intros H; apply Hp, none_answered, H). destruct e; reflexivity.
Qed.
End created.
