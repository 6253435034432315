(** Proofs for C61. *)
From Verif Require Import VmModel WpProofs CodecSpec CodecProofs MemSpec MemProofs BigSpec ApiArgsSpec ApiArgsProofs QuerySpec QueryProofs IdentSpec ResultSpec.
From Verif Require StoProofs.
From Coq Require Import ZifyBool ZifyNat ZifyN.

Section results.
Context `{E : env} (ed : edf) (es : call_input -> M unit) (h : host) (i : nat) (x : inst) (H : running_as h i x) (m : memory).

(** [k] run in a state with output [o] ends with output [o'], the handles holding the same values *)
Definition leaves (k : cmd) (g : Z) (b : gmap Z Z) (o : vm_output) (r : Z) (o' : vm_output) : Prop :=
  exists g' b', run_cmd ed es k (St h i x g m b o) = (St h i x g' m b' o', OOk r) /\ forall y, bval b' y = bval b y.

Lemma l_ret g b o r : leaves (CRet r) g b o r o.
Proof. exists g, b. split; reflexivity. Qed.
Lemma l_use q k g b o r o' : (forall g', leaves k g' b o r o') -> leaves (use q k) g b o r o'.
Proof. intros Hk. destruct (Hk (more_points g q)) as (g' & b' & H1 & H2). exists g', b'. rewrite (s_use _ _ _ _ _ H). split; assumption. Qed.
Lemma l_get {B} (f : host -> B) k g b o r o' : leaves (k (f (St h i x g m b o))) g b o r o' -> leaves (ApiModel.get f k) g b o r o'.
Proof. intros Hk. unfold leaves. rewrite run_get. exact Hk. Qed.
Lemma l_load off len r0 k g b o r o' d : bytes_at (m_data m) off len d -> in_i32 off -> in_i32 len -> blen (m_data m) <= max_i32 ->
  leaves (k d) g b o r o' -> leaves (load off len r0 k) g b o r o'.
Proof. intros H1 H2 H3 H4 Hk. unfold leaves. rewrite (s_load _ _ _ _ _ H _ _ _ _ _ _ _ _ _ H1 H2 H3 H4). exact Hk. Qed.
Lemma l_big_get y k g b o r o' : (forall b', leaves (k (bval b y)) g b' o r o') -> leaves (act (QBigGet y) k) g b o r o'.
Proof.
  intros Hk. destruct (s_big_get ed es h i x g m b o y k) as (b1 & H1 & Hb). destruct (Hk b1) as (g' & b' & H2 & H3).
  exists g', b'. rewrite H1. split; [exact H2|]. intros z. rewrite H3. apply Hb.
Qed.
Lemma l_finish d k g b o r o' : leaves (k tt) g b (set_o_retdata (o_retdata o ++ [d]) o) r o' -> leaves (act (QFinish d) k) g b o r o'.
Proof. intros Hk. exact Hk. Qed.
Lemma l_log ts d k g b o r o' : r_ro (h_rt h) = false ->
  leaves (k tt) g b (set_o_logs (o_logs o ++ [event_entry (r_addr (h_rt h)) ts d]) o) r o' -> leaves (act (QWriteLog ts d) k) g b o r o'.
Proof.
  intros Hro Hk. unfold leaves, act. rewrite run_do. cbn [interp]. unfold WriteLog. rewrite !bind_gets.
  change (r_ro (h_rt (St h i x g m b o))) with (r_ro (h_rt h)). rewrite Hro. exact Hk.
Qed.
Lemma l_log_ro ts d k g b o r o' : r_ro (h_rt h) = true ->
  leaves (k tt) g b o r o' -> leaves (act (QWriteLog ts d) k) g b o r o'.
Proof.
  intros Hro Hk. unfold leaves, act. rewrite run_do. cbn [interp]. unfold WriteLog. rewrite !bind_gets.
  change (r_ro (h_rt (St h i x g m b o))) with (r_ro (h_rt h)). rewrite Hro. exact Hk.
Qed.

Lemma l_topics tp n k g b o r o' : blen (m_data m) <= max_i32 -> 0 <= tp -> forall ts j acc,
  length ts = n -> 0 <= j -> tp + 32 * (j + Z.of_nat n) <= max_i32 ->
  (forall q t, ts !! q = Some t -> bytes_at (m_data m) (tp + 32 * (j + Z.of_nat q)) 32 t) ->
  leaves (k (acc ++ ts)) g b o r o' -> leaves (load_topics tp n j acc k) g b o r o'.
Proof.
  intros Hm Htp. induction n as [|n IH]; intros ts j acc Hl Hj Hr Hts Hk.
  - destruct ts; [|discriminate]. rewrite app_nil_r in Hk. exact Hk.
  - destruct ts as [|t ts]; [discriminate|]. cbn [load_topics]. unfold HashLen.
    rewrite (i32_id (j * 32)) by (unfold in_i32, min_i32, max_i32 in *; lia).
    rewrite (i32_id (tp + j * 32)) by (unfold in_i32, min_i32, max_i32 in *; lia).
    eapply l_load.
    + pose proof (Hts 0%nat t eq_refl) as Ht. replace (tp + 32 * (j + Z.of_nat 0)) with (tp + j * 32) in Ht by lia. exact Ht.
    + unfold in_i32, min_i32, max_i32 in *; lia.
    + unfold in_i32, min_i32, max_i32 in *; lia.
    + exact Hm.
    + apply (IH ts); [cbn in Hl; lia|lia|lia| |rewrite <-app_assoc; exact Hk].
      intros q t' Hq. pose proof (Hts (S q) t' Hq) as Ht. replace (j + 1 + Z.of_nat q) with (j + Z.of_nat (S q)) by lia. exact Ht.
Qed.

Lemma results c g d : blen (m_data m) <= max_i32 -> reported h (m_data m) c d ->
  leaves (api c) g (h_big h) (h_out h) 0 (set_o_retdata (o_retdata (h_out h) ++ [d]) (h_out h)).
Proof.
  intros Hm Hr. destruct c; try contradiction Hr; cbn [reported] in Hr; cbn [api].
  - unfold api_finish. apply l_use. intros g1. eapply l_load; [exact Hr|apply i32_range|apply i32_range|exact Hm|]. apply l_finish, l_ret.
  - apply unsigned_bytes_is in Hr. subst d. apply l_use. intros g1. apply l_finish, l_ret.
  - apply signed_bytes_is in Hr. subst d. apply l_use. intros g1. apply l_finish, l_ret.
  - apply signed_bytes_is in Hr. subst d. apply l_use. intros g1. apply l_finish, l_ret.
  - apply unsigned_bytes_is in Hr. subst d. apply l_use. intros g1. apply l_big_get. intros b'. apply l_finish, l_use. intros g2. apply l_ret.
  - apply signed_bytes_is in Hr. subst d. apply l_use. intros g1. apply l_big_get. intros b'. apply l_finish, l_use. intros g2. apply l_ret.
Qed.

Lemma logs c g ts d : blen (m_data m) <= max_i32 -> in_mem x = m -> announced (m_data m) c ts d ->
  leaves (api c) g (h_big h) (h_out h) 0
    (if r_ro (h_rt h) then h_out h
     else set_o_logs (o_logs (h_out h) ++ [event_entry (r_addr (h_rt h)) ts d]) (h_out h)).
Proof.
  intros Hm Hx Hr.
  assert (Hlog : forall g k, (forall g b o r o', leaves (k tt) g b o r o' <-> leaves (CRet 0) g b o r o') ->
    leaves (act (QWriteLog ts d) k) g (h_big h) (h_out h) 0
    (if r_ro (h_rt h) then h_out h
     else set_o_logs (o_logs (h_out h) ++ [event_entry (r_addr (h_rt h)) ts d]) (h_out h))).
  { intros g1 k Hk. destruct (r_ro (h_rt h)) eqn:Hro; [apply l_log_ro|apply l_log]; try assumption; apply Hk, l_ret. }
  destruct c; try contradiction Hr; cbn [announced] in Hr; cbn [api].
  - destruct Hr as (Hd & Htp & Hrange & Hlen & Hts). unfold writeLog. apply l_use. intros g1.
    eapply l_load; [exact Hd|apply i32_range|apply i32_range|exact Hm|].
    replace (i32 numTopics <? 0) with false by lia.
    eapply (l_topics _ _ _ _ _ _ _ _ Hm Htp ts); [lia|lia|lia| |].
    + intros q t Hq. rewrite Z.add_0_l. apply Hts, Hq.
    + apply Hlog. intros; reflexivity.
  - destruct Hr as (Hd & Hv & Hrange & Hts). unfold writeEventLog, get_args. apply l_get.
    assert (Hmem : forall g b o, cur_mem (St h i x g m b o) = ROk m).
    { intros g1 b1 o1. rewrite (cur_mem_run _ _ _ (St_running h i x H g1 m b1 o1)). reflexivity. }
    rewrite Hmem. cbn [mbind res_bind].
    rewrite (proj1 (getargs_spec m (i32 numTopics) _ _ Hm (i32_range _) (i32_range _) (i32_range _) ltac:(lia)) Hv). cbn [res_or_fault fst snd].
    eapply l_load; [exact Hd|apply i32_range|apply i32_range|exact Hm|]. apply l_use. intros g1. rewrite <-Hts. apply Hlog. intros; reflexivity.
Qed.
End results.

Lemma own_out h i x g m b o : running_as h i x -> only_own (set_h_out o h) (St h i x g m b o).
Proof.
  intros [H1 H2]. exists i, x, m, g, b. split; [exact H1|]. split; [exact H2|]. unfold St, with_inst. destruct h. reflexivity.
Qed.

Lemma c61_result `{E : env} fuel c h m d : counting h -> cur_mem h = ROk m -> blen (m_data m) <= max_i32 -> reported h (m_data m) c d ->
  exists h', vmApi fuel c h = (h', OOk 0) /\ cur_mem h' = ROk m /\ (forall y, bval (h_big h') y = bval (h_big h) y) /\
    only_own (with_result d h) h'.
Proof.
  intros (i & x & Hc & Hi & _) Hm Hb Hr. assert (H : running_as h i x) by (split; assumption).
  rewrite (cur_mem_run _ _ _ H) in Hm. injection Hm as Hm.
  destruct (results (vmDest fuel) (vmSame fuel) h i x H m c (in_points x) d Hb Hr) as (g' & b' & H1 & H2).
  rewrite <-Hm in H1. rewrite <-(St_start _ _ _ H) in H1. eexists. split; [exact H1|].
  split; [rewrite (cur_mem_run _ _ _ (St_running _ _ _ H _ _ _ _)), Hm; reflexivity|]. split; [exact H2|]. apply own_out, H.
Qed.
Lemma c61_event `{E : env} fuel c h m ts d : counting h -> cur_mem h = ROk m -> blen (m_data m) <= max_i32 -> announced (m_data m) c ts d ->
  exists h', vmApi fuel c h = (h', OOk 0) /\ cur_mem h' = ROk m /\ (forall y, bval (h_big h') y = bval (h_big h) y) /\
    only_own (if r_ro (h_rt h) then h else with_event (event_entry (r_addr (h_rt h)) ts d) h) h'.
Proof.
  intros (i & x & Hc & Hi & _) Hm Hb Hr. assert (H : running_as h i x) by (split; assumption).
  rewrite (cur_mem_run _ _ _ H) in Hm. injection Hm as Hm.
  destruct (logs (vmDest fuel) (vmSame fuel) h i x H m c (in_points x) ts d Hb Hm Hr) as (g' & b' & H1 & H2).
  rewrite <-Hm in H1. rewrite <-(St_start _ _ _ H) in H1. eexists. split; [exact H1|].
  split; [rewrite (cur_mem_run _ _ _ (St_running _ _ _ H _ _ _ _)), Hm; reflexivity|]. split; [exact H2|].
  destruct (r_ro (h_rt h)); [|apply own_out, H].
  assert (Ho : set_h_out (h_out h) h = h) by (destruct h; reflexivity). rewrite <-Ho at 1. apply own_out, H.
Qed.
