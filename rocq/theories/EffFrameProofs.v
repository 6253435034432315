(** What [eff] leaves alone: frames, stacks and suspended instances. *)
From Verif Require Import VmModel WpProofs EffProofs.

(** the instance stack's and the heap's numbers are in use *)
Definition wf (h : host) : Prop := forall i, h_cur h = Some i -> (i < h_next h)%nat.

Definition not_ro (e : event) : Prop := match e with EvReadOnly _ => False | _ => True end.

(** what is the same for the frame that runs *)
Record kept (O : opts) (l : bool) (h h' : host) (b : bool) : Prop := mkKept {
  k_bigst : h_bigst h' = h_bigst h;
  k_outst : h_outst h' = h_outst h;
  k_metst : h_metst h' = h_metst h;
  k_rtst : h_rtst h' = h_rtst h;
  k_stost : h_stost h' = h_stost h;
  k_ist : h_ist h' = h_ist h;
  k_stoaddr : h_stoaddr h' = h_stoaddr h;
  k_bcst : exists s, h_bcst h' = s ++ h_bcst h;
  k_bcst_same : b = false -> h_bcst h' = h_bcst h;
  k_addr : r_addr (h_rt h') = r_addr (h_rt h);
  k_caller : vi_caller (r_input (h_rt h')) = vi_caller (r_input (h_rt h));
  k_value : vi_value (r_input (h_rt h')) = vi_value (r_input (h_rt h));
  k_ctype : vi_ctype (r_input (h_rt h')) = vi_ctype (r_input (h_rt h));
  k_esdt : vi_esdt (r_input (h_rt h')) = vi_esdt (r_input (h_rt h));
  k_ro : forall t, h_trace h' = t ++ h_trace h -> Forall not_ro t -> r_ro (h_rt h') = r_ro (h_rt h);
  k_next : (h_next h <= h_next h')%nat;
  k_insts : forall j, (j < h_next h)%nat -> h_cur h <> Some j -> h_insts h' !! j = h_insts h !! j;
  k_cur : l = false -> h_cur h' = h_cur h;
  k_cur' : h_cur h' = h_cur h \/ h_cur h' = None \/ exists j, h_cur h' = Some j /\ (h_next h <= j < h_next h')%nat;
  k_heap : forall i x, (i < h_next h)%nat -> h_insts h !! i = Some x ->
    exists y, h_insts h' !! i = Some y /\ in_mod y = in_mod x /\ in_limit y = in_limit x;
  k_trace : exists t, h_trace h' = t ++ h_trace h;
  k_input : l = false -> r_input (h_rt h') = r_input (h_rt h) /\ r_fn (h_rt h') = r_fn (h_rt h)
}.

Lemma kept_refl O l h b : kept O l h h b.
Proof.
  constructor; auto.
  - exists []. reflexivity.
  - intros i x _ Hx. eauto.
  - exists []. reflexivity.
Qed.

(** steps that change nothing of that *)
Lemma kept_same O l h h' b :
  h_bigst h' = h_bigst h -> h_outst h' = h_outst h -> h_metst h' = h_metst h -> h_rtst h' = h_rtst h ->
  h_stost h' = h_stost h -> h_ist h' = h_ist h -> h_stoaddr h' = h_stoaddr h -> h_bcst h' = h_bcst h ->
  h_rt h' = h_rt h -> h_next h' = h_next h -> h_insts h' = h_insts h -> h_cur h' = h_cur h ->
  (exists t, h_trace h' = t ++ h_trace h) -> kept O l h h' b.
Proof.
  intros H1 H2 H3 H4 H5 H6 H7 H8 H9 H10 H11 H12 H13.
  constructor; rewrite ?H9, ?H10, ?H11, ?H12; auto.
  - exists []. exact H8.
  - intros i x _ Hx. exists x. auto.
Qed.

Lemma kept_trans O l h1 h2 h3 b1 b2 : kept O l h1 h2 b1 -> kept O l h2 h3 b2 -> kept O l h1 h3 (b1 || b2).
Proof.
  intros A B. constructor.
  - rewrite (k_bigst _ _ _ _ _ B). apply A.
  - rewrite (k_outst _ _ _ _ _ B). apply A.
  - rewrite (k_metst _ _ _ _ _ B). apply A.
  - rewrite (k_rtst _ _ _ _ _ B). apply A.
  - rewrite (k_stost _ _ _ _ _ B). apply A.
  - rewrite (k_ist _ _ _ _ _ B). apply A.
  - rewrite (k_stoaddr _ _ _ _ _ B). apply A.
  - destruct (k_bcst _ _ _ _ _ A) as [s Hs], (k_bcst _ _ _ _ _ B) as [s' Hs'].
    exists (s' ++ s). rewrite Hs', Hs, app_assoc. reflexivity.
  - intros [-> ->]%orb_false_iff. rewrite (k_bcst_same _ _ _ _ _ B) by reflexivity. apply A. reflexivity.
  - rewrite (k_addr _ _ _ _ _ B). apply A.
  - rewrite (k_caller _ _ _ _ _ B). apply A.
  - rewrite (k_value _ _ _ _ _ B). apply A.
  - rewrite (k_ctype _ _ _ _ _ B). apply A.
  - rewrite (k_esdt _ _ _ _ _ B). apply A.
  - intros t Ht Hf. destruct (k_trace _ _ _ _ _ A) as [s Hs], (k_trace _ _ _ _ _ B) as [s' Hs'].
    assert (t = s' ++ s) as -> by (rewrite Hs', Hs, app_assoc in Ht; apply app_inv_tail in Ht; symmetry; exact Ht).
    apply Forall_app in Hf as [F' F]. rewrite (k_ro _ _ _ _ _ B s' Hs' F'). exact (k_ro _ _ _ _ _ A s Hs F).
  - etrans; [apply A|apply B].
  - intros j Hj Hc. rewrite (k_insts _ _ _ _ _ B).
    + apply A; assumption.
    + eapply Nat.lt_le_trans; [exact Hj|apply A].
    + destruct (k_cur' _ _ _ _ _ A) as [->|[->|(k & -> & Hk)]]; [exact Hc|discriminate|].
      intros [= ->]. lia.
  - intros Hl. rewrite (k_cur _ _ _ _ _ B Hl). apply A, Hl.
  - destruct (k_cur' _ _ _ _ _ B) as [->|[->|(k & -> & Hk)]]; [|auto|].
    + destruct (k_cur' _ _ _ _ _ A) as [->|[->|(k & -> & Hk)]]; auto.
      right; right. exists k. split; [reflexivity|]. pose proof (k_next _ _ _ _ _ B). lia.
    + right; right. exists k. split; [reflexivity|]. pose proof (k_next _ _ _ _ _ A). lia.
  - intros i x Hi Hx. destruct (k_heap _ _ _ _ _ A i x Hi Hx) as (y & Hy & E1 & E2).
    pose proof (k_next _ _ _ _ _ A) as Hn.
    destruct (k_heap _ _ _ _ _ B i y ltac:(lia) Hy) as (z & Hz & E3 & E4).
    exists z. split; [exact Hz|]. split; congruence.
  - destruct (k_trace _ _ _ _ _ A) as [s Hs], (k_trace _ _ _ _ _ B) as [s' Hs'].
    exists (s' ++ s). rewrite Hs', Hs, app_assoc. reflexivity.
  - intros Hl.
    destruct (k_input _ _ _ _ _ A Hl) as [A1 A2], (k_input _ _ _ _ _ B Hl) as [B1 B2]. split; congruence.
Qed.

Lemma kept_wf O l h h' b : kept O l h h' b -> wf h -> wf h'.
Proof.
  intros K Hw i Hi. pose proof (k_next _ _ _ _ _ K).
  destruct (k_cur' _ _ _ _ _ K) as [Hc|[Hc|(j & Hc & Hj)]].
  - rewrite Hc in Hi. apply Hw in Hi. lia.
  - congruence.
  - rewrite Hc in Hi. injection Hi as ->. lia.
Qed.

Section frame.
Context `{E : env} (O : opts).

(** popping the runtime frame after a nested frame that kept its stacks *)
Lemma pop_inst h h1 h2 b (l : bool) :
  wf h -> h_cur h1 = h_cur h -> h_next h1 = h_next h -> h_insts h1 = h_insts h ->
  kept O true h1 h2 b ->
  let m := if bool_decide (h_cur h = h_cur h2) then h_insts h2
           else match h_cur h2 with Some j => delete j (h_insts h2) | None => h_insts h2 end in
  (forall j, (j < h_next h)%nat -> h_cur h <> Some j -> m !! j = h_insts h !! j) /\
  (forall i x, (i < h_next h)%nat -> h_insts h !! i = Some x ->
    exists y, m !! i = Some y /\ in_mod y = in_mod x /\ in_limit y = in_limit x).
Proof.
  intros Hw Hc Hn Hi K m.
  assert (Hm : forall j, (j < h_next h)%nat -> m !! j = h_insts h2 !! j).
  { intros j Hj. unfold m. case_bool_decide as Hd; [reflexivity|].
    destruct (k_cur' _ _ _ _ _ K) as [Hx|[Hx|(k & Hx & Hk)]].
    - congruence.
    - rewrite Hx. reflexivity.
    - rewrite Hx. apply lookup_delete_ne. lia. }
  split.
  - intros j Hj Hne. rewrite Hm by exact Hj. rewrite (k_insts _ _ _ _ _ K).
    + rewrite Hi. reflexivity.
    + rewrite Hn. exact Hj.
    + rewrite Hc. exact Hne.
  - intros i x Hlt Hx. rewrite Hm by exact Hlt.
    apply (k_heap _ _ _ _ _ K); [rewrite Hn; exact Hlt|rewrite Hi; exact Hx].
Qed.

Lemma eff_kept l h h' b : eff O l h h' b -> wf h -> kept O l h h' b.
Proof.
  induction 1 as [ | l h1 h2 h3 b1 b2 H1 IH1 H2 IH2 | l h i x y Hi Hm Hl | | | | | | | | | l h h2 b H IH | l h s d v
    | l h f Hf | l h ro | h m g Hm | h | h m g
    | | | | | l h h2 a Ho Hc Hro H IH | | | l h h2 b H IH | l h h2 rv H IH | l h h2 H IH | l h i h2 b ok H IH | l h i h2 b ok H IH]; intros Hw;
    try (apply kept_same; try reflexivity; exists []; reflexivity).
  - pose proof (IH1 Hw) as K1. apply (kept_trans O l h1 h2 h3 b1 b2 K1). apply IH2. eapply kept_wf; eauto.
  - destruct Hi as [Hc Hx]. constructor; unfold with_inst; cbn; auto.
    + exists []. reflexivity.
    + intros j _ Hne. apply lookup_insert_ne. congruence.
    + intros j z _ Hz. destruct (decide (i = j)) as [<-|].
      * exists y. rewrite lookup_insert. split; [reflexivity|]. rewrite Hx in Hz. injection Hz as <-. auto.
      * exists z. rewrite lookup_insert_ne by assumption. auto.
    + exists []. reflexivity.
  - (* prot *) destruct (IH Hw). constructor; assumption.
  - (* move *) apply kept_same; try reflexivity. eexists [_]. reflexivity.
  - (* rt *) destruct Hf as (? & ? & ? & ? & ? & ? & _ & ?). constructor; cbn; auto.
    + exists []. reflexivity.
    + intros j z _ Hz. eauto.
    + exists []. reflexivity.
  - (* ro *) constructor; cbn; auto.
    + exists []. reflexivity.
    + intros t Ht Hf. assert (t = [EvReadOnly ro]) as ->. { apply (app_inv_tail (h_trace h)). symmetry. exact Ht. }
      destruct (Forall_inv Hf).
    + intros j z _ Hz. eauto.
    + exists [EvReadOnly ro]. reflexivity.
  - (* newinst *) constructor; cbn; auto; try discriminate.
    + exists []. reflexivity.
    + intros j Hj Hne. apply lookup_insert_ne. lia.
    + right; right. exists (h_next h). split; [reflexivity|lia].
    + intros j z Hj Hz. exists z. rewrite lookup_insert_ne by lia. auto.
    + eexists [_]. reflexivity.
  - (* curnone *) constructor; cbn; auto; try discriminate.
    + exists []. reflexivity.
    + intros j z Hj Hz. eauto.
    + exists []. reflexivity.
  - (* newclean *) constructor; cbn; auto; try discriminate.
    + exists []. reflexivity.
    + intros j Hj Hne. rewrite lookup_delete_ne, lookup_insert_ne by lia. reflexivity.
    + intros j z Hj Hz. exists z. rewrite lookup_delete_ne, lookup_insert_ne by lia. auto.
    + eexists [_]. reflexivity.
  - (* delete *) pose proof (kept_same O l h2 (set_h_trace (EvDelete a (changes_of a h2) :: h_trace h2)
               (set_accounts (delete a (accounts h2)) h2)) false) as K.
    refine (kept_trans O l _ _ _ false false (IH Hw) (K _ _ _ _ _ _ _ _ _ _ _ _ _)); try reflexivity. eexists [_]. reflexivity.
  - (* snap *) destruct (IH Hw). constructor; assumption.
  - (* bc *) specialize (IH Hw). pose proof (k_bcst_same _ _ _ _ _ IH eq_refl) as Hb.
    change (h_bcst (bcPush h)) with (h_world h :: h_bcst h) in Hb.
    destruct (bcPop_set h2 rv _ _ Hb) as [_ Hb'].
    destruct IH. constructor; autorewrite with pops; try assumption.
    + exists []. exact Hb'.
    + intros _. exact Hb'.
  - (* bcleak *) destruct (IH Hw). constructor; try assumption; [|discriminate].
    destruct k_bcst0 as [s Hs]. exists (s ++ [h_world h]). rewrite <- app_assoc. exact Hs.
  - (* dest *)
    specialize (IH Hw). 
    pose proof (pop_inst h (destPush i h) h2 b l Hw eq_refl eq_refl eq_refl IH) as [P1 P2].
    destruct IH as [K1 K2 K3 K4 K5 K6 K7 K8 K9 _ _ _ _ _ _ K16 K17 K18 K19 K20 K21 _].
    rewrite destPop_unfold.
    set (h3 := bigPop h2). set (h4 := stoPop h3). set (h5 := metPop ok h4). set (h6 := outPop ok h5).
    destruct (bigPop_set h2 _ _ K1) as [B1 B2]. fold h3 in B1, B2.
    destruct (stoPop_set h3 (h_stoaddr h) (h_stost h)) as [C1 C2]; [unfold h3; autorewrite with pops; exact K5|]. fold h4 in C1, C2.
    destruct (metPop_set h4 ok (h_met h) (h_metst h)) as [D1 D2]; [unfold h4, h3; autorewrite with pops; exact K3|]. fold h5 in D1, D2.
    destruct (outPop_set h5 ok (mergeVMOutputs newVMOutput (h_out h)) (h_outst h)) as [F1 F2]; [unfold h5, h4, h3; autorewrite with pops; exact K2|]. fold h6 in F1, F2.
    destruct (rtPop_set h6 (h_rt h) (h_rtst h) (h_cur h) (h_ist h)) as (G1 & G2 & G3 & G4 & G5);
      [unfold h6, h5, h4, h3; autorewrite with pops; exact K4|unfold h6, h5, h4, h3; autorewrite with pops; exact K6|].
    assert (Hc6 : h_cur h6 = h_cur h2) by (unfold h6, h5, h4, h3; autorewrite with pops; reflexivity).
    assert (Hi6 : h_insts h6 = h_insts h2) by (unfold h6, h5, h4, h3; autorewrite with pops; reflexivity).
    rewrite Hc6, Hi6 in G5.
    constructor; rewrite ?G1, ?G2, ?G3, ?G4, ?G5; auto; autorewrite with pops.
    + unfold h6, h5, h4; autorewrite with pops. exact B2.
    + exact F2.
    + unfold h6; autorewrite with pops. exact D2.
    + unfold h6, h5; autorewrite with pops. exact C2.
    + unfold h6, h5; autorewrite with pops. exact C1.
    + unfold h6, h5, h4, h3; autorewrite with pops. exact K8.
    + unfold h6, h5, h4, h3; autorewrite with pops. exact K9.
    + unfold h6, h5, h4, h3; autorewrite with pops. exact K16.
    + unfold h6, h5, h4, h3; autorewrite with pops. destruct K21 as [t Ht].
      exists (t ++ [EvOwner (ci_rcpt i)]). rewrite <- app_assoc. exact Ht.
  - (* same *)
    specialize (IH Hw).
    pose proof (pop_inst h (samePush i h) h2 b l Hw eq_refl eq_refl eq_refl IH) as [P1 P2].
    destruct IH as [K1 K2 K3 K4 K5 K6 K7 K8 K9 _ _ _ _ _ _ K16 K17 K18 K19 K20 K21 _].
    assert (K8' : exists w s', h_bcst h2 = w :: s' /\ exists s, s' = s ++ h_bcst h).
    { destruct K8 as [s Hs]. change (h_bcst (samePush i h)) with (h_world h :: h_bcst h) in Hs.
      destruct s as [|w s]; [exists (h_world h), (h_bcst h); split; [exact Hs|exists []; reflexivity]|].
      exists w, (s ++ h_world h :: h_bcst h). split; [exact Hs|]. exists (s ++ [h_world h]).
      rewrite <- app_assoc. reflexivity. }
    destruct K8' as (w & s' & Hs' & Hsuf).
    assert (K9' : b = false -> s' = h_bcst h).
    { intros Hb. specialize (K9 Hb). change (h_bcst (samePush i h)) with (h_world h :: h_bcst h) in K9. congruence. }
    rewrite samePop_unfold. destruct ok.
    + set (h3 := metPop true h2). set (h4 := outDrop h3). set (h5 := bigDrop h4). set (h6 := bcPop false h5).
      destruct (metPop_set h2 true _ _ K3) as [D1 D2]. fold h3 in D1, D2.
      destruct (outDrop_set h3 (mergeVMOutputs newVMOutput (h_out h)) (h_outst h)) as [F1 F2]; [unfold h3; autorewrite with pops; exact K2|]. fold h4 in F1, F2.
      pose proof (bigDrop_set h4 (h_big h) (h_bigst h)) as B2. fold h5 in B2.
      specialize (B2 ltac:(unfold h4, h3; autorewrite with pops; exact K1)).
      destruct (bcPop_set h5 false w s') as [_ W2]; [unfold h5, h4, h3; autorewrite with pops; exact Hs'|]. fold h6 in W2.
      destruct (rtPop_set h6 (h_rt h) (h_rtst h) (h_cur h) (h_ist h)) as (G1 & G2 & G3 & G4 & G5);
        [unfold h6, h5, h4, h3; autorewrite with pops; exact K4|unfold h6, h5, h4, h3; autorewrite with pops; exact K6|].
      assert (Hc6 : h_cur h6 = h_cur h2) by (unfold h6, h5, h4, h3; autorewrite with pops; reflexivity).
      assert (Hi6 : h_insts h6 = h_insts h2) by (unfold h6, h5, h4, h3; autorewrite with pops; reflexivity).
      rewrite Hc6, Hi6 in G5.
      constructor; rewrite ?G1, ?G2, ?G3, ?G4, ?G5; auto; autorewrite with pops.
      * unfold h6; autorewrite with pops. exact B2.
      * unfold h6, h5; autorewrite with pops. exact F2.
      * unfold h6, h5, h4; autorewrite with pops. exact D2.
      * unfold h6, h5, h4, h3; autorewrite with pops. exact K5.
      * unfold h6, h5, h4, h3; autorewrite with pops. exact K7.
      * rewrite W2. exact Hsuf.
      * rewrite W2. exact K9'.
      * unfold h6, h5, h4, h3; autorewrite with pops. exact K16.
      * unfold h6, h5, h4, h3; autorewrite with pops. exact K21.
    + set (h3 := bigPop h2). set (h4 := metPop false h3). set (h5 := outPop false h4). set (h6 := rtPop h5).
      destruct (bigPop_set h2 _ _ K1) as [B1 B2]. fold h3 in B1, B2.
      destruct (metPop_set h3 false (h_met h) (h_metst h)) as [D1 D2]; [unfold h3; autorewrite with pops; exact K3|]. fold h4 in D1, D2.
      destruct (outPop_set h4 false (mergeVMOutputs newVMOutput (h_out h)) (h_outst h)) as [F1 F2]; [unfold h4, h3; autorewrite with pops; exact K2|]. fold h5 in F1, F2.
      destruct (rtPop_set h5 (h_rt h) (h_rtst h) (h_cur h) (h_ist h)) as (G1 & G2 & G3 & G4 & G5);
        [unfold h5, h4, h3; autorewrite with pops; exact K4|unfold h5, h4, h3; autorewrite with pops; exact K6|].
      assert (Hc6 : h_cur h5 = h_cur h2) by (unfold h5, h4, h3; autorewrite with pops; reflexivity).
      assert (Hi6 : h_insts h5 = h_insts h2) by (unfold h5, h4, h3; autorewrite with pops; reflexivity).
      rewrite Hc6, Hi6 in G5. fold h6 in G1, G2, G3, G4, G5.
      destruct (bcPop_set h6 true w s') as [_ W2]; [unfold h6, h5, h4, h3; autorewrite with pops; exact Hs'|].
      constructor; autorewrite with pops; rewrite ?G1, ?G2, ?G3, ?G4, ?G5; auto.
      * unfold h6, h5, h4; autorewrite with pops. exact B2.
      * unfold h6; autorewrite with pops. exact F2.
      * unfold h6, h5; autorewrite with pops. exact D2.
      * unfold h6, h5, h4, h3; autorewrite with pops. exact K5.
      * unfold h6, h5, h4, h3; autorewrite with pops. exact K7.
      * rewrite W2. exact Hsuf.
      * rewrite W2. exact K9'.
      * unfold h6, h5, h4, h3; autorewrite with pops. exact K16.
      * unfold h6, h5, h4, h3; autorewrite with pops. exact K21.
Qed.
End frame.
