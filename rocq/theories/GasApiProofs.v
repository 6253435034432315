(** Gas of API functions (C31, C33). *)
From Verif Require Import VmModel WpProofs EffProofs EffFrameProofs EffWalkProofs EffTopProofs CallSpec KeepProofs CallProofs
  InvSpec KindProofs OutProofs IdentProofs GasSpec GasProofs.
From Coq Require Import ZifyBool ZifyNat ZifyN.

(** * Computations that only spend gas *)
Section down.
Context `{E : env}.
Definition ticking (h : host) : Prop := in_frame h /\ counters_ok h /\ spent h <= max_i64.
Record ticked (h h' : host) : Prop := mkTicked {
  tk_ok : ticking h';
  tk_budget : budget h' = budget h;
  tk_spent : spent h <= spent h'
}.
Definition down {A} (m : M A) : Prop :=
  forall h h' r, ticking h -> m h = (h', r) -> r <> OFuel -> r <> OPanic -> ticked h h'.
Lemma ticked_refl h : ticking h -> ticked h h.
Proof. intros H. constructor; [exact H|reflexivity|lia]. Qed.
Lemma ticked_trans h1 h2 h3 : ticked h1 h2 -> ticked h2 h3 -> ticked h1 h3.
Proof. intros [A1 A2 A3] [B1 B2 B3]. constructor; [exact B1|congruence|lia]. Qed.

Notation fgas := (fun h => (h_cur h, h_insts h, mt_forexec (h_met h))).
Lemma same_ticked h h' : fgas h' = fgas h -> ticking h -> ticked h h'.
Proof.
  intros [= H1 H2 H3] ((c & x & Hc & Hx) & Hk & Hs).
  assert (Hsp : spent h' = spent h) by (unfold spent; rewrite H1, H2; reflexivity).
  constructor; [|exact H3|lia]. split; [exists c, x; split; congruence|]. split; [|lia].
  intros j z Hz. rewrite H2 in Hz. exact (Hk j z Hz).
Qed.
Lemma down_keeps {A} (m : M A) : keeps fgas m -> down m.
Proof. intros Hm h h' r Ht H _ _. apply Hm in H. apply same_ticked; assumption. Qed.
Lemma down_bind {A B} (m : M A) (k : A -> M B) : down m -> (forall a, down (k a)) -> down (bind m k).
Proof.
  intros Hm Hk h h' r Ht H Hf Hp. unfold bind in H. destruct (m h) as [h1 o] eqn:Hmh.
  assert (ticked h h1) as H1.
  { apply (Hm _ _ _ Ht Hmh); intros ->; congruence. }
  destruct o as [a|e| |]; [|injection H as <- <-; exact H1..].
  eapply ticked_trans; [exact H1|]. exact (Hk a h1 h' r (tk_ok _ _ H1) H Hf Hp).
Qed.
Lemma down_try {A} (m : M A) : down m -> down (try m).
Proof.
  intros Hm h h' r Ht H Hf Hp. unfold try in H. destruct (m h) as [h1 o] eqn:Hmh.
  destruct o; injection H as <- <-; try congruence; apply (Hm _ _ _ Ht Hmh); discriminate.
Qed.
Lemma down_deferring {A B} (m : M A) (g : A + err -> M B) p : down m -> (forall a, down (g a)) -> down (deferring m g p).
Proof.
  intros Hm Hg h h' r Ht H Hf Hp. unfold deferring in H. destruct (m h) as [h1 o] eqn:Hmh.
  destruct o as [a|e| |].
  3: destruct (p h1) as [h2 []]; injection H as <- <-; congruence.
  3: injection H as <- <-; congruence.
  all: (assert (ticked h h1) as H1 by (apply (Hm _ _ _ Ht Hmh); discriminate)); eapply ticked_trans; [exact H1|];
    exact (Hg _ h1 h' r (tk_ok _ _ H1) H Hf Hp).
Qed.
Lemma ticked_inst h c x y : running_as h c x -> in_points x <= in_points y <= max_i64 -> ticking h -> ticked h (with_inst c y h).
Proof.
  intros Hr Hp (_ & Hk & Hs). pose proof (running_with_inst h c x y Hr) as Hy.
  assert (Hsp : spent (with_inst c y h) = in_points y) by apply (spent_run _ _ _ Hy).
  constructor; [|reflexivity|rewrite Hsp, (spent_run _ _ _ Hr); lia].
  split; [exists c, y; exact Hy|]. split; [|rewrite Hsp; lia].
  intros j z Hz. unfold with_inst in Hz. cbn in Hz. destruct (decide (c = j)) as [<-|Hj].
  - rewrite lookup_insert in Hz. injection Hz as <-. pose proof (Hk c x (proj2 Hr)). lia.
  - rewrite lookup_insert_ne in Hz by exact Hj. exact (Hk j z Hz).
Qed.
Lemma down_upd f : (forall x, in_points (f x) = in_points x) -> down (upd_inst f).
Proof.
  intros Hf h h' r Ht H _ _. destruct Ht as ((c & x & Hx) & Ht'). assert (ticking h) as Ht by (split; [exists c, x; exact Hx|exact Ht']).
  rewrite (upd_inst_run f h c x Hx) in H. injection H as <- <-. apply (ticked_inst h c x); [exact Hx| |exact Ht].
  rewrite Hf. destruct Ht' as [_ Hs]. rewrite (spent_run _ _ _ Hx) in Hs. lia.
Qed.
Lemma more_points_bound p g : 0 <= p <= max_i64 -> p <= more_points p g <= max_i64.
Proof.
  intros Hp. unfold more_points, AddUint64, AddUint64WithErr. cbv zeta.
  destruct ((p <=? u64 (p + g)) && (g <=? u64 (p + g))) eqn:Hb; unfold max_i64, max_u64 in *; [|split; [destruct (_ <? _); lia|destruct (_ <? _) eqn:?; lia]].
  destruct (_ <? u64 _) eqn:Hl; lia.
Qed.
Lemma down_UseGas g : down (UseGas g).
Proof.
  intros h h' r Ht H _ _. destruct Ht as ((c & x & Hx) & Ht'). assert (ticking h) as Ht by (split; [exists c, x; exact Hx|exact Ht']).
  rewrite (UseGas_run g h c x Hx) in H. injection H as <- <-. apply (ticked_inst h c x); [exact Hx| |exact Ht].
  destruct Ht' as [Hk Hs]. rewrite (spent_run _ _ _ Hx) in Hs. apply more_points_bound. pose proof (Hk c x (proj2 Hx)). lia.
Qed.
Lemma down_fail {A} e : down (fail e : M A).
Proof. apply down_keeps, keeps_fail. Qed.
Lemma down_ret {A} (a : A) : down (ret a).
Proof. apply down_keeps, keeps_ret. Qed.
Lemma down_panic {A} : down (panic : M A).
Proof. apply down_keeps, keeps_panic. Qed.
Lemma down_modify g : (forall h, fgas (g h) = fgas h) -> down (modify g).
Proof. intros H. apply down_keeps, keeps_modify, H. Qed.
End down.
Create HintDb down.
Global Hint Resolve down_UseGas : down.

Ltac dn :=
  repeat (intros;
  lazymatch goal with
  | |- down (bind _ _) => apply down_bind
  | |- down (try _) => apply down_try
  | |- down (deferring _ _ _) => apply down_deferring
  | |- down (ret _) => apply down_ret
  | |- down (fail _) => apply down_fail
  | |- down panic => apply down_panic
  | |- down (gets _) => apply down_keeps, keeps_gets
  | |- down (lift _) => apply down_keeps, keeps_lift
  | |- down (fail_if _ _) => apply down_keeps, keeps_fail_if
  | |- down cur_inst => apply down_keeps, keeps_cur_inst
  | |- down (upd_inst _) => apply down_upd; intros; reflexivity
  | |- down (modify _) => apply down_modify; intros; try reflexivity
  | |- down (if ?b then _ else _) => destruct b
  | |- down (match ?b with _ => _ end) => destruct b
  | |- down (let _ := _ in _) => cbv zeta
  | |- down (GetOutputAccount _) => apply down_keeps, keeps_GetOutputAccount; reflexivity
  | |- down (ProcessBuiltInFunction _) => apply down_keeps, keeps_Builtin; reflexivity
  | |- down (fun _ => _) => fail
  | |- down ?m => first [solve [eauto with down] | let g := head_of m in unfold g]
  end).

Section prims.
Context `{E : env} (HB : frugal_builtins).
Lemma down_big f : down (big_op f).
Proof. apply down_keeps. intros h h' r H. unfold big_op in H. destruct (f (h_big h)) as [m v]. injection H as <- <-. reflexivity. Qed.
Hint Resolve down_big : down.
Lemma down_TransferESDT d s t n v i : down (TransferESDT d s t n v i).
Proof. dn. Qed.
Lemma down_handleBuiltin i : down (handleBuiltinFunctionCall i).
Proof. dn. Qed.
Lemma down_CreateErr e : down (CreateVMOutputInCaseOfError e).
Proof. dn. Qed.
Lemma down_plain {B} ed es (p : prim B) : match prim_kind p with KDest | KByCaller | KSame | KReadOnly | KESDT | KCreate => False | _ => True end ->
  down (interp ed es p).
Proof.
  destruct p; cbn [prim_kind interp]; intros Hk; try contradiction; try destruct byCaller; try contradiction; dn.
Qed.

Lemma any_walk {A} (m : M A) h h' r : walk any_opts (true, true) m -> host_ok h -> m h = (h', r) -> r <> OFuel -> host_ok h'.
Proof.
  intros Hw Hok H Hr. exact (eff_host_ok _ _ _ _ Hok (Hw h h' r (any_good h (proj1 Hok)) H Hr)).
Qed.
Lemma sub_u64 a b : 0 <= b <= a -> a <= max_i64 -> SubUint64 a b = a - b.
Proof.
  intros H1 H2. unfold SubUint64, u64, u64_mod. unfold max_i64 in H2. rewrite (proj2 (Z.ltb_ge _ _)) by lia.
  apply Z.mod_small. lia.
Qed.
Lemma UseGas_spent g h h' r : ticking h -> 0 <= g -> spent h + g <= max_i64 -> UseGas g h = (h', r) -> spent h' = spent h + g.
Proof.
  intros ((c & x & Hx) & Hk & Hs) Hg Hm H. rewrite (UseGas_run g h c x Hx) in H. injection H as <- <-.
  rewrite (spent_run _ _ _ (running_with_inst _ _ _ _ Hx)), (spent_run _ _ _ Hx) in *. cbn [in_points set_in_points].
  apply more_points_add; [exact (Hk c x (proj2 Hx))|exact Hg|exact Hm].
Qed.
Lemma builtin_post i h h1 j o : ticking h -> vi_ctype (ci_vm i) <> AsynchronousCallBack ->
  spent h + vi_gas (ci_vm i) <= max_i64 ->
  handleBuiltinFunctionCall i h = (h1, OOk (Some j, o)) ->
  gas_input (ci_vm j) /\ spent h1 + handed (ci_vm j) <= max_i64.
Proof.
  intros Ht Hc Hm H. unfold handleBuiltinFunctionCall in H. unfold bind at 1 in H.
  destruct (callBuiltinFunction i h) as [h2 [[post o2]|?| |]] eqn:Hcb; try discriminate.
  unfold AddToActiveState in H. rewrite bind_modify in H. injection H as <- -> ->.
  unfold callBuiltinFunction in Hcb. unfold bind at 1, try in Hcb.
  destruct (ProcessBuiltInFunction i h) as [h3 [o3|e| |]] eqn:Hp; try discriminate.
  - assert (Hk : (h_cur h3, h_insts h3, mt_forexec (h_met h3)) = (h_cur h, h_insts h, mt_forexec (h_met h))).
    { revert Hp. apply (keeps_Builtin (fun h => (h_cur h, h_insts h, mt_forexec (h_met h)))). reflexivity. }
    destruct (same_ticked h h3 Hk Ht) as [T1 T2 T3].
    assert (Hsp : spent h3 = spent h). { injection Hk as K1 K2 K3. unfold spent. rewrite K1, K2. reflexivity. }
    assert (Hb : exists w, e_builtin E (h_world h) i = (w, ROk o3)).
    { unfold ProcessBuiltInFunction in Hp. destruct (e_builtin E (h_world h) i) as [w []]; try discriminate. injection Hp as <- <-. eauto. }
    unfold bind at 1, try in Hcb. destruct (lift _ h3) as [h4 [post|e| |]] eqn:Hl; try discriminate.
    + assert (h4 = h3 /\ isSCExecutionAfterBuiltInFunc i o3 = ROk post) as [-> Hi].
      { destruct (isSCExecutionAfterBuiltInFunc i o3); try discriminate. injection Hl as <- <-. auto. }
      unfold bind in Hcb. destruct (TrackGasUsedByBuiltinFunction _ _ _ h3) as [h5 [u|e| |]] eqn:Htr; try discriminate.
      injection Hcb as <- -> _.
      (* the input for the contract *)
      assert (exists a x t, o_accounts o3 !! a = Some x /\ In t (oa_transfers x) /\ vi_gas (ci_vm j) = ot_gaslimit t /\
        vi_locked (ci_vm j) = ot_gaslocked t /\ vi_ctype (ci_vm j) = vi_ctype (ci_vm i)) as (a & x & t & Ha & Hin & J1 & J2 & J3).
      { unfold isSCExecutionAfterBuiltInFunc in Hi. destruct (negb _); [discriminate|].
        destruct (if _ && _ then _ else _) as [rcp| |]; try discriminate. cbn [mbind res_bind] in Hi.
        destruct (negb _); [discriminate|]. destruct (negb _); [discriminate|].
        destruct (o_accounts o3 !! rcp) as [x|] eqn:Hx; [|discriminate].
        destruct (oa_transfers x) as [|t [|? ?]] eqn:Htt; try discriminate.
        destruct (ParseData (ot_data t)) as [[f args]| |]; try discriminate. cbn [mbind res_bind] in Hi.
        destruct (fillWithESDTValue i) as [ts| |]; try discriminate. cbn [mbind res_bind] in Hi. injection Hi as <-.
        exists rcp, x, t. split; [exact Hx|]. split; [rewrite Htt; left; reflexivity|]. auto. }
      destruct Hb as [w Hb]. destruct (HB _ _ _ _ _ _ _ Hb Ha Hin) as (G1 & G2 & G3 & G4).
      assert (Hh : handed (ci_vm j) = ot_gaslimit t).
      { unfold handed. rewrite J1, J3. destruct (vi_ctype (ci_vm i)); lia || contradiction. }
      assert (H0 : 0 <= spent h). { destruct Ht as ((c & y & Hy) & Hcn & _). rewrite (spent_run _ _ _ Hy). exact (Hcn c y (proj2 Hy)). }
      unfold TrackGasUsedByBuiltinFunction in Htr. cbv zeta in Htr. rewrite J1 in Htr.
      change (o_gasrem (dropTransfers o3)) with (o_gasrem o3) in Htr.
      rewrite !sub_u64 in Htr by (rewrite ?sub_u64; lia).
      apply UseGas_spent in Htr; [|exact T1|lia|lia].
      split.
      * unfold gas_input. rewrite J1, J2, Hh. unfold max_i64 in Hm. lia.
      * change (spent h5 + handed (ci_vm j) <= max_i64). lia.
    + unfold bind in Hcb. destruct (UseGas _ h4) as [h5 [u|e'| |]]; discriminate.
  - unfold bind in Hcb. destruct (UseGas _ h3) as [h5 [u|e'| |]]; discriminate.
Qed.

Lemma nb_down n i h h' r : host_ok h -> ticking h -> gas_input (ci_vm i) -> spent h + handed (ci_vm i) <= max_i64 ->
  executeOnDestContextNoBuiltinFunction (vmRun n) (vmDest n) i h = (h', r) -> r <> OFuel -> r <> OPanic -> ticked h h'.
Proof.
  intros [Hs Hw] Ht Hi Hm H Hf Hp.
  destruct (nb_shape n i h h' r Hs H Hf) as (hb & bo & h1 & o & _ & _ & _ & _ & _ & ro & _ & [(_ & y & _ & ->)|[-> _]]); [|congruence].
  destruct y as [[oo info] e]. destruct Ht as (T1 & T2 & T3).
  destruct (nb_gas n i h h' oo info e Hs Hw T1 T2 Hi Hm H) as (o' & _ & C1 & C2 & C3 & C4 & C5).
  assert (spent h <= spent h' <= max_i64) as [HA HB'].
  { destruct C5 as [->|(_ & _ & -> & _)]; lia. }
  constructor; [split; [exact C1|split; [exact C3|exact HB']]|exact C2|exact HA].
Qed.

Lemma k_bcPush : keeps (fun h => (h_cur h, h_insts h, mt_forexec (h_met h))) blockchain_PushState.
Proof. kp. Qed.
Lemma k_bcPopS : keeps (fun h => (h_cur h, h_insts h, mt_forexec (h_met h))) blockchain_PopSetActiveState.
Proof. kp. all: destruct (h_bcst h); reflexivity. Qed.
Lemma k_bcPopD : keeps (fun h => (h_cur h, h_insts h, mt_forexec (h_met h))) blockchain_PopDiscard.
Proof. kp. all: destruct (h_bcst h); reflexivity. Qed.

Lemma dest_down n i h h' r : host_ok h -> ticking h -> vi_ctype (ci_vm i) <> AsynchronousCallBack ->
  gas_input (ci_vm i) -> spent h + handed (ci_vm i) <= max_i64 ->
  vmDest n i h = (h', r) -> r <> OFuel -> r <> OPanic -> ticked h h'.
Proof.
  intros Hok Ht Hc Hi Hm H Hf Hp. destruct n as [|n]; [injection H as <- <-; congruence|].
  change (vmDest (S n) i h) with (ExecuteOnDestContext (vmRun n) (vmDest n) i h) in H.
  unfold ExecuteOnDestContext in H. rewrite (bind_ok _ _ h (bcPush h) tt) in H by reflexivity.
  assert (Hok1 : host_ok (bcPush h)) by exact Hok.
  assert (Ht1 : ticked h (bcPush h)) by (apply same_ticked; [reflexivity|exact Ht]).
  assert (Hrest : forall h1 (post : option call_input) (o : option vm_output), host_ok h1 -> ticked h h1 ->
    (forall j, post = Some j -> gas_input (ci_vm j) /\ spent h1 + handed (ci_vm j) <= max_i64) ->
    ('(o, info, e) <- match post with Some i => executeOnDestContextNoBuiltinFunction (vmRun n) (vmDest n) i | None => ret (o, None, None) end ;;
      match e with Some _ => blockchain_PopSetActiveState | None => blockchain_PopDiscard end ;;; ret (o, info, e)) h1 = (h', r) -> ticked h h').
  { intros h1 post o Hok2 Ht2 Hj HH. unfold bind at 1 in HH.
    lazymatch type of HH with (let (_, _) := ?t h1 in _) = _ => destruct (t h1) as [h2 o2] eqn:Hx end.
    assert (Ht3 : o2 <> OFuel -> o2 <> OPanic -> ticked h h2).
    { intros Q1 Q2. destruct post as [j|]; [|injection Hx as <- <-; exact Ht2].
      destruct (Hj j eq_refl) as [Hj1 Hj2]. eapply ticked_trans; [exact Ht2|].
      exact (nb_down n j h1 h2 o2 Hok2 (tk_ok _ _ Ht2) Hj1 Hj2 Hx Q1 Q2). }
    destruct o2 as [[[oo info] e]|e| |]; try (injection HH as <- <-; first [exact (False_ind _ (Hp eq_refl))|exact (False_ind _ (Hf eq_refl))|apply Ht3; discriminate]).
    assert (Hd : down (match e with Some _ => blockchain_PopSetActiveState | None => blockchain_PopDiscard end ;;; ret (oo, info, e))).
    { apply down_bind; [|intros; apply down_ret]. destruct e; apply down_keeps; [apply k_bcPopS|apply k_bcPopD]. }
    specialize (Ht3 ltac:(discriminate) ltac:(discriminate)).
    eapply ticked_trans; [exact Ht3|]. exact (Hd h2 h' r (tk_ok _ _ Ht3) HH Hf Hp). }
  unfold bind at 1 in H. destruct (e_isBuiltin E (ci_fn i)) eqn:Hbi.
  - unfold bind at 1, try in H. destruct (handleBuiltinFunctionCall i (bcPush h)) as [h1 o1] eqn:Hb.
    assert (Ht2 : o1 <> OFuel -> o1 <> OPanic -> ticked h h1).
    { intros Q1 Q2. eapply ticked_trans; [exact Ht1|]. exact (down_handleBuiltin i _ _ _ (tk_ok _ _ Ht1) Hb Q1 Q2). }
    assert (Hok2 : o1 <> OFuel -> host_ok h1).
    { intros Q1. apply (eff_host_ok true (bcPush h) h1 (pan o1) Hok1).
      exact (proj1 (handleBuiltin_eff any_opts (true, true) i _ _ _ (any_good _ (proj1 Hok1)) Hb Q1)). }
    destruct o1 as [[post o]|e| |]; [| |injection H as <- <-; first [exact (False_ind _ (Hp eq_refl))|exact (False_ind _ (Hf eq_refl))]..].
    + apply (Hrest h1 post (Some o)); [apply Hok2; discriminate|apply Ht2; discriminate| |exact H].
      intros j ->. refine (builtin_post i _ h1 j o (tk_ok _ _ Ht1) Hc _ Hb).
      unfold handed in Hm. destruct (vi_ctype (ci_vm i)); try contradiction; cbn in Hm; change (spent (bcPush h)) with (spent h); lia.
    + assert (Hd : down (blockchain_PopSetActiveState ;;; o <- CreateVMOutputInCaseOfError e ;; ret (Some o, @None async_info, Some e))).
      { apply down_bind; [apply down_keeps, k_bcPopS|]. intros _. apply down_bind; [apply down_CreateErr|]. intros; apply down_ret. }
      specialize (Ht2 ltac:(discriminate) ltac:(discriminate)).
      eapply ticked_trans; [exact Ht2|]. exact (Hd h1 h' r (tk_ok _ _ Ht2) H Hf Hp).
  - apply (Hrest (bcPush h) (Some i) None); [exact Hok1|exact Ht1| |exact H]. intros j [= <-]. split; [exact Hi|exact Hm].
Qed.
Lemma same_down n i h h' r : host_ok h -> ticking h -> gas_input (ci_vm i) -> spent h + handed (ci_vm i) <= max_i64 ->
  vmSame n i h = (h', r) -> r <> OFuel -> r <> OPanic -> ticked h h'.
Proof.
  intros Hok Ht Hi Hm H Hf Hp. destruct (e_isBuiltin E (ci_fn i)) eqn:Hbi.
  - destruct n as [|n]; [injection H as <- <-; congruence|].
    change (vmSame (S n) i h) with (ExecuteOnSameContext (vmRun n) (vmDest n) i h) in H.
    unfold ExecuteOnSameContext in H. rewrite Hbi in H. injection H as <- <-. apply ticked_refl, Ht.
  - destruct Ht as (T1 & T2 & T3). destruct (same_gas n i h h' r Hok T1 T2 Hbi Hi Hm H Hf Hp) as (back & (C1 & C2 & C3 & C4 & C5) & _).
    assert (spent h <= spent h' <= max_i64) as [HA HB'].
    { destruct C5 as [->|(_ & _ & -> & _)]; lia. }
    constructor; [split; [exact C1|split; [exact C3|exact HB']]|exact C2|exact HA].
Qed.

(** * API functions *)
Lemma bound_gas h g : 0 <= BoundGasLimit h g <= left_of h.
Proof.
  unfold BoundGasLimit. cbv zeta. rewrite left_gas. pose proof (Z.mod_pos_bound g u64_mod ltac:(reflexivity)) as Hb.
  change (g mod u64_mod) with (u64 g) in Hb. assert (0 <= left_of h) by (unfold left_of; lia).
  destruct (_ <? _) eqn:Hl; lia.
Qed.
Lemma bound_fits h g : metered h -> 0 <= g <= left_of h -> spent h + g <= max_i64 /\ g < 2 ^ 64.
Proof.
  intros ((c & x & Hx) & Hk & Hb & Hs) Hg. pose proof (Hk c x (proj2 Hx)) as H0. rewrite <-(spent_run _ _ _ Hx) in H0.
  unfold left_of in Hg. unfold max_i64 in *. lia.
Qed.
Lemma metered_ticked h h' : metered h -> ticked h h' -> metered h'.
Proof. intros (H1 & H2 & H3 & H4) [(T1 & T2 & T3) T4 _]. rewrite <-T4 in H3. split; [exact T1|]. split; [exact T2|]. split; assumption. Qed.
Lemma metered_ticking h : metered h -> ticking h.
Proof. intros (H1 & H2 & H3 & H4). split; [exact H1|split; assumption]. Qed.
Lemma indirect_fits h hs s v g d f args : metered hs -> left_of h <= left_of hs ->
  let i := indirect_input h s v g d f args in
  vi_ctype (ci_vm i) <> AsynchronousCallBack /\ gas_input (ci_vm i) /\ spent hs + handed (ci_vm i) <= max_i64.
Proof.
  intros Hm Hl i. pose proof (bound_gas h g) as Hg. destruct (bound_fits hs (BoundGasLimit h g) Hm ltac:(lia)) as [F1 F2].
  assert (Hh : handed (ci_vm i) = BoundGasLimit h g) by (unfold handed; cbn; lia).
  split; [discriminate|]. split; [|lia]. unfold gas_input. rewrite Hh. cbn. lia.
Qed.
Lemma exec_down n i h h' r : host_ok h -> metered h -> vi_ctype (ci_vm i) <> AsynchronousCallBack ->
  gas_input (ci_vm i) -> spent h + handed (ci_vm i) <= max_i64 ->
  exec_dest (vmDest n) i h = (h', r) -> r <> OFuel -> r <> OPanic -> ticked h h'.
Proof.
  intros Hok Hm H1 H2 H3 H Hf Hp. unfold exec_dest, bind in H. destruct (vmDest n i h) as [h1 o] eqn:Hd.
  assert (Ht : o <> OFuel -> o <> OPanic -> ticked h h1) by exact (dest_down n i h h1 o Hok (metered_ticking _ Hm) H1 H2 H3 Hd).
  destruct o as [[[oo info] [e|]]|e| |]; injection H as <- <-; try congruence; apply Ht; discriminate.
Qed.
(** the gas given to the call after a token transfer is left *)
Lemma TransferESDT_left d s t n v i h h' g : AreInSameShard s d && e_isSC E d = true ->
  TransferESDT d s t n v (Some i) h = (h', OOk g) -> 0 <= g <= left_of h' .
Proof.
  intros Hx H. apply andb_true_iff in Hx as [Hx1 Hx2]. unfold TransferESDT in H. rewrite Hx1, Hx2 in H. cbv zeta in H.
  rewrite bool_decide_eq_true_2 in H by (eexists; reflexivity). cbn [andb] in H.
  unfold bind at 1 in H. destruct (ExecuteESDTTransfer _ _ _ _ _ _ h) as [h1 [[o used]|e| |]]; try discriminate.
  destruct (vi_gas (ci_vm i) <? used) eqn:Hu; [discriminate|]. cbn [fail_if] in H. rewrite bind_ret in H.
  set (m := upd_account d _) in H. unfold GasLeft in H. rewrite bind_assoc, bind_gets in H. rewrite left_gas in H.
  destruct (left_of h1 <? _) eqn:Hl; [discriminate|]. cbn [fail_if] in H. rewrite !bind_assoc, !bind_ret in H.
  unfold bind at 1 in H. destruct (GetOutputAccount d h1) as [h2 [x|e| |]] eqn:Ho; try discriminate.
  assert (L2 : left_of h2 = left_of h1).
  { apply (keeps_GetOutputAccount left_of) in Ho; [exact Ho|reflexivity]. }
  unfold bind at 1 in H. destruct (m h2) as [h3 [[]|e| |]] eqn:Hm; try discriminate.
  assert (L3 : left_of h3 = left_of h2).
  { assert (K : forall f, keeps left_of (upd_account d f)) by (intros f; kp). exact (K _ _ _ _ Hm). }
  rewrite bind_modify in H. injection H as <- <-. change (0 <= vi_gas (ci_vm i) - used <= left_of h3). lia.
Qed.

Lemma interp_down {B} n (p : prim B) h h' r : prim_kind p <> KCreate -> host_ok h -> metered h ->
  interp (vmDest n) (vmSame n) p h = (h', r) -> r <> OFuel -> r <> OPanic -> ticked h h'.
Proof.
  intros Hk Hok Hm H Hf Hp. pose proof (metered_ticking h Hm) as Ht.
  destruct p; try solve [refine (down_plain (vmDest n) (vmSame n) _ _ h h' r Ht H Hf Hp); exact I]; cbn [interp] in H.
  - rewrite bind_gets in H. destruct (indirect_fits h h (if byCaller then vi_caller (vm_in h) else sc_address h) value gasLimit dest function args Hm ltac:(lia)) as (F1 & F2 & F3).
    exact (exec_down n _ h h' r Hok Hm F1 F2 F3 H Hf Hp).
  - rewrite bind_gets in H. destruct (indirect_fits h h (sc_address h) value gasLimit dest function args Hm ltac:(lia)) as (F1 & F2 & F3).
    exact (same_down n _ h h' r Hok Ht F2 F3 H Hf Hp).
  - rewrite bind_gets in H. destruct (indirect_fits h h (sc_address h) (vi_value (vm_in h)) gasLimit dest function args Hm ltac:(lia)) as (F1 & F2 & F3).
    unfold SetReadOnly at 1 in H. rewrite bind_modify in H. set (h1 := set_h_trace _ _) in H.
    assert (Ht1 : ticked h h1) by (apply same_ticked; [reflexivity|exact Ht]).
    unfold bind at 1, try in H. destruct (vmSame n _ h1) as [h2 o] eqn:Hs.
    assert (Ht2 : o <> OFuel -> o <> OPanic -> ticked h h2).
    { intros Q1 Q2. eapply ticked_trans; [exact Ht1|]. exact (same_down n _ h1 h2 o Hok (tk_ok _ _ Ht1) F2 F3 Hs Q1 Q2). }
    destruct o as [u|e| |]; [| |injection H as <- <-; first [exact (False_ind _ (Hp eq_refl))|exact (False_ind _ (Hf eq_refl))]..];
      specialize (Ht2 ltac:(discriminate) ltac:(discriminate)); unfold SetReadOnly in H; rewrite bind_modify in H; injection H as <- <-;
      (eapply ticked_trans; [exact Ht2|]; apply same_ticked; [reflexivity|exact (tk_ok _ _ Ht2)]).
  - unfold esdt_execute in H. rewrite bind_gets in H. cbv zeta in H. unfold bind at 1, try in H.
    set (i0 := set_ci_vm _ _) in H. destruct (TransferESDT _ _ _ _ _ (Some i0) h) as [h1 o] eqn:Htr.
    assert (Ht1 : o <> OFuel -> o <> OPanic -> ticked h h1) by exact (down_TransferESDT _ _ _ _ _ _ h h1 o Ht Htr).
    assert (Hok1 : o <> OFuel -> host_ok h1).
    { apply (any_walk _ _ _ _ (walk_TransferESDT any_opts (true, true) _ _ _ _ _ _) Hok Htr). }
    destruct o as [g|e| |]; [| |injection H as <- <-; first [exact (False_ind _ (Hp eq_refl))|exact (False_ind _ (Hf eq_refl))]..];
      specialize (Ht1 ltac:(discriminate) ltac:(discriminate)); specialize (Hok1 ltac:(discriminate)).
    + destruct (AreInSameShard (sc_address h) dest && e_isSC E dest) eqn:Hx; [|injection H as <- <-; exact Ht1].
      pose proof (TransferESDT_left _ _ _ _ _ _ _ _ _ Hx Htr) as Hg. pose proof (metered_ticked h h1 Hm Ht1) as Hm1.
      destruct (bound_fits h1 g Hm1 Hg) as [G1 G2]. unfold bind at 1, try in H.
      set (i1 := set_ci_vm _ i0) in H. destruct (exec_dest (vmDest n) i1 h1) as [h2 o] eqn:He.
      assert (Hh : handed (ci_vm i1) = g) by (unfold handed; cbn; lia).
      assert (Ht2 : o <> OFuel -> o <> OPanic -> ticked h h2).
      { intros Q1 Q2. eapply ticked_trans; [exact Ht1|]. refine (exec_down n i1 h1 h2 o Hok1 Hm1 _ _ _ He Q1 Q2); [discriminate| |lia].
        unfold gas_input. rewrite Hh. cbn. lia. }
      destruct o as [u|e| |]; [| |injection H as <- <-; first [exact (False_ind _ (Hp eq_refl))|exact (False_ind _ (Hf eq_refl))]..];
        specialize (Ht2 ltac:(discriminate) ltac:(discriminate)).
      * injection H as <- <-. exact Ht2.
      * rewrite bind_modify in H. injection H as <- <-. eapply ticked_trans; [exact Ht2|]. apply same_ticked; [reflexivity|exact (tk_ok _ _ Ht2)].
    + assert (Hd : down (WithFault e ;;; ret 1)) by dn. eapply ticked_trans; [exact Ht1|]. exact (Hd h1 h' r (tk_ok _ _ Ht1) H Hf Hp).
  - contradiction.
Qed.
Definition no_create (k : kind) : bool := match k with KCreate => false | _ => true end.
Lemma cmd_down n c : cmd_all no_create c -> forall h h' r, host_ok h -> metered h ->
  run_cmd (vmDest n) (vmSame n) c h = (h', r) -> r <> OFuel -> r <> OPanic -> ticked h h'.
Proof.
  induction c as [x| |B p k IH]; intros Hc h h' r Hok Hm H Hf Hp.
  - injection H as <- <-. apply ticked_refl, metered_ticking, Hm.
  - injection H as <- <-. congruence.
  - destruct Hc as [Hk Hc]. cbn [run_cmd] in H. unfold bind at 1, try in H.
    destruct (interp (vmDest n) (vmSame n) p h) as [h1 o] eqn:Hi.
    assert (Ht1 : o <> OFuel -> o <> OPanic -> ticked h h1).
    { refine (interp_down n p h h1 o _ Hok Hm Hi). intros Hk'. rewrite Hk' in Hk. discriminate. }
    assert (Hok1 : o <> OFuel -> host_ok h1).
    { intros Q. destruct (walk_vm any_opts any_codes n) as [W1 W2].
      apply (eff_host_ok false h h1 (pan o) Hok).
      refine (walk_interp any_opts any_codes _ _ W1 W2 false p _ h h1 o (any_good h (proj1 Hok)) Hi Q). destruct p; cbn; auto. }
    destruct o as [b|e| |]; [| |injection H as <- <-; first [exact (False_ind _ (Hp eq_refl))|exact (False_ind _ (Hf eq_refl))]..];
      specialize (Ht1 ltac:(discriminate) ltac:(discriminate)); specialize (Hok1 ltac:(discriminate));
      (eapply ticked_trans; [exact Ht1|]); exact (IH _ (Hc _) h1 h' r Hok1 (metered_ticked _ _ Hm Ht1) H Hf Hp).
Qed.
Lemma api_down n c h h' r : ~ is_deploy c -> host_ok h -> metered h -> vmApi n c h = (h', r) -> r <> OFuel -> r <> OPanic ->
  metered h' /\ budget h' = budget h /\ spent h <= spent h' /\ left_of h' <= left_of h.
Proof.
  intros Hd Hok Hm H Hf Hp.
  assert (Ht : ticked h h').
  { refine (cmd_down n (api c) _ h h' r Hok Hm H Hf Hp). apply (cmd_all_weaken (api_kind c)); [|apply api_kinds].
    intros k Hk. destruct k; try reflexivity. destruct c; try discriminate; exfalso; apply Hd; exact I. }
  split; [exact (metered_ticked _ _ Hm Ht)|]. destruct Ht as [_ T1 T2]. split; [exact T1|]. split; [exact T2|].
  unfold left_of. lia.
Qed.

(** ** The gas given to nested calls *)
End prims.
Section inputs.
Context `{E : env} (ed1 ed2 : edf) (es1 es2 : call_input -> M unit).
Context (Hd : forall i h, affordable i h -> ed1 i h = ed2 i h) (Hs : forall i h, affordable i h -> es1 i h = es2 i h).
Lemma afford_indirect h hs s v g d f args : left_of h = left_of hs -> affordable (indirect_input h s v g d f args) hs.
Proof.
  intros Hl. pose proof (bound_gas h g). split; [|reflexivity]. assert (handed (ci_vm (indirect_input h s v g d f args)) = BoundGasLimit h g) by (unfold handed; cbn; lia).
  lia.
Qed.
Lemma afford_exec i h : affordable i h -> exec_dest ed1 i h = exec_dest ed2 i h.
Proof. intros H. apply agree_bind; [apply Hd, H|reflexivity]. Qed.
Lemma afford_interp {B} (p : prim B) h : no_create (prim_kind p) = true -> interp ed1 es1 p h = interp ed2 es2 p h.
Proof.
  destruct p; intros Hp; try reflexivity; try discriminate; cbn [interp].
  - apply agree_bind; [reflexivity|]. intros i h1 [= <- <-]. apply afford_exec, afford_indirect. reflexivity.
  - apply agree_bind; [reflexivity|]. intros i h1 [= <- <-]. apply Hs, afford_indirect. reflexivity.
  - apply agree_bind; [reflexivity|]. intros i h1 [= <- <-]. apply agree_bind; [reflexivity|]. intros [] h2 [= <-].
    apply agree_bind; [apply agree_try, Hs, afford_indirect; reflexivity|reflexivity].
  - unfold esdt_execute. rewrite !bind_gets. cbv zeta. apply agree_bind; [reflexivity|].
    intros [g|e] h1 H1; [|reflexivity]. destruct (_ && _) eqn:Hx; [|reflexivity].
    apply agree_bind; [|reflexivity]. apply agree_try, afford_exec.
    unfold try in H1. set (i0 := set_ci_vm _ _) in H1. destruct (TransferESDT _ _ _ _ _ (Some i0) h) as [h2 [g2|?| |]] eqn:Htr; try discriminate.
    injection H1 as -> ->. pose proof (TransferESDT_left _ _ _ _ _ _ _ _ _ Hx Htr). split; [|reflexivity]. unfold handed. cbn. lia.
Qed.
Lemma afford_cmd c : cmd_all no_create c -> forall h, run_cmd ed1 es1 c h = run_cmd ed2 es2 c h.
Proof.
  induction c as [r| |B p k IH]; intros Hc h; [reflexivity..|]. destruct Hc as [Hp Hk]. cbn [run_cmd].
  apply agree_bind; [apply agree_try, afford_interp, Hp|]. intros x h1 _. apply IH, Hk.
Qed.
Lemma afford_api c h : ~ is_deploy c -> run_cmd ed1 es1 (api c) h = run_cmd ed2 es2 (api c) h.
Proof.
  intros Hc. apply afford_cmd. apply (cmd_all_weaken (api_kind c)); [|apply api_kinds].
  intros k Hk. destruct k; try reflexivity. destruct c; try discriminate; exfalso; apply Hc; exact I.
Qed.
End inputs.
