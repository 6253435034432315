(** Proofs for C29: the recursion fuel of the model is enough, because the host
    refuses to start an eleventh instance. *)
From Verif Require Import VmModel WpProofs EffProofs EffFrameProofs EffWalkProofs EffTopProofs CallSpec KeepProofs.

(** ** No fuel is asked for *)
Definition nf {A} (m : M A) : Prop := forall h, snd (m h) <> OFuel.
Section nf.
Lemma nf_ret {A} (a : A) : nf (ret a). Proof. intros h; discriminate. Qed.
Lemma nf_fail {A} e : nf (fail e : M A). Proof. intros h; discriminate. Qed.
Lemma nf_panic {A} : nf (panic : M A). Proof. intros h; discriminate. Qed.
Lemma nf_gets {A} (g : host -> A) : nf (gets g). Proof. intros h; discriminate. Qed.
Lemma nf_modify g : nf (modify g). Proof. intros h; discriminate. Qed.
Lemma nf_lift {A} (x : res A) : nf (lift x). Proof. intros h. destruct x; discriminate. Qed.
Lemma nf_fail_if b e : nf (fail_if b e). Proof. intros h. destruct b; discriminate. Qed.
Lemma nf_bind {A B} (m : M A) (k : A -> M B) : nf m -> (forall a, nf (k a)) -> nf (bind m k).
Proof. intros Hm Hk h. unfold bind. specialize (Hm h). destruct (m h) as [h1 []]; [apply Hk|discriminate..|destruct Hm; reflexivity]. Qed.
Lemma nf_try {A} (m : M A) : nf m -> nf (try m).
Proof. intros Hm h. unfold try. specialize (Hm h). destruct (m h) as [h1 []]; first [discriminate|destruct Hm; reflexivity]. Qed.
Lemma nf_deferring {A B} (m : M A) (g : A + err -> M B) p : nf m -> (forall x, nf (g x)) -> nf p -> nf (deferring m g p).
Proof.
  intros Hm Hg Hp h. unfold deferring. specialize (Hm h). destruct (m h) as [h1 []]; [apply Hg..| |destruct Hm; reflexivity].
  specialize (Hp h1). destruct (p h1) as [h2 []]; first [discriminate|destruct Hp; reflexivity].
Qed.
Lemma nf_cur_inst : nf cur_inst.
Proof. intros h. unfold cur_inst. destruct (h_cur h); [|discriminate]. destruct (h_insts h !! _); discriminate. Qed.
Lemma nf_GetOutputAccount a : nf (GetOutputAccount a).
Proof. intros h. unfold GetOutputAccount. destruct (accounts h !! a); discriminate. Qed.
Lemma nf_Builtin `{E : env} i : nf (ProcessBuiltInFunction i).
Proof. intros h. unfold ProcessBuiltInFunction. destruct (e_builtin _ _ _) as [w []]; discriminate. Qed.
Lemma nf_new m g : nf (new_instance m g). Proof. intros h. discriminate. Qed.
Lemma nf_clean : nf CleanWasmerInstance.
Proof. intros h. unfold CleanWasmerInstance. destruct (h_cur h); discriminate. Qed.
Lemma nf_popi : nf popInstance.
Proof.
  intros h. unfold popInstance. destruct (h_ist h); [discriminate|]. destruct (bool_decide _); [discriminate|].
  apply nf_bind; [apply nf_clean|]. intros _. apply nf_modify.
Qed.
Lemma nf_rtPop : nf runtime_PopSetActiveState.
Proof. intros h. unfold runtime_PopSetActiveState. destruct (h_rtst h); [discriminate|apply nf_popi]. Qed.
Lemma nf_big f : nf (big_op f).
Proof. intros h. unfold big_op. destruct (f (h_big h)). discriminate. Qed.
End nf.
Global Hint Resolve nf_ret nf_fail nf_panic nf_gets nf_modify nf_lift nf_fail_if nf_cur_inst nf_GetOutputAccount nf_Builtin nf_new nf_clean nf_popi nf_rtPop nf_big : nf.
Ltac nf := repeat (intros;
  lazymatch goal with
  | |- nf (bind _ _) => apply nf_bind
  | |- nf (try _) => apply nf_try
  | |- nf (deferring _ _ _) => apply nf_deferring
  | |- nf (if ?b then _ else _) => destruct b
  | |- nf (match ?b with _ => _ end) => destruct b
  | |- nf (let _ := _ in _) => cbv zeta
  | |- nf (fun _ => _) => fail
  | |- nf ?m => first [solve [eauto with nf] | let g := head_of m in unfold g]
  end).
Section nf2.
Context `{E : env}.
Lemma nf_finishDest e : nf (finishExecuteOnDestContext e). Proof. nf. Qed.
Lemma nf_finishSame e : nf (finishExecuteOnSameContext e). Proof. nf. Qed.
Lemma nf_Start c g n : nf (StartWasmerInstance c g n). Proof. nf. Qed.
Lemma nf_handleBuiltin i : nf (handleBuiltinFunctionCall i). Proof. nf. Qed.
End nf2.

(** ** The depths of the two stacks of the runtime are kept *)
Definition dep (h : host) : nat * nat := (length (h_ist h), length (h_rtst h)).
Section depth.
Context `{E : env} (v : nat * nat).

Definition fu {A} (m : M A) (Q : A -> Prop) : Prop := forall h h' r, dep h = v -> m h = (h', r) ->
  match r with OOk a => dep h' = v /\ Q a | OErr _ => dep h' = v | OPanic => True | OFuel => False end.
Lemma fu_plain {A} (m : M A) : keeps dep m -> nf m -> fu m (fun _ => True).
Proof.
  intros Hk Hn h h' r Hh H. pose proof (Hk _ _ _ H) as Hd. pose proof (Hn h) as Hf. rewrite H in Hf. cbn [snd] in Hf. rewrite Hh in Hd.
  destruct r; [split; [exact Hd|exact I]|exact Hd|exact I|apply Hf; reflexivity].
Qed.
Lemma fu_weak {A} (m : M A) Q : fu m Q -> fu m (fun _ => True).
Proof. intros Hm h h' r Hh H. specialize (Hm _ _ _ Hh H). destruct r; [split; [apply Hm|exact I]|exact Hm..]. Qed.
Lemma fu_bind {A B} (m : M A) (k : A -> M B) Q R : fu m Q -> (forall a, Q a -> fu (k a) R) -> fu (bind m k) R.
Proof.
  intros Hm Hk h h' r Hh H. unfold bind in H. destruct (m h) as [h1 o] eqn:Hmh. specialize (Hm _ _ _ Hh Hmh).
  destruct o; [exact (Hk _ (proj2 Hm) _ _ _ (proj1 Hm) H)|injection H as <- <-; exact Hm..].
Qed.
Lemma fu_try {A} (m : M A) Q : fu m Q -> fu (try m) (fun x => match x with inl a => Q a | inr _ => True end).
Proof.
  intros Hm h h' r Hh H. unfold try in H. destruct (m h) as [h1 o] eqn:Hmh. specialize (Hm _ _ _ Hh Hmh).
  destruct o; injection H as <- <-; [exact Hm|split; [exact Hm|exact I]|exact I|exact Hm].
Qed.
Lemma fu_post {A} (m : M A) (Q : A -> Prop) : fu m (fun _ => True) -> (forall a, Q a) -> fu m Q.
Proof. intros Hm HQ h h' r Hh H. specialize (Hm _ _ _ Hh H). destruct r; [split; [apply Hm|apply HQ]|exact Hm..]. Qed.
Lemma fu_ret {A} (a : A) (Q : A -> Prop) : Q a -> fu (ret a) Q.
Proof. intros Ha h h' r Hh [= <- <-]. split; assumption. Qed.
Lemma fu_fail {A} e (Q : A -> Prop) : fu (fail e) Q.
Proof. intros h h' r Hh [= <- <-]. exact Hh. Qed.
Lemma fu_panic {A} (Q : A -> Prop) : fu panic Q.
Proof. intros h h' r Hh [= <- <-]. exact I. Qed.

Lemma d_CleanWasmer : keeps dep CleanWasmerInstance.
Proof. intros h h' r H. unfold CleanWasmerInstance in H. destruct (h_cur h); injection H as <- <-; reflexivity. Qed.
Lemma d_new m g : keeps dep (new_instance m g).
Proof. intros h h' r [= <- <-]. reflexivity. Qed.
Lemma d_big f : keeps dep (big_op f).
Proof. intros h h' r H. unfold big_op in H. destruct (f (h_big h)). injection H as <- <-. reflexivity. Qed.
End depth.
Global Hint Resolve d_CleanWasmer d_new d_big : keeps.
Create HintDb fu.
Ltac pl := apply fu_plain; [solve [kp; cbv zeta; repeat case_match; reflexivity]|solve [nf]].

Section body.
Context `{E : env} (d e : nat) (run : prog -> M bool) (rd : edf)
  (Hrun : (d < 10)%nat -> forall p, fu (d, e) (run p) (fun _ => True))
  (Hrd : (d < 10)%nat -> forall i, fu (d, e) (rd i) (fun _ => True)).
Notation FU m := (fu (d, e) m (fun _ => True)).

Lemma fu_Start c g n : fu (d, e) (StartWasmerInstance c g n) (fun _ => (d < 10)%nat).
Proof.
  intros h h' r Hh H. pose proof (nf_Start c g n h) as Hf. rewrite H in Hf.
  assert (Hk : keeps dep (StartWasmerInstance c g n)) by (kp; cbv zeta; repeat case_match; reflexivity).
  pose proof (Hk _ _ _ H) as Hd. rewrite Hh in Hd. destruct r; [|exact Hd|exact I|apply Hf; reflexivity].
  split; [exact Hd|]. apply Start_shallow in H. unfold shallow in H. injection Hd as Hd _. lia.
Qed.
Lemma fu_map_err {A} (m : M A) f Q : fu (d, e) m Q -> fu (d, e) (map_err m f) Q.
Proof. intros Hm. unfold map_err. eapply fu_bind; [apply fu_try, Hm|]. intros [a|er] Ha; [apply fu_ret, Ha|apply fu_fail]. Qed.

Section started.
Context (Hd : (d < 10)%nat).
Ltac ff := repeat (intros;
  lazymatch goal with
  | |- fu _ (rd _) _ => apply Hrd, Hd
  | |- fu _ (run _) _ => apply Hrun, Hd
  | |- fu _ (ret _) _ => apply fu_ret; exact I
  | |- fu _ (fail _) _ => apply fu_fail
  | |- fu _ panic _ => apply fu_panic
  | |- fu _ (if ?b then _ else _) _ => destruct b
  | |- fu _ (match ?b with _ => _ end) _ => destruct b
  | |- fu _ (let _ := _ in _) _ => cbv zeta
  | |- fu _ (bind _ _) _ => apply fu_bind with (Q := fun _ => True)
  | |- fu _ (try _) _ => eapply fu_weak; apply fu_try with (Q := fun _ => True)
  | |- fu _ ?m _ => first [solve [eauto with fu] | solve [pl] | let g := head_of m in unfold g]
  end).
Lemma fu_break : FU (handleBreakpoint rd). Proof. ff. Qed.
Hint Resolve fu_break : fu.
Lemma fu_callFunction p : FU (callFunction run rd p). Proof. ff. Qed.
Hint Resolve fu_callFunction : fu.
Lemma fu_processOne f c : (forall s, FU (f s)) -> FU (processAsyncCall rd f c).
Proof. intros Hf. ff; apply Hf. Qed.
Lemma fu_processAll l : FU (processAsyncCalls rd l).
Proof.
  induction l as [|[[id i] c] l IH]; cbn [processAsyncCalls]; [ff|]. apply fu_bind with (Q := fun _ => True); [ff|intros can _].
  apply fu_bind with (Q := fun _ => True); [|intros; exact IH]. destruct can; [|ff]. apply fu_processOne. intros s. ff.
Qed.
Hint Resolve fu_processAll : fu.
Lemma fu_sendAll l : FU (sendAsyncCalls l).
Proof.
  induction l as [|c l IH]; cbn [sendAsyncCalls]; [ff|]. apply fu_bind with (Q := fun _ => True); [ff|intros can _].
  apply fu_bind with (Q := fun _ => True); [ff|intros; exact IH].
Qed.
Hint Resolve fu_sendAll : fu.
Lemma fu_info : FU (processAsyncInfo rd). Proof. ff. Qed.
Hint Resolve fu_info : fu.
Lemma fu_callInit : FU (callInitFunction run rd). Proof. ff. Qed.
Lemma fu_callSC : FU (callSCMethod run rd). Proof. ff. Qed.
Lemma fu_indirect : FU (callSCMethodIndirect run rd). Proof. ff. Qed.
End started.
Lemma fu_deploy dd : FU (deployContract run rd dd).
Proof.
  unfold deployContract. apply fu_bind with (Q := fun _ => True); [pl|intros _ _]. apply fu_bind with (Q := fun _ => True); [pl|intros _ _].
  apply fu_bind with (Q := fun _ => True); [pl|intros g _]. eapply fu_bind; [apply fu_map_err, fu_Start|]. intros ? Hd. cbv beta in Hd.
  apply fu_bind with (Q := fun _ => True); [apply fu_callInit, Hd|intros _ _]. pl.
Qed.

Lemma fu_execute i : fu (d, e) (execute run rd i) (fun _ => (d < 10)%nat).
Proof.
  unfold execute. apply fu_bind with (Q := fun _ => True); [pl|intros fn _]. apply fu_bind with (Q := fun _ => True); [pl|intros _ _].
  apply fu_bind with (Q := fun _ => True); [pl|intros _ _]. destruct (beq _ _).
  - unfold executeUpgrade, deployContract. apply fu_bind with (Q := fun _ => True); [pl|intros w _]. apply fu_bind with (Q := fun _ => True); [pl|intros _ _].
    apply fu_bind with (Q := fun _ => True); [pl|intros [code meta] _].
    assert (Hdep : fu (d, e) (deployContract run rd (mkDeploy code meta (ci_rcpt i) (vi_caller (ci_vm i)))) (fun _ => (d < 10)%nat)).
    { unfold deployContract. apply fu_bind with (Q := fun _ => True); [pl|intros _ _]. apply fu_bind with (Q := fun _ => True); [pl|intros _ _].
      apply fu_bind with (Q := fun _ => True); [pl|intros g _]. eapply fu_bind; [apply fu_map_err, fu_Start|]. intros ? Hd. cbv beta in Hd.
      apply fu_bind with (Q := fun _ => True); [apply fu_callInit, Hd|intros _ _]. apply fu_post; [pl|intros _; exact Hd]. }
    eapply fu_bind; [exact Hdep|]. intros ? Hd. cbv beta in Hd. apply fu_post; [pl|intros _; exact Hd].
  - apply fu_bind with (Q := fun _ => True); [pl|intros c _]. apply fu_bind with (Q := fun _ => True); [pl|intros _ _].
    apply fu_bind with (Q := fun _ => True); [pl|intros g _]. eapply fu_bind; [apply fu_Start|]. intros ? Hd. cbv beta in Hd.
    apply fu_bind with (Q := fun _ => True); [apply fu_indirect, Hd|intros _ _]. apply fu_post; [pl|intros _; exact Hd].
Qed.
Lemma fu_transfer a b c f : FU (TransferValueOnly a b c f).
Proof. pl. Qed.
Lemma fu_destBody i : FU (destBody run rd i).
Proof.
  unfold destBody. eapply fu_bind; [apply fu_try; apply fu_bind with (Q := fun _ => True); [destruct (_ || _); [apply fu_transfer|apply fu_ret; exact I]|intros _ _; apply fu_execute]|].
  intros [u|er] Hd; [|apply fu_ret; exact I]. cbv beta iota in Hd. eapply fu_bind; [apply fu_try, fu_info, Hd|]. intros x _.
  apply fu_bind with (Q := fun _ => True); [pl|]. intros info _. apply fu_ret. exact I.
Qed.
Lemma fu_sameBody a b c i : FU (TransferValueOnly a b c false ;;; execute run rd i).
Proof. apply fu_bind with (Q := fun _ => True); [apply fu_transfer|intros _ _]. eapply fu_weak, fu_execute. Qed.
End body.

(** ** Leaving a frame *)
Definition ne {A} (m : M A) : Prop := forall h er, snd (m h) <> OErr er.
Section ne.
Lemma ne_ret {A} (a : A) : ne (ret a). Proof. intros h er; discriminate. Qed.
Lemma ne_panic {A} : ne (panic : M A). Proof. intros h er; discriminate. Qed.
Lemma ne_gets {A} (g : host -> A) : ne (gets g). Proof. intros h er; discriminate. Qed.
Lemma ne_modify g : ne (modify g). Proof. intros h er; discriminate. Qed.
Lemma ne_try {A} (m : M A) : ne (try m).
Proof. intros h er. unfold try. destruct (m h) as [h1 []]; discriminate. Qed.
Lemma ne_bind {A B} (m : M A) (k : A -> M B) : ne m -> (forall a, ne (k a)) -> ne (bind m k).
Proof. intros Hm Hk h er. unfold bind. specialize (Hm h). destruct (m h) as [h1 []]; [apply Hk|destruct (Hm e); reflexivity|discriminate..]. Qed.
Lemma ne_cur_inst : ne cur_inst.
Proof. intros h er. unfold cur_inst. destruct (h_cur h); [|discriminate]. destruct (h_insts h !! _); discriminate. Qed.
Lemma ne_GetOutputAccount a : ne (GetOutputAccount a).
Proof. intros h er. unfold GetOutputAccount. destruct (accounts h !! a); discriminate. Qed.
Lemma ne_clean : ne CleanWasmerInstance.
Proof. intros h er. unfold CleanWasmerInstance. destruct (h_cur h); discriminate. Qed.
End ne.
Global Hint Resolve ne_ret ne_panic ne_gets ne_modify ne_try ne_cur_inst ne_GetOutputAccount ne_clean : ne.
Ltac ne := repeat (intros;
  lazymatch goal with
  | |- ne (bind _ _) => apply ne_bind
  | |- ne (if ?b then _ else _) => destruct b
  | |- ne (match ?b with _ => _ end) => destruct b
  | |- ne (let _ := _ in _) => cbv zeta
  | |- ne (fun _ => _) => fail
  | |- ne ?m => first [solve [eauto with ne] | let g := head_of m in unfold g]
  end).
Definition goes {A} (v w : nat * nat) (m : M A) : Prop := forall h h' r, dep h = v -> m h = (h', r) ->
  match r with OOk _ => dep h' = w | OPanic => True | _ => False end.
Lemma goes_stay {A} v (m : M A) : keeps dep m -> nf m -> ne m -> goes v v m.
Proof.
  intros Hk Hn He h h' r Hh H. pose proof (Hk _ _ _ H) as Hd. pose proof (Hn h) as Hf. pose proof (He h) as Hg. rewrite H in Hf, Hg. cbn [snd] in Hf, Hg. rewrite Hh in Hd.
  destruct r; [exact Hd|exact (Hg _ eq_refl)|exact I|exact (Hf eq_refl)].
Qed.
Lemma goes_bind {A B} u v w (m : M A) (k : A -> M B) : goes u v m -> (forall a, goes v w (k a)) -> goes u w (bind m k).
Proof.
  intros Hm Hk h h' r Hh H. unfold bind in H. destruct (m h) as [h1 o] eqn:Hmh. specialize (Hm _ _ _ Hh Hmh).
  destruct o; [exact (Hk _ _ _ _ Hm H)|destruct Hm|injection H as <- <-; exact I|destruct Hm].
Qed.
Lemma goes_rtPop d e : goes (S d, S e) (d, e) runtime_PopSetActiveState.
Proof.
  intros h h' r Hh H. unfold dep in Hh. injection Hh as H1 H2. unfold runtime_PopSetActiveState in H. destruct (h_rtst h) as [|f s] eqn:Hs; [discriminate|].
  unfold popInstance in H. change (h_ist (set_h_rtst s (set_h_rt f h))) with (h_ist h) in H. destruct (h_ist h) as [|p t] eqn:Ht; [discriminate|].
  cbn [length] in H1, H2. injection H1 as H1. injection H2 as H2. destruct (bool_decide _).
  - injection H as <- <-. unfold dep. cbn. congruence.
  - assert (K : keeps dep (CleanWasmerInstance ;;; modify (set_h_cur p))) by (apply keeps_bind; [apply d_CleanWasmer|intros; apply keeps_modify; reflexivity]).
    assert (N : nf (CleanWasmerInstance ;;; modify (set_h_cur p))) by nf.
    assert (N' : ne (CleanWasmerInstance ;;; modify (set_h_cur p))) by ne.
    pose proof (goes_stay (d, e) _ K N N' (set_h_ist t (set_h_rtst s (set_h_rt f h))) h' r) as G. apply G; [|exact H]. unfold dep. cbn. congruence.
Qed.
Ltac st := apply goes_stay; [solve [kp; cbv zeta; repeat case_match; reflexivity]|solve [nf]|solve [ne]].
Section vm.
Context `{E : env}.
Lemma goes_finishDest d e er : goes (S d, S e) (d, e) (finishExecuteOnDestContext er).
Proof.
  unfold finishExecuteOnDestContext. apply goes_bind with (v := (S d, S e)); [destruct er; st|intros o].
  apply goes_bind with (v := (S d, S e)); [st|intros _]. apply goes_bind with (v := (S d, S e)); [st|intros _].
  apply goes_bind with (v := (S d, S e)); [destruct (bool_decide _); st|intros _]. apply goes_bind with (v := (d, e)); [apply goes_rtPop|intros _].
  apply goes_bind with (v := (d, e)); [st|intros _]. st.
Qed.
Lemma goes_finishSame d e er : goes (S d, S e) (d, e) (finishExecuteOnSameContext er).
Proof.
  unfold finishExecuteOnSameContext. apply goes_bind with (v := (S d, S e)); [st|intros c]. destruct (_ || _).
  - do 3 (apply goes_bind with (v := (S d, S e)); [st|intros _]). apply goes_bind with (v := (d, e)); [apply goes_rtPop|intros _]. st.
  - apply goes_bind with (v := (S d, S e)); [st|intros o]. do 4 (apply goes_bind with (v := (S d, S e)); [st|intros _]).
    apply goes_bind with (v := (d, e)); [apply goes_rtPop|intros _]. st.
Qed.
Lemma fu_deferring {A B} v w (m : M A) (g : A + err -> M B) p :
  fu v m (fun _ => True) -> (forall x, forall h h' r, dep h = v -> g x h = (h', r) -> match r with OOk _ | OErr _ => dep h' = w | OPanic => True | OFuel => False end) ->
  nf p -> forall h h' r, dep h = v -> deferring m g p h = (h', r) -> match r with OOk _ | OErr _ => dep h' = w | OPanic => True | OFuel => False end.
Proof.
  intros Hm Hg Hp h h' r Hh H. unfold deferring in H. destruct (m h) as [h1 o] eqn:Hmh. specialize (Hm _ _ _ Hh Hmh).
  destruct o; [exact (Hg _ _ _ _ (proj1 Hm) H)|exact (Hg _ _ _ _ Hm H)| |destruct Hm].
  pose proof (Hp h1) as Hn. destruct (p h1) as [h2 [| | |]]; injection H as <- <-; try exact I. exact (Hn eq_refl).
Qed.
Lemma goes_fin {A} v w (m : M A) : goes v w m -> forall h h' r, dep h = v -> m h = (h', r) ->
  match r with OOk _ | OErr _ => dep h' = w | OPanic => True | OFuel => False end.
Proof. intros Hm h h' r Hh H. specialize (Hm _ _ _ Hh H). destruct r; tauto. Qed.
Lemma fin_bind {A B} u v w (m : M A) (k : A -> M B) : goes u v m -> (forall a, forall h h' r, dep h = v -> k a h = (h', r) ->
  match r with OOk _ | OErr _ => dep h' = w | OPanic => True | OFuel => False end) -> forall h h' r, dep h = u -> bind m k h = (h', r) ->
  match r with OOk _ | OErr _ => dep h' = w | OPanic => True | OFuel => False end.
Proof.
  intros Hm Hk h h' r Hh H. unfold bind in H. destruct (m h) as [h1 o] eqn:Hmh. specialize (Hm _ _ _ Hh Hmh).
  destruct o; [exact (Hk _ _ _ _ Hm H)|destruct Hm|injection H as <- <-; exact I|destruct Hm].
Qed.

Section step.
Context (d e : nat) (run : prog -> M bool) (rd : edf)
  (Hrun : (S d < 10)%nat -> forall p, fu (S d, S e) (run p) (fun _ => True))
  (Hrd : (S d < 10)%nat -> forall i, fu (S d, S e) (rd i) (fun _ => True)).
Lemma fu_nb i : fu (d, e) (executeOnDestContextNoBuiltinFunction run rd i) (fun _ => True).
Proof.
  intros h h' r Hh H. unfold executeOnDestContextNoBuiltinFunction in H. rewrite (bind_ok _ _ _ _ _ (pushDest_eq i h)) in H.
  assert (Hp : dep (destPush i h) = (S d, S e)) by (unfold dep in *; injection Hh as <- <-; reflexivity).
  eapply (fu_deferring _ (d, e)) in H; [| |  | |exact Hp].
  - destruct r; [split; [exact H|exact I]|exact H..].
  - apply fu_destBody; assumption.
  - intros x. destruct x as [[info er]|er]; (eapply fin_bind; [apply goes_finishDest|]); intros o h1 h1' r1 H1 [= <- <-]; exact H1.
  - nf.
Qed.
Lemma fu_dest i : fu (d, e) (ExecuteOnDestContext run rd i) (fun _ => True).
Proof.
  unfold ExecuteOnDestContext. apply fu_bind with (Q := fun _ => True); [pl|intros _ _]. apply fu_bind with (Q := fun _ => True).
  - destruct (e_isBuiltin E (ci_fn i)); [|apply fu_ret; exact I]. pl.
  - intros [[post o]|er] _.
    + apply fu_bind with (Q := fun _ => True).
      * destruct post; [apply fu_nb|apply fu_ret; exact I].
      * intros [[o' info] er] _. apply fu_bind with (Q := fun _ => True); [destruct er; pl|intros _ _]. apply fu_ret. exact I.
    + apply fu_bind with (Q := fun _ => True); [pl|intros _ _]. apply fu_bind with (Q := fun _ => True); [pl|intros o _]. apply fu_ret. exact I.
Qed.
Lemma fu_same i : fu (d, e) (ExecuteOnSameContext run rd i) (fun _ => True).
Proof.
  intros h h' r Hh H. destruct (e_isBuiltin E (ci_fn i)) eqn:Hbi.
  { unfold ExecuteOnSameContext in H. rewrite Hbi in H. injection H as <- <-. exact Hh. }
  rewrite (execSame_unfold _ _ i h Hbi) in H. cbv zeta in H.
  assert (Hp : dep (samePush i h) = (S d, S e)) by (unfold dep in *; injection Hh as <- <-; reflexivity).
  eapply (fu_deferring _ (d, e)) in H; [| |  | |exact Hp].
  - destruct r; [split; [exact H|exact I]|exact H..].
  - apply fu_sameBody; assumption.
  - intros x. destruct x as [u|er]; [apply goes_fin, goes_finishSame|]. eapply fin_bind; [apply goes_finishSame|]. intros o h1 h1' r1 H1 [= <- <-]. exact H1.
  - apply nf_finishSame.
Qed.
End step.

(** ** API calls and programs *)
Section api.
Context (v : nat * nat) (ed : edf) (es : same)
  (Hed : forall i, fu v (ed i) (fun _ => True)) (Hes : forall i, fu v (es i) (fun _ => True)).
Ltac fp := repeat (intros;
  lazymatch goal with
  | |- fu _ (ed _) _ => apply Hed
  | |- fu _ (es _) _ => apply Hes
  | |- fu _ (ret _) _ => apply fu_ret; exact I
  | |- fu _ (fail _) _ => apply fu_fail
  | |- fu _ panic _ => apply fu_panic
  | |- fu _ (if ?b then _ else _) _ => destruct b
  | |- fu _ (match ?b with _ => _ end) _ => destruct b
  | |- fu _ (let _ := _ in _) _ => cbv zeta
  | |- fu _ (bind _ _) _ => apply fu_bind with (Q := fun _ => True)
  | |- fu _ (try _) _ => eapply fu_weak; apply fu_try with (Q := fun _ => True)
  | |- fu _ ?m _ => first [solve [pl] | let g := head_of m in unfold g]
  end).
Lemma fu_interp {B} (p : prim B) : fu v (interp ed es p) (fun _ => True).
Proof. destruct p; cbn [interp]; fp. Qed.
Lemma fu_cmd c : fu v (run_cmd ed es c) (fun _ => True).
Proof.
  induction c as [r| |B p k IH]; cbn [run_cmd]; [apply fu_ret; exact I|apply fu_panic|].
  apply fu_bind with (Q := fun _ => True); [eapply fu_weak, fu_try, fu_interp|]. intros x _. apply IH.
Qed.
Lemma fu_prog p : fu v (runner ed es p) (fun _ => True).
Proof.
  unfold runner. induction p; cbn [run_prog]; fp; first [apply H|apply fu_cmd|assumption].
Qed.
End api.

(** ** Every fuel from ten on is enough *)
Lemma fu_vm n : forall d e, (1 <= n)%nat -> (10 <= d + n)%nat ->
  (forall i, fu (d, e) (vmDest n i) (fun _ => True)) /\ (forall i, fu (d, e) (vmSame n i) (fun _ => True)).
Proof.
  induction n as [|n IH]; intros d e H1 H2; [lia|].
  assert (Hed : (S d < 10)%nat -> forall i, fu (S d, S e) (vmDest n i) (fun _ => True)) by (intros Hd; apply IH; lia).
  assert (Hrun : (S d < 10)%nat -> forall p, fu (S d, S e) (vmRun n p) (fun _ => True)).
  { intros Hd p. destruct (IH (S d) (S e) ltac:(lia) ltac:(lia)) as [Ha Hb]. apply fu_prog; assumption. }
  split; intros i; [apply fu_dest|apply fu_same]; assumption.
Qed.
Section top.
Context (n : nat) (Hn : (10 <= n)%nat).
Lemma fu_rd v i : fu v (vmDest n i) (fun _ => True).
Proof. destruct v as [d e]. apply (fu_vm n d e); lia. Qed.
Lemma fu_run v p : fu v (vmRun n p) (fun _ => True).
Proof. destruct v as [d e]. destruct (fu_vm n d e ltac:(lia) ltac:(lia)) as [Ha Hb]. apply fu_prog; assumption. Qed.
Lemma fu_cleaning (m : M vm_output) v h : fu v m (fun _ => True) -> dep h = v -> snd (cleaning (orErrorOutput m) h) <> OFuel.
Proof.
  intros Hm Hh. unfold cleaning, deferring, orErrorOutput, bind, try. destruct (m h) as [h1 o] eqn:Ho. specialize (Hm _ _ _ Hh Ho).
  assert (Hf : forall g, snd (CleanWasmerInstance g) = OOk tt) by (intros g; unfold CleanWasmerInstance; destruct (h_cur g); reflexivity).
  assert (He : forall er, nf (CreateVMOutputInCaseOfError er)) by (intros er; nf).
  destruct o as [a|er| |]; [| | |destruct Hm]; cbn [ret].
  - specialize (Hf h1). destruct (CleanWasmerInstance h1) as [h2 o2]. cbn in Hf. subst o2. discriminate.
  - specialize (He er h1). destruct (CreateVMOutputInCaseOfError er h1) as [h2 [a|e2| |]]; [| | |exfalso; apply He; reflexivity];
      specialize (Hf h2); destruct (CleanWasmerInstance h2) as [h3 o3]; cbn in Hf; subst o3; discriminate.
  - specialize (Hf h1). destruct (CleanWasmerInstance h1) as [h2 o2]. cbn in Hf. subst o2. discriminate.
Qed.
Lemma fu_perform v d : fu v (performCodeDeployment (vmRun n) (vmDest n) d) (fun _ => True).
Proof.
  destruct v as [a b]. unfold performCodeDeployment. apply fu_bind with (Q := fun _ => True).
  - apply fu_deploy; intros _; [apply fu_run|apply fu_rd].
  - intros _ _. pl.
Qed.
Lemma fuel_call i h : snd (RunSmartContractCall n i h) <> OFuel.
Proof.
  unfold RunSmartContractCall, RunSmartContractCallIn. destruct (beq _ _).
  - unfold doRunSmartContractUpgrade. rewrite init_bind. apply fu_cleaning with (v := dep (init0 h)); [|reflexivity].
    do 4 (apply fu_bind with (Q := fun _ => True); [pl|intros _ _]). apply fu_bind with (Q := fun _ => True); [pl|intros [code meta] _]. apply fu_perform.
  - unfold doRunSmartContractCall. rewrite init_bind. apply fu_cleaning with (v := dep (init0 h)); [|reflexivity].
    apply fu_bind with (Q := fun _ => True); [pl|intros _ _]. apply fu_bind with (Q := fun _ => True); [pl|intros v _].
    do 3 (apply fu_bind with (Q := fun _ => True); [pl|intros _ _]). apply fu_bind with (Q := fun _ => True); [pl|intros c _].
    apply fu_bind with (Q := fun _ => True); [pl|intros _ _]. apply fu_bind with (Q := fun _ => True); [pl|intros g _].
    destruct (dep (init0 h)) as [d e]. eapply fu_bind; [eapply fu_map_err, (fu_Start d e (vmRun n) (vmDest n) (fun _ p => fu_run _ p) (fun _ i => fu_rd _ i))|]. intros ? Hd. cbv beta in Hd.
    apply fu_bind with (Q := fun _ => True); [apply fu_callSC; [intros _; apply fu_run|intros _; apply fu_rd|exact Hd]|intros _ _]. pl.
Qed.
Lemma fuel_create i h : snd (RunSmartContractCreate n i h) <> OFuel.
Proof.
  unfold RunSmartContractCreate, doRunSmartContractCreate. rewrite init_bind. apply fu_cleaning with (v := dep (init0 h)); [|reflexivity]. cbv zeta.
  apply fu_bind with (Q := fun _ => True); [pl|intros a _]. do 4 (apply fu_bind with (Q := fun _ => True); [pl|intros _ _]). apply fu_perform.
Qed.
Lemma fuel_api c h : snd (vmApi n c h) <> OFuel.
Proof.
  intros H. destruct (fu_vm n (fst (dep h)) (snd (dep h)) ltac:(lia) ltac:(lia)) as [Ha Hb].
  pose proof (fu_cmd (fst (dep h), snd (dep h)) (vmDest n) (vmSame n) Ha Hb (api c) h) as K. unfold vmApi in H. destruct (run_cmd _ _ _ h) as [h' r]. cbn [snd] in H. subst r.
  exact (K _ _ eq_refl eq_refl).
Qed.
End top.
End vm.

(** ** More fuel changes nothing *)
Definition le {A} (m1 m2 : M A) : Prop := forall h, snd (m1 h) = OFuel \/ m1 h = m2 h.
Section le.
Lemma le_refl {A} (m : M A) : le m m.
Proof. intros h. right. reflexivity. Qed.
Lemma le_nofuel {A} (m : M A) : le nofuel m.
Proof. intros h. left. reflexivity. Qed.
Lemma le_bind {A B} (m1 m2 : M A) (k1 k2 : A -> M B) : le m1 m2 -> (forall a, le (k1 a) (k2 a)) -> le (bind m1 k1) (bind m2 k2).
Proof.
  intros Hm Hk h. unfold bind. destruct (Hm h) as [H|H].
  - left. destruct (m1 h) as [h1 []]; cbn in *; congruence.
  - rewrite H. destruct (m2 h) as [h1 []]; [apply Hk|right; reflexivity..].
Qed.
Lemma le_try {A} (m1 m2 : M A) : le m1 m2 -> le (try m1) (try m2).
Proof.
  intros Hm h. unfold try. destruct (Hm h) as [H|H].
  - left. destruct (m1 h) as [h1 []]; cbn in *; congruence.
  - right. rewrite H. reflexivity.
Qed.
Lemma le_deferring {A B} (m1 m2 : M A) (g : A + err -> M B) p : le m1 m2 -> le (deferring m1 g p) (deferring m2 g p).
Proof.
  intros Hm h. unfold deferring. destruct (Hm h) as [H|H].
  - left. destruct (m1 h) as [h1 []]; cbn in *; congruence.
  - right. rewrite H. reflexivity.
Qed.
End le.
Section mono.
Context `{E : env} (run1 run2 : prog -> M bool) (rd1 rd2 : edf) (Hrun : forall p, le (run1 p) (run2 p)) (Hrd : forall i, le (rd1 i) (rd2 i)).
Ltac ll := repeat (intros;
  lazymatch goal with
  | |- le ?m ?m => apply le_refl
  | |- le (rd1 _) _ => apply Hrd
  | |- le (run1 _) _ => apply Hrun
  | |- le (bind _ _) _ => apply le_bind
  | |- le (try _) _ => apply le_try
  | |- le (deferring _ _ _) _ => apply le_deferring
  | |- le (if ?b then _ else _) _ => destruct b
  | |- le (match ?b with _ => _ end) _ => destruct b
  | |- le (let _ := _ in _) _ => cbv zeta
  | |- le ?m ?m' => first [solve [eauto with le] | let g := head_of m in unfold g]
  end).
Create HintDb le.
Lemma le_break : le (handleBreakpoint rd1) (handleBreakpoint rd2). Proof. ll. Qed.
Hint Resolve le_break : le.
Lemma le_processAll l : le (processAsyncCalls rd1 l) (processAsyncCalls rd2 l).
Proof. induction l as [|[[id i] c] l IH]; cbn [processAsyncCalls]; [ll|]. apply le_bind; [ll|]. intros can. apply le_bind; [ll|]. intros _. exact IH. Qed.
Hint Resolve le_processAll : le.
Lemma le_info : le (processAsyncInfo rd1) (processAsyncInfo rd2). Proof. ll. Qed.
Hint Resolve le_info : le.
Lemma le_callSC : le (callSCMethod run1 rd1) (callSCMethod run2 rd2). Proof. ll. Qed.
Hint Resolve le_callSC : le.
Lemma le_deploy d : le (deployContract run1 rd1 d) (deployContract run2 rd2 d). Proof. ll. Qed.
Hint Resolve le_deploy : le.
Lemma le_execute i : le (execute run1 rd1 i) (execute run2 rd2 i). Proof. ll. Qed.
Hint Resolve le_execute : le.
Lemma le_dest i : le (ExecuteOnDestContext run1 rd1 i) (ExecuteOnDestContext run2 rd2 i). Proof. ll. Qed.
Lemma le_same i : le (ExecuteOnSameContext run1 rd1 i) (ExecuteOnSameContext run2 rd2 i). Proof. ll. Qed.
Lemma le_cleaning (m1 m2 : M vm_output) : le m1 m2 -> le (cleaning (orErrorOutput m1)) (cleaning (orErrorOutput m2)).
Proof. intros Hm. unfold cleaning. apply le_deferring. unfold orErrorOutput. apply le_bind; [apply le_try, Hm|]. intros; apply le_refl. Qed.
Hint Resolve le_cleaning : le.
Lemma le_call i : le (RunSmartContractCallIn run1 rd1 i) (RunSmartContractCallIn run2 rd2 i). Proof. ll. Qed.
Lemma le_create i : le (doRunSmartContractCreate run1 rd1 i) (doRunSmartContractCreate run2 rd2 i). Proof. ll. Qed.
End mono.
Section mono_api.
Context `{E : env} (ed1 ed2 : edf) (es1 es2 : same) (Hed : forall i, le (ed1 i) (ed2 i)) (Hes : forall i, le (es1 i) (es2 i)).
Ltac lp := repeat (intros;
  lazymatch goal with
  | |- le ?m ?m => apply le_refl
  | |- le (ed1 _) _ => apply Hed
  | |- le (es1 _) _ => apply Hes
  | |- le (bind _ _) _ => apply le_bind
  | |- le (try _) _ => apply le_try
  | |- le (if ?b then _ else _) _ => destruct b
  | |- le (match ?b with _ => _ end) _ => destruct b
  | |- le (let _ := _ in _) _ => cbv zeta
  | |- le ?m ?m' => let g := head_of m in unfold g
  end).
Lemma le_interp {B} (p : prim B) : le (interp ed1 es1 p) (interp ed2 es2 p).
Proof. destruct p; cbn [interp]; lp. Qed.
Lemma le_cmd c : le (run_cmd ed1 es1 c) (run_cmd ed2 es2 c).
Proof. induction c as [r| |B p k IH]; cbn [run_cmd]; [apply le_refl..|]. apply le_bind; [apply le_try, le_interp|exact IH]. Qed.
Lemma le_prog p : le (runner ed1 es1 p) (runner ed2 es2 p).
Proof. unfold runner. induction p; cbn [run_prog]; lp; first [apply H|apply le_cmd|assumption]. Qed.
End mono_api.
Section mono_vm.
Context `{E : env}.
Lemma le_vm n : forall m, (n <= m)%nat -> (forall i, le (vmDest n i) (vmDest m i)) /\ (forall i, le (vmSame n i) (vmSame m i)).
Proof.
  induction n as [|n IH]; intros m Hm; [split; intros i; apply le_nofuel|]. destruct m as [|m]; [lia|]. destruct (IH m ltac:(lia)) as [Ha Hb].
  assert (Hr : forall p, le (vmRun n p) (vmRun m p)) by (apply le_prog; assumption).
  split; intros i; [apply le_dest|apply le_same]; assumption.
Qed.
Lemma le_eq {A} (m1 m2 : M A) h : le m1 m2 -> snd (m1 h) <> OFuel -> m2 h = m1 h.
Proof. intros H Hf. destruct (H h) as [H'|H']; [contradiction|congruence]. Qed.
Lemma more_call n m i h : (n <= m)%nat -> snd (RunSmartContractCall n i h) <> OFuel -> RunSmartContractCall m i h = RunSmartContractCall n i h.
Proof.
  intros Hm. apply le_eq. destruct (le_vm n m Hm) as [Ha Hb]. apply le_call; [|exact Ha]. apply le_prog; assumption.
Qed.
Lemma more_create n m i h : (n <= m)%nat -> snd (RunSmartContractCreate n i h) <> OFuel -> RunSmartContractCreate m i h = RunSmartContractCreate n i h.
Proof.
  intros Hm. apply le_eq. destruct (le_vm n m Hm) as [Ha Hb]. apply le_create; [|exact Ha]. apply le_prog; assumption.
Qed.
Lemma more_api n m c h : (n <= m)%nat -> snd (vmApi n c h) <> OFuel -> vmApi m c h = vmApi n c h.
Proof. intros Hm. apply le_eq. destruct (le_vm n m Hm) as [Ha Hb]. apply le_cmd; assumption. Qed.
End mono_vm.
Section same.
Context `{E : env}.
Lemma fuel_run n p h : (10 <= n)%nat -> snd (vmRun n p h) <> OFuel.
Proof.
  intros Hn H. pose proof (fu_run n Hn (dep h) p h) as K. destruct (vmRun n p h) as [h' r]. cbn [snd] in H. subst r. exact (K _ _ eq_refl eq_refl).
Qed.
Lemma more_run n m p h : (n <= m)%nat -> snd (vmRun n p h) <> OFuel -> vmRun m p h = vmRun n p h.
Proof. intros Hm. apply le_eq. destruct (le_vm n m Hm) as [Ha Hb]. apply le_prog; assumption. Qed.
Context (n m : nat) (Hn : (10 <= n)%nat) (Hm : (10 <= m)%nat).
Lemma same_call i h : RunSmartContractCall n i h = RunSmartContractCall m i h.
Proof. rewrite (more_call 10 n), (more_call 10 m); auto; apply fuel_call; lia. Qed.
Lemma same_create i h : RunSmartContractCreate n i h = RunSmartContractCreate m i h.
Proof. rewrite (more_create 10 n), (more_create 10 m); auto; apply fuel_create; lia. Qed.
Lemma same_api c h : vmApi n c h = vmApi m c h.
Proof. rewrite (more_api 10 n), (more_api 10 m); auto; apply fuel_api; lia. Qed.
Lemma same_run p h : vmRun n p h = vmRun m p h.
Proof. rewrite (more_run 10 n), (more_run 10 m); auto; apply fuel_run; lia. Qed.
End same.
