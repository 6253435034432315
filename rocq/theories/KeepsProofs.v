(** Parts of the state that a computation leaves alone. *)
From Verif Require Import VmModel WpProofs.

Definition keeps {X A} (f : host -> X) (m : M A) : Prop := forall h h' r, m h = (h', r) -> f h' = f h.

Section keeps.
Context {X : Type} (f : host -> X).
Lemma keeps_ret {A} (a : A) : keeps f (ret a).
Proof. intros h h' r [= <- <-]. reflexivity. Qed.
Lemma keeps_fail {A} e : keeps f (fail e : M A).
Proof. intros h h' r [= <- <-]. reflexivity. Qed.
Lemma keeps_panic {A} : keeps f (panic : M A).
Proof. intros h h' r [= <- <-]. reflexivity. Qed.
Lemma keeps_gets {A} (g : host -> A) : keeps f (gets g).
Proof. intros h h' r [= <- <-]. reflexivity. Qed.
Lemma keeps_lift {A} (x : res A) : keeps f (lift x).
Proof. intros h h' r H. destruct x; injection H as <- <-; reflexivity. Qed.
Lemma keeps_fail_if b e : keeps f (fail_if b e).
Proof. destruct b; [apply keeps_fail|apply keeps_ret]. Qed.
Lemma keeps_bind {A B} (m : M A) (k : A -> M B) : keeps f m -> (forall a, keeps f (k a)) -> keeps f (bind m k).
Proof.
  intros Hm Hk h h' r H. unfold bind in H. destruct (m h) as [h1 o] eqn:Hmh. apply Hm in Hmh. rewrite <-Hmh.
  destruct o; [apply Hk in H; exact H|injection H as <- <-; reflexivity..].
Qed.
Lemma keeps_try {A} (m : M A) : keeps f m -> keeps f (try m).
Proof.
  intros Hm h h' r H. unfold try in H. destruct (m h) as [h1 o] eqn:Hmh. apply Hm in Hmh. rewrite <-Hmh.
  destruct o; injection H as <- <-; reflexivity.
Qed.
Lemma keeps_deferring {A B} (m : M A) (g : A + err -> M B) p :
  keeps f m -> (forall a, keeps f (g a)) -> keeps f p -> keeps f (deferring m g p).
Proof.
  intros Hm Hg Hp h h' r H. unfold deferring in H. destruct (m h) as [h1 o] eqn:Hmh. apply Hm in Hmh. rewrite <-Hmh.
  destruct o; [exact (Hg _ _ _ _ H)|exact (Hg _ _ _ _ H)| |injection H as <- <-; reflexivity].
  destruct (p h1) as [h2 o2] eqn:Hph. apply Hp in Hph. rewrite <-Hph. destruct o2; injection H as <- <-; reflexivity.
Qed.
Lemma keeps_modify g : (forall h, f (g h) = f h) -> keeps f (modify g).
Proof. intros H h h' r [= <- <-]. apply H. Qed.
Lemma keeps_cur_inst : keeps f cur_inst.
Proof.
  intros h h' r H. unfold cur_inst in H. destruct (h_cur h); [|injection H as <- <-; reflexivity].
  destruct (h_insts h !! _); injection H as <- <-; reflexivity.
Qed.
End keeps.

Ltac head_of t := lazymatch t with ?g _ => head_of g | _ => t end.
Ltac kp :=
  repeat (intros;
  lazymatch goal with
  | |- keeps _ (bind _ _) => apply keeps_bind
  | |- keeps _ (try _) => apply keeps_try
  | |- keeps _ (deferring _ _ _) => apply keeps_deferring
  | |- keeps _ (ret _) => apply keeps_ret
  | |- keeps _ (fail _) => apply keeps_fail
  | |- keeps _ panic => apply keeps_panic
  | |- keeps _ (gets _) => apply keeps_gets
  | |- keeps _ (lift _) => apply keeps_lift
  | |- keeps _ (fail_if _ _) => apply keeps_fail_if
  | |- keeps _ cur_inst => apply keeps_cur_inst
  | |- keeps _ (modify _) => apply keeps_modify; intros; try reflexivity
  | |- keeps _ (if ?b then _ else _) => destruct b
  | |- keeps _ (match ?b with _ => _ end) => destruct b
  | |- keeps _ (let _ := _ in _) => cbv zeta
  | |- keeps _ (fun _ => _) => fail
  | |- keeps _ ?m => first [solve [eauto with keeps] | let g := head_of m in unfold g]
  end).

Section accounts.
Context `{E : env}.
Lemma keeps_GetOutputAccount {X} (f : host -> X) a :
  (forall m h, f (set_accounts m h) = f h) -> keeps f (GetOutputAccount a).
Proof.
  intros Hf h h' r H. unfold GetOutputAccount in H. destruct (accounts h !! a); injection H as <- <-; [reflexivity|apply Hf].
Qed.
Hint Extern 1 (keeps _ (GetOutputAccount _)) => apply keeps_GetOutputAccount; reflexivity : keeps.

Lemma keeps_Builtin {X} (f : host -> X) i :
  (forall w h, f (set_h_world w h) = f h) -> keeps f (ProcessBuiltInFunction i).
Proof.
  intros Hf h h' r H. unfold ProcessBuiltInFunction in H. destruct (e_builtin _ _ _) as [w []]; injection H as <- <-; apply Hf.
Qed.
Hint Extern 1 (keeps _ (ProcessBuiltInFunction _)) => apply keeps_Builtin; reflexivity : keeps.

End accounts.
Global Hint Extern 1 (keeps _ (ProcessBuiltInFunction _)) => apply keeps_Builtin; reflexivity : keeps.
Global Hint Extern 1 (keeps _ (GetOutputAccount _)) => apply keeps_GetOutputAccount; reflexivity : keeps.
