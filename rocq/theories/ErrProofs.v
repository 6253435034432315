(** Lemmas for C38. *)
From Verif Require Import ErrModel ErrSpec.

(** induction that reaches the entries of a wrapper *)
Fixpoint gerr_ind' (P : gerr -> Prop) (H1 : forall id, P (GNew id)) (H2 : forall id e, P e -> P (GFmt id e))
    (H3 : forall p l, (forall e, In (Some e) l -> P e) -> P (GWrap p l)) (e : gerr) : P e :=
  match e with
  | GNew id => H1 id
  | GFmt id e => H2 id e (gerr_ind' P H1 H2 H3 e)
  | GWrap p l => H3 p l
      ((fix go (l : list (option gerr)) : forall e, In (Some e) l -> P e :=
          match l with
          | [] => fun e H => match H with end
          | o :: l => fun e H =>
              match H with
              | or_introl Ho =>
                  match o as o' return o' = Some e -> P e with
                  | Some x => fun Hx => match Hx in _ = y return match y with Some z => P z | None => True end with eq_refl => gerr_ind' P H1 H2 H3 x end
                  | None => fun Hx => match Hx in _ = y return match y with Some z => P z | None => True end with eq_refl => I end
                  end Ho
              | or_intror Ht => go l e Ht
              end
          end) l)
  end.

Notation answers t := (map (fun o : option gerr => match o with Some e => errors_Is t e | None => ROk false end)).

Lemma scan_true rs : scan rs = ROk true -> In (ROk true) rs.
Proof.
  induction rs as [|r rs IH]; [discriminate|]. cbn [scan]. destruct r as [[]| |]; cbn [mbind res_bind]; intros H; try discriminate; [left; reflexivity|right; auto].
Qed.
Lemma scan_false rs : scan rs = ROk false -> forall r, In r rs -> r = ROk false.
Proof.
  induction rs as [|r rs IH]; [intros _ ? []|]. cbn [scan]. destruct r as [[]| |]; cbn [mbind res_bind]; intros H; try discriminate.
  intros r [<-|Hr]; auto.
Qed.
Lemma scan_all_false rs : (forall r, In r rs -> r = ROk false) -> scan rs = ROk false.
Proof. induction rs as [|r rs IH]; [reflexivity|]. intros H. cbn [scan]. rewrite (H r (or_introl eq_refl)). cbn [mbind res_bind]. apply IH. intros; apply H; right; assumption. Qed.
Lemma take_in {A} k (l : list A) x : In x (take k l) -> In x l.
Proof. intros H. rewrite <- (take_drop k l). apply in_or_app. left. exact H. Qed.
Lemma unwrapping_false rs k : (forall r, In r rs -> r = ROk false) -> unwrapping rs k = ROk false \/ unwrapping rs k = RPanic.
Proof.
  intros H. induction k as [|k IH]; [right; cbn [unwrapping]; rewrite take_0; reflexivity|].
  cbn [unwrapping]. rewrite scan_all_false by (intros r Hr; apply H; eapply take_in, Hr). cbn [mbind res_bind].
  destruct (k =? 1)%nat; [|exact IH]. destruct rs as [|r rs]; cbn; [right; reflexivity|left; apply H; left; reflexivity].
Qed.
Lemma unwrapping_two rs k : (2 <= k)%nat -> (k <= length rs)%nat -> (forall r, In r rs -> r = ROk false) -> unwrapping rs k = ROk false.
Proof.
  intros Hk Hl H. induction k as [|k IH]; [inversion Hk|].
  cbn [unwrapping]. rewrite scan_all_false by (intros r Hr; apply H; eapply take_in, Hr). cbn [mbind res_bind].
  destruct (Nat.eqb_spec k 1) as [->|Hn].
  - destruct rs as [|r rs]; [cbn in Hl; inversion Hl|]. cbn. apply H. left. reflexivity.
  - apply IH; lia.
Qed.
Lemma in_answers t l r : In r (answers t l) -> r = ROk false \/ exists e, In (Some e) l /\ r = errors_Is t e.
Proof. intros H. apply in_map_iff in H as ([e|] & <- & H); [right; eauto|left; reflexivity]. Qed.

(** what is answered is right *)
Lemma same_iff e t : same_err e t = true <-> identity_of e = identity_of t.
Proof.
  destruct e, t; cbn; try (split; intros H; discriminate H); rewrite N.eqb_eq; (split; [intros ->; reflexivity|intros [= ->]; reflexivity]).
Qed.
Lemma same_not e t : same_err e t = false -> identity_of e <> identity_of t.
Proof. intros H Hi. apply same_iff in Hi. congruence. Qed.
Lemma is_right t e b : errors_Is t e = ROk b -> (b = true <-> occurs t e).
Proof.
  revert b. induction e as [id|id e IH|p l IH] using gerr_ind'; intros b; cbn [errors_Is].
  - destruct (same_err _ t) eqn:Hs; intros [= <-]; (split; intros H; [|]); try reflexivity; try discriminate.
    + constructor. apply same_iff. exact Hs.
    + inversion H; subst. apply same_not in Hs. contradiction.
  - destruct (same_err _ t) eqn:Hs.
    + intros [= <-]. split; [intros _; constructor; apply same_iff; exact Hs|reflexivity].
    + intros H. rewrite (IH _ H). split; [intros Ho; apply occurs_fmt; exact Ho|]. intros Ho. inversion Ho; subst; [apply same_not in Hs; contradiction|assumption].
  - destruct (same_err _ t) eqn:Hs.
    + intros [= <-]. split; [intros _; constructor; apply same_iff; exact Hs|reflexivity].
    + destruct l as [|o0 l0]; [cbn; discriminate|]. set (l := o0 :: l0) in *. cbn [length l]. cbn [unwrapping]. 
      change (S (length l0)) with (length l). rewrite take_ge by (rewrite map_length; reflexivity).
      destruct (scan (answers t l)) as [[]| |] eqn:Hsc; cbn [mbind res_bind]; try discriminate.
      * intros [= <-]. split; [intros _|reflexivity]. apply scan_true, in_answers in Hsc as [Hx|(e & He & Hx)]; [discriminate|].
        apply (occurs_wrap t p l e He). apply (IH e He true (eq_sym Hx)). reflexivity.
      * pose proof (scan_false _ Hsc) as Hf.
        assert (Hno : ~ occurs t (GWrap p l)).
        { intros Ho. inversion Ho as [? Hself| |? ? e He Hoe]; subst; [apply same_not in Hs; contradiction|].
          assert (Hee : errors_Is t e = ROk false) by (apply Hf; apply (in_map (fun o : option gerr => match o with Some e => errors_Is t e | None => ROk false end) _ _ He)).
          apply (IH e He false Hee) in Hoe. discriminate. }
        destruct (length l0 =? 1)%nat.
        -- intros H. destruct (answers t l) as [|r rs] eqn:Ha; [discriminate H|]. cbn in H. rewrite (Hf r) in H by (left; reflexivity).
           injection H as <-. split; [discriminate|contradiction].
        -- intros H. destruct (unwrapping_false (answers t l) (length l0) Hf) as [Hu|Hu]; rewrite Hu in H; [|discriminate].
           injection H as <-. split; [discriminate|contradiction].
Qed.
Lemma scan_total rs : (forall r, In r rs -> exists b, r = ROk b) -> exists b, scan rs = ROk b.
Proof.
  induction rs as [|r rs IH]; [eexists; reflexivity|]. intros H. cbn [scan]. destruct (H r (or_introl eq_refl)) as [[] ->]; cbn [mbind res_bind]; [eauto|].
  apply IH. intros; apply H; right; assumption.
Qed.
(** an answer comes *)
Lemma is_answers t e : two_or_more e -> exists b, errors_Is t e = ROk b.
Proof.
  induction e as [id|id e IH|p l IH] using gerr_ind'; intros H; cbn [errors_Is]; (destruct (same_err _ t); [eauto|]).
  - eauto.
  - inversion H; auto.
  - inversion H as [| |? ? H2 Hl]; subst.
    assert (Ht : exists b, scan (answers t l) = ROk b).
    { apply scan_total. intros r Hr. apply in_answers in Hr as [->|(e & He & ->)]; [eauto|apply IH; auto]. }
    destruct (length l) as [|k] eqn:Hk; [lia|]. cbn [unwrapping]. rewrite take_ge by (rewrite map_length; lia).
    destruct Ht as [[] Hs]; rewrite Hs; cbn [mbind res_bind]; [eauto|]. pose proof (scan_false _ Hs) as Hf. exists false.
    destruct (Nat.eqb_spec k 1) as [->|Hn].
    + destruct l as [|o l0]; [discriminate Hk|]. cbn. apply Hf. left. reflexivity.
    + apply unwrapping_two; [lia|rewrite map_length; lia|exact Hf].
Qed.
Lemma method_answers t l : (forall e, In (Some e) l -> two_or_more e) ->
  exists b, werr_Is l t = ROk b /\ (b = true <-> exists e, In (Some e) l /\ occurs t e).
Proof.
  intros H. destruct (scan_total (answers t l)) as [b Hb].
  { intros r Hr. apply in_answers in Hr as [->|(e & He & ->)]; [eauto|apply is_answers; auto]. }
  exists b. split; [exact Hb|]. destruct b.
  - split; [intros _|reflexivity]. apply scan_true, in_answers in Hb as [Hx|(e & He & Hx)]; [discriminate|]. exists e. split; [exact He|].
    apply (is_right t e true (eq_sym Hx)). reflexivity.
  - split; [discriminate|]. intros (e & He & Ho). pose proof (scan_false _ Hb) as Hf.
    assert (Hee : errors_Is t e = ROk false) by (apply Hf; apply (in_map (fun o : option gerr => match o with Some e => errors_Is t e | None => ROk false end) _ _ He)).
    apply (is_right t e false Hee) in Ho. discriminate.
Qed.

(** what a chain of wraps holds *)
Definition parts (e : gerr) : list (option gerr) := match e with GWrap _ l => l | e => [Some e] end.
Lemma wrap_parts l e : wrapWithError l (Some e) = l ++ parts e.
Proof. destruct e; reflexivity. Qed.
Lemma fold_parts added l : fold_left wrapWithError added l = l ++ concat (map parts (omap (fun o => o) added)).
Proof.
  revert l. induction added as [|[e|] added IH]; intros l; cbn [fold_left]; [cbn; rewrite app_nil_r; reflexivity| |].
  - rewrite IH, wrap_parts, <- app_assoc. reflexivity.
  - exact (IH l).
Qed.
Lemma wrapped_parts ptr base added : wrapped ptr base added = concat (map parts (given base added)).
Proof. unfold wrapped, given. destruct base; cbn [WrapError]; rewrite fold_parts; reflexivity. Qed.
Lemma in_wrapped ptr base added (o : option gerr) : In o (wrapped ptr base added) <-> exists g, In g (given base added) /\ In o (parts g).
Proof.
  rewrite wrapped_parts. rewrite in_concat. split.
  - intros (l & Hl & Ho). apply in_map_iff in Hl as (g & <- & Hg). eauto.
  - intros (g & Hg & Ho). exists (parts g). split; [apply in_map; exact Hg|exact Ho].
Qed.
Lemma wrapped_is ptr base added t : (forall e, In e (given base added) -> wrappable e) ->
  exists b, werr_Is (wrapped ptr base added) t = ROk b /\ (b = true <-> given_inside t (given base added)).
Proof.
  intros H. destruct (method_answers t (wrapped ptr base added)) as (b & Hb & Hi).
  { intros e He. apply in_wrapped in He as (g & Hg & He). specialize (H g Hg). destruct g; cbn in He, H; [destruct He as [[= <-]|[]]; exact H..|exact (H _ He)]. }
  exists b. split; [exact Hb|]. rewrite Hi. clear. unfold given_inside. split.
  - intros (e & He & Ho). apply in_wrapped in He as (g & Hg & He). exists g. split; [exact Hg|].
    destruct g; cbn in He; [destruct He as [[= <-]|[]]; exact Ho..|eauto].
  - intros (g & Hg & Ho). destruct g as [id|id x|p l].
    + exists (GNew id). split; [apply in_wrapped; exists (GNew id); split; [exact Hg|left; reflexivity]|exact Ho].
    + exists (GFmt id x). split; [apply in_wrapped; exists (GFmt id x); split; [exact Hg|left; reflexivity]|exact Ho].
    + destruct Ho as (x & Hx & Ho). exists x. split; [apply in_wrapped; eauto|exact Ho].
Qed.
(** the whole wrapper under errors.Is *)
Lemma wrapped_errors_is ptr ptr' base added t : (forall e, In e (given base added) -> wrappable e) ->
  (2 <= length (wrapped ptr' base added))%nat ->
  exists b, errors_Is t (GWrap ptr (wrapped ptr' base added)) = ROk b /\
    (b = true <-> identity_of t = IWrap ptr \/ given_inside t (given base added)).
Proof.
  intros H Hl. destruct (wrapped_is ptr' base added t H) as (b0 & Hb0 & Hi0).
  destruct (is_answers t (GWrap ptr (wrapped ptr' base added))) as [b Hb].
  { constructor; [exact Hl|]. intros e He. apply in_wrapped in He as (g & Hg & He). specialize (H g Hg). destruct g; cbn in He, H; [destruct He as [[= <-]|[]]; exact H..|exact (H _ He)]. }
  exists b. split; [exact Hb|]. rewrite (is_right _ _ _ Hb). rewrite <- Hi0. clear Hi0.
  assert (Hoc : forall b0, werr_Is (wrapped ptr' base added) t = ROk b0 -> (b0 = true <-> exists e, In (Some e) (wrapped ptr' base added) /\ occurs t e)).
  { destruct (method_answers t (wrapped ptr' base added)) as (b1 & Hb1 & Hi1).
    { intros e He. apply in_wrapped in He as (g & Hg & He). specialize (H g Hg). destruct g; cbn in He, H; [destruct He as [[= <-]|[]]; exact H..|exact (H _ He)]. }
    intros b2 Hb2. rewrite Hb1 in Hb2. injection Hb2 as <-. exact Hi1. }
  rewrite (Hoc _ Hb0). split.
  - intros Ho. inversion Ho as [? Hs| |? ? e He Hoe]; subst; [left; symmetry; exact Hs|right; eauto].
  - intros [Hs|(e & He & Ho)]; [constructor; symmetry; exact Hs|econstructor; eassumption].
Qed.
Lemma base_kept ptr base added : (forall e, In e (given base added) -> not_empty e) ->
  GetBaseError (wrapped ptr base added) = ROk (match base with GWrap _ (o :: _) => o | e => Some e end).
Proof.
  intros H. rewrite wrapped_parts. unfold given. cbn [map concat]. specialize (H base (or_introl eq_refl)).
  destruct base as [| |p [|o l]]; [reflexivity..|destruct H|reflexivity].
Qed.
Lemma last_added ptr base added e : match e with GWrap _ _ => False | _ => True end ->
  GetLastError (wrapped ptr base (added ++ [Some e])) = ROk (Some e).
Proof.
  intros H. unfold wrapped. destruct (WrapError ptr (Some base)) as [| |p l] eqn:Hw; [destruct base; discriminate Hw..|].
  rewrite fold_left_app. cbn [fold_left]. rewrite wrap_parts. unfold GetLastError. destruct e; cbn [parts]; rewrite ?last_snoc; [reflexivity..|destruct H].
Qed.
Lemma recorded ptr errs base : record ptr (base :: errs) = Some (GWrap (match errs, base with [], GWrap p _ => p | _, _ => ptr end) (wrapped ptr base (map Some errs))).
Proof.
  unfold record, wrapped. cbn [fold_left AddError].
  assert (Hg : forall errs p l, fold_left (fun s e => AddError ptr s (Some e)) errs (Some (GWrap p l)) =
     Some (GWrap (match errs with [] => p | _ => ptr end) (fold_left wrapWithError (map Some errs) l))).
  { clear. induction errs as [|e errs IH]; intros p l; [reflexivity|]. cbn [fold_left AddError map]. rewrite IH. destruct errs; reflexivity. }
  destruct base as [id|id x|p l]; cbn [WrapError]; rewrite Hg; destruct errs; reflexivity.
Qed.
