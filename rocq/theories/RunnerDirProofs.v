(** Proofs about runs over a directory. *)
From Verif Require Import Base JsonModel JsonSpec FileSpec ScenParseModel WorldModel RunnerModel RunnerSpec RunnerProofs.
From stdpp Require Import gmap list.
From Coq Require Import ZifyBool ZifyNat ZifyN.

(** * The walk *)
Fixpoint tree_rect' (P : tree -> Prop) (H1 : P TGone) (H2 : P TFile) (H3 : P (TDir None))
    (H4 : forall l, Forall (fun e => P (snd e)) l -> P (TDir (Some l))) (t : tree) {struct t} : P t :=
  match t with
  | TGone => H1
  | TFile => H2
  | TDir None => H3
  | TDir (Some l) => H4 l ((fix go l : Forall (fun e => P (snd e)) l :=
      match l with
      | [] => Forall_nil_2 _
      | e :: r => Forall_cons_2 _ _ _ (tree_rect' P H1 H2 H3 H4 (snd e)) (go r)
      end) l)
  end.

Lemma walk_under t : forall path p, In p (walk path t) <-> under path t p.
Proof.
  induction t as [| | |l IH] using tree_rect'; intros path p.
  1-3: cbn; split; [intros [<-|[]]; constructor|intros H; inversion H; subst; left; reflexivity].
  cbn [walk In]. split.
  - intros [<-|H]; [constructor|]. apply in_concat in H as (ps & H1 & H2). apply in_map_iff in H1 as ([name t] & <- & H1).
    apply under_entry with name t; [exact H1|]. rewrite List.Forall_forall in IH. apply (IH (name, t) H1). exact H2.
  - intros H. inversion H as [|path' name t l' p' Hi Hu]; subst; [left; reflexivity|right].
    apply in_concat. exists (walk (path ++ str "/" ++ name) t). split; [apply in_map_iff; exists (name, t); auto|].
    rewrite List.Forall_forall in IH. apply (IH (name, t) Hi). exact Hu.
Qed.

Lemma walk_prefix t : forall path p, In p (walk path t) -> exists rest, p = path ++ rest /\ (rest = [] \/ exists r, rest = Byte.x2f :: r).
Proof.
  intros path p H. apply walk_under in H. induction H as [path t|path name t l p Hi H (rest & -> & Hr)].
  - exists []. rewrite app_nil_r. auto.
  - exists (str "/" ++ name ++ rest). split; [rewrite <- !app_assoc; reflexivity|]. right. eexists. reflexivity.
Qed.
Lemma name_split (a b r s : bytes) : ~ In Byte.x2f a -> ~ In Byte.x2f b -> (r = [] \/ exists k, r = Byte.x2f :: k) ->
  (s = [] \/ exists k, s = Byte.x2f :: k) -> a ++ r = b ++ s -> a = b.
Proof.
  revert b. induction a as [|x a IH]; intros [|y b] Ha Hb Hr Hs H.
  - reflexivity.
  - destruct Hr as [->|(k & ->)]; cbn in H; [discriminate H|]. injection H as H _. destruct Hb. left. congruence.
  - destruct Hs as [->|(k & ->)]; cbn in H; [discriminate H|]. injection H as H _. destruct Ha. left. congruence.
  - cbn in H. injection H as <- H. f_equal. apply IH; [intros Hi; apply Ha; right; exact Hi|intros Hi; apply Hb; right; exact Hi|assumption..].
Qed.

Lemma walk_nodup t : forall path, tidy t -> NoDup (walk path t).
Proof.
  induction t as [| | |l IH] using tree_rect'; intros path Ht.
  1-3: cbn; apply NoDup_singleton.
  inversion Ht as [| | |l' Hn Hs Hc]; subst. cbn [walk]. apply NoDup_cons. split.
  - rewrite elem_of_list_In. intros H. apply in_concat in H as (ps & H1 & H2). apply in_map_iff in H1 as ([name t] & <- & _).
    apply walk_prefix in H2 as (rest & H2 & _). apply (f_equal length) in H2. rewrite !app_length in H2. change (length (str "/")) with 1%nat in H2. lia.
  - clear Ht. induction l as [|[name t] l IHl]; [constructor|]. cbn [map concat].
    apply Forall_cons in IH as [I1 I2]. apply Forall_cons in Hs as [S1 S2]. cbn [map fst] in Hn. apply NoDup_cons in Hn as [N1 N2].
    apply NoDup_app. split; [apply I1; apply (Hc (name, t)); left; reflexivity|]. split.
    + intros p Hp Hq. rewrite elem_of_list_In in Hp, Hq. apply in_concat in Hq as (ps & H1 & H2). apply in_map_iff in H1 as ([name' t'] & <- & Hi).
      apply walk_prefix in Hp as (r1 & -> & Hr1). apply walk_prefix in H2 as (r2 & H2 & Hr2).
      cbn [fst] in H2. rewrite <- !app_assoc in H2. apply app_inv_head in H2. apply app_inv_head in H2.
      assert (name = name').
      { apply (name_split name name' r1 r2); [exact S1| |exact Hr1|exact Hr2|exact H2].
        rewrite List.Forall_forall in S2. apply (S2 (name', t') Hi). }
      subst name'. apply N1. apply elem_of_list_In. apply in_map_iff. exists (name, t'). auto.
    + apply IHl; [exact I2|exact N2|exact S2|]. intros e He. apply Hc. right. exact He.
Qed.

(** * Names *)
Lemma suffix_iff p s : HasSuffix p s = true <-> ends p s.
Proof.
  unfold HasSuffix, ends. rewrite bool_decide_eq_true. split.
  - intros H. exists (take (length p - length s) p). rewrite <- H at 2. rewrite take_drop. reflexivity.
  - intros (a & ->). rewrite app_length. replace (length a + length s - length s)%nat with (length a) by lia. apply drop_app.
Qed.

Section Runner.
Context {R : renv}.

Lemma excluded_iff patterns p : (forall pattern, In pattern patterns -> re_match R pattern p <> None) ->
  exists b, isExcluded patterns p = Some b /\ (b = true <-> excluded patterns p).
Proof.
  unfold excluded. induction patterns as [|q r IH]; intros H.
  - exists false. split; [reflexivity|]. split; [discriminate|]. intros (x & [] & _).
  - destruct IH as (b & Hb & Hi); [intros x Hx; apply H; right; exact Hx|]. cbn [isExcluded].
    destruct (re_match R q p) as [[|]|] eqn:Hq.
    + exists true. split; [reflexivity|]. split; [|reflexivity]. intros _. exists q. split; [left; reflexivity|exact Hq].
    + exists b. split; [exact Hb|]. rewrite Hi. split.
      * intros (x & Hx & Hy). exists x. split; [right; exact Hx|exact Hy].
      * intros (x & [<-|Hx] & Hy); [congruence|]. exists x. auto.
    + destruct (H q); [left; reflexivity|exact Hq].
Qed.

(** * One file after others *)
Definition keeps (f : resolver -> bytes -> executor -> executor * option (sres unit)) : Prop :=
  forall fr p x, x_loaded x = true -> x_loaded (fst (f fr p x)) = true /\ x_schedule (fst (f fr p x)) = x_schedule x.
Lemma steps_keep f l : keeps f -> forall x, x_loaded x = true ->
  x_loaded (fst (run_steps f l x)) = true /\ x_schedule (fst (run_steps f l x)) = x_schedule x.
Proof.
  intros Hf. induction l as [|s r IH]; intros x Hx; [auto|].
  assert (Hp : forall x' o, x_loaded x' = true -> x_schedule x' = x_schedule x ->
    let y := match o with Some (SOk _) => run_steps f r x' | _ => (x', o) end in x_loaded (fst y) = true /\ x_schedule (fst y) = x_schedule x).
  { intros x' o H1 H2. cbv zeta. destruct o as [[[]| |]|]; [|cbn [fst]; auto..]. destruct (IH x' H1) as [I1 I2]. rewrite I2. auto. }
  destruct s; cbn [run_steps]; unfold plain_step; try (destruct (ExecuteStep _ _ _) as [w o]; apply (Hp _ (Some o)); [exact Hx|reflexivity]).
  destruct (x_resolver x) as [fr|]; [|apply (Hp x (Some SPanic)); [exact Hx|reflexivity]].
  pose proof (Hf fr (ResolveAbsolutePath fr path) x Hx) as [F1 F2]. destruct (f fr _ x) as [x' o]. cbn [fst] in F1, F2.
  destruct o as [[[]| |]|]; [apply (Hp (set_x_resolver _ _) (Some (SOk tt))); assumption|cbn [fst]; auto..].
Qed.
Lemma run_keeps n : keeps (RunSingleJSONScenario n).
Proof.
  induction n as [|n IH]; intros fr p x Hx; [auto|]. cbn [RunSingleJSONScenario].
  destruct (re_abs R p) as [q|]; [|auto]. destruct (re_read R q) as [text|]; [|auto].
  destruct (ParseScenarioFile _ _ _) as [s| |]; [|auto..]. unfold ExecuteScenario.
  match goal with |- context [run_steps _ _ ?y] => assert (Hy : x_loaded y = true /\ x_schedule y = x_schedule x) end.
  { unfold SetMandosGasSchedule. cbn. rewrite Hx. auto. }
  destruct (steps_keep _ (s_steps s) IH _ (proj1 Hy)) as [H1 H2]. split; [exact H1|]. rewrite H2. apply Hy.
Qed.

Definition priced (g : vm_schedule) (x : executor) : Prop := x_loaded x = true -> x_schedule x = g.
Lemma run_alone n fr p g x : (forall q s, file_says (fr_replace fr) p q s -> schedule_of (s_gas s) = g) -> priced g x ->
  snd (RunSingleJSONScenario n fr p (Reset x)) = snd (RunSingleJSONScenario n fr p NewArwenTestExecutor) /\
  priced g (fst (RunSingleJSONScenario n fr p (Reset x))).
Proof.
  intros Hg Hx. destruct n as [|n]; [auto|]. cbn [RunSingleJSONScenario].
  destruct (re_abs R p) as [q|] eqn:Hq; [|auto]. destruct (re_read R q) as [text|] eqn:Ht; [|auto].
  destruct (ParseScenarioFile _ _ _) as [s| |] eqn:Hs; [|auto..]. unfold ExecuteScenario.
  assert (Hw : schedule_of (s_gas s) = g).
  { apply (Hg q s). apply says_iff. split; [exact Hq|]. exists text. split; [exact Ht|]. exact Hs. }
  match goal with |- context [run_steps _ _ (SetMandosGasSchedule _ ?y)] => set (y1 := y) end.
  match goal with |- _ = snd (run_steps _ _ (SetMandosGasSchedule _ ?y)) /\ _ => set (y2 := y) end.
  assert (E : SetMandosGasSchedule (s_gas s) y1 = SetMandosGasSchedule (s_gas s) y2 /\ x_loaded (SetMandosGasSchedule (s_gas s) y1) = true /\
    x_schedule (SetMandosGasSchedule (s_gas s) y1) = g).
  { unfold y1, y2, SetMandosGasSchedule, Reset, set_x_world, NewArwenTestExecutor. cbn. unfold priced in Hx.
    destruct (x_loaded x); cbn.
    - rewrite (Hx eq_refl), <- Hw, <- schedule_same. auto.
    - rewrite schedule_same, Hw. auto. }
  destruct E as (E1 & E2 & E3). rewrite <- E1. split; [reflexivity|].
  intros _. destruct (steps_keep _ (s_steps s) (run_keeps n) _ E2) as [_ ->]. exact E3.
Qed.

(** * All files *)
Lemma run_all_counts n fr suffix patterns g ps : forall a b c x, priced g x ->
  (forall pattern p, In pattern patterns -> re_match R pattern p <> None) ->
  (forall p, In p ps -> picked suffix patterns p -> forall q s, file_says (fr_replace fr) p q s -> schedule_of (s_gas s) = g) ->
  (forall p, In p ps -> picked suffix patterns p -> let o := snd (RunSingleJSONScenario n fr p NewArwenTestExecutor) in o <> None /\ o <> Some SPanic) ->
  exists good bad skipped other, Permutation ps (good ++ bad ++ skipped ++ other) /\
    snd (run_all n fr suffix patterns ps a b c x) =
      DirDone (a + N.of_nat (length good)) (b + N.of_nat (length bad)) (c + N.of_nat (length skipped)) (0 <? b + N.of_nat (length bad))%N /\
    Forall (fun p => picked suffix patterns p /\ snd (RunSingleJSONScenario n fr p NewArwenTestExecutor) = Some (SOk tt)) good /\
    Forall (fun p => picked suffix patterns p /\ snd (RunSingleJSONScenario n fr p NewArwenTestExecutor) = Some SErr) bad /\
    Forall (fun p => ends p suffix /\ excluded patterns p) skipped /\ Forall (fun p => ~ ends p suffix) other.
Proof.
  induction ps as [|p r IH]; intros a b c x Hx Hm Hg Ho.
  - exists [], [], [], []. cbn. rewrite !N.add_0_r. split_and!; constructor || reflexivity.
  - assert (Hg' : forall p, In p r -> picked suffix patterns p -> forall q s, file_says (fr_replace fr) p q s -> schedule_of (s_gas s) = g).
    { intros p' Hp'. apply Hg. right. exact Hp'. }
    assert (Ho' : forall p, In p r -> picked suffix patterns p -> let o := snd (RunSingleJSONScenario n fr p NewArwenTestExecutor) in o <> None /\ o <> Some SPanic).
    { intros p' Hp'. apply Ho. right. exact Hp'. }
    cbn [run_all]. destruct (HasSuffix p suffix) eqn:Hs.
    + apply suffix_iff in Hs. destruct (excluded_iff patterns p) as (e & He & Hi); [intros q Hq; apply Hm, Hq|]. rewrite He.
      destruct e.
      * destruct (IH a b (c + 1)%N x Hx Hm Hg' Ho') as (g1 & b1 & s1 & o1 & P1 & P2 & P3 & P4 & P5 & P6).
        exists g1, b1, (p :: s1), o1. split; [rewrite P1; change ((p :: s1) ++ o1) with (p :: (s1 ++ o1)); rewrite !(app_assoc g1 b1); apply Permutation_middle|].
        split; [rewrite P2; cbn [length]; f_equal; lia|]. split_and!; [exact P3|exact P4| |exact P6].
        constructor; [|exact P5]. split; [exact Hs|]. apply Hi. reflexivity.
      * assert (Hpk : picked suffix patterns p) by (split; [exact Hs|intros Hx'; apply Hi in Hx'; discriminate Hx']).
        destruct (Ho p (or_introl eq_refl) Hpk) as [O1 O2].
        destruct (run_alone n fr p g x (Hg p (or_introl eq_refl) Hpk) Hx) as [A1 A2].
        destruct (RunSingleJSONScenario n fr p (Reset x)) as [x' o]. cbn [fst snd] in A1, A2. rewrite <- A1 in O1, O2.
        destruct o as [[[]| |]|]; [| |destruct (O2 eq_refl)|destruct (O1 eq_refl)].
        -- destruct (IH (a + 1)%N b c x' A2 Hm Hg' Ho') as (g1 & b1 & s1 & o1 & P1 & P2 & P3 & P4 & P5 & P6).
           exists (p :: g1), b1, s1, o1. split; [rewrite P1; reflexivity|]. split; [rewrite P2; cbn [length]; f_equal; lia|].
           split_and!; [|exact P4|exact P5|exact P6]. constructor; [|exact P3]. split; [exact Hpk|]. symmetry. exact A1.
        -- destruct (IH a (b + 1)%N c x' A2 Hm Hg' Ho') as (g1 & b1 & s1 & o1 & P1 & P2 & P3 & P4 & P5 & P6).
           exists g1, (p :: b1), s1, o1. split; [rewrite P1; apply Permutation_middle|].
           split; [rewrite P2; cbn [length]; f_equal; [lia|f_equal; lia]|].
           split_and!; [exact P3| |exact P5|exact P6]. constructor; [|exact P4]. split; [exact Hpk|]. symmetry. exact A1.
    + destruct (IH a b c x Hx Hm Hg' Ho') as (g1 & b1 & s1 & o1 & P1 & P2 & P3 & P4 & P5 & P6).
      exists g1, b1, s1, (p :: o1). split; [rewrite P1; rewrite !app_assoc; apply Permutation_middle|]. split; [exact P2|].
      split_and!; [exact P3|exact P4|exact P5|]. constructor; [|exact P6]. intros H. apply suffix_iff in H. congruence.
Qed.

Lemma directory_counts n fr suffix patterns g path t x : priced g x ->
  (forall pattern p, In pattern patterns -> re_match R pattern p <> None) ->
  (forall p, under path t p -> picked suffix patterns p -> forall q s, file_says (fr_replace fr) p q s -> schedule_of (s_gas s) = g) ->
  (forall p, under path t p -> picked suffix patterns p -> let o := snd (RunSingleJSONScenario n fr p NewArwenTestExecutor) in o <> None /\ o <> Some SPanic) ->
  exists good bad skipped other,
    (forall p, under path t p <-> In p (good ++ bad ++ skipped ++ other)) /\ (tidy t -> NoDup (good ++ bad ++ skipped ++ other)) /\
    snd (RunAllJSONScenariosInDirectory n fr path t suffix patterns x) =
      DirDone (N.of_nat (length good)) (N.of_nat (length bad)) (N.of_nat (length skipped)) (negb (bool_decide (bad = []))) /\
    Forall (fun p => picked suffix patterns p /\ snd (RunSingleJSONScenario n fr p NewArwenTestExecutor) = Some (SOk tt)) good /\
    Forall (fun p => picked suffix patterns p /\ snd (RunSingleJSONScenario n fr p NewArwenTestExecutor) = Some SErr) bad /\
    Forall (fun p => ends p suffix /\ excluded patterns p) skipped /\ Forall (fun p => ~ ends p suffix) other.
Proof.
  intros Hx Hm Hg Ho.
  destruct (run_all_counts n fr suffix patterns g (walk path t) 0 0 0 x Hx Hm) as (g1 & b1 & s1 & o1 & P1 & P2 & P3 & P4 & P5 & P6).
  { intros p Hp. apply Hg, walk_under, Hp. }
  { intros p Hp. apply Ho, walk_under, Hp. }
  exists g1, b1, s1, o1. split.
  { intros p. rewrite <- walk_under. rewrite <- !elem_of_list_In. rewrite P1. reflexivity. }
  split; [intros Ht; rewrite <- P1; apply walk_nodup, Ht|]. split; [|auto].
  unfold RunAllJSONScenariosInDirectory. rewrite P2. rewrite !N.add_0_l. f_equal. destruct b1; reflexivity.
Qed.
End Runner.
