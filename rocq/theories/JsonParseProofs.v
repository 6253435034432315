(** The parser takes exactly the documents of the lax grammar. *)
From Verif Require Import Base JsonModel JsonSpec JsonProofs.
From Coq Require Import ZifyBool ZifyNat ZifyN.

Lemma run_step p s c r s' : feed p c s = JOk s' -> run p s (c :: r) = run c s' r.
Proof. intros H. cbn [run]. rewrite H. done. Qed.

(** * Every document is taken *)

Lemma run_blanks_place p q w st r : blanks w ->
  run p (SPlace :: st, None) (w ++ r) = run q (SPlace :: st, None) r.
Proof.
  intros H. revert p. induction H as [|c w Hc Hw IH]; intros p; [apply run_place|].
  change ((c :: w) ++ r) with (c :: w ++ r).
  rewrite (run_step _ _ _ _ _ (feed_place_blank p c st Hc)). apply IH.
Qed.
Lemma run_blanks_end p w pd : blanks w -> run p ([], pd) w = JOk ([], pd).
Proof.
  intros H. revert p. induction H as [|c w Hc Hw IH]; intros p; [done|].
  rewrite (run_step _ _ _ _ _ (feed_end_blank p c pd Hc)). apply IH.
Qed.
Lemma run_blanks_key p q w st r : blanks w ->
  run p (SKV [] InKey :: st, None) (w ++ r) = run q (SKV [] InKey :: st, None) r.
Proof.
  intros H. revert p. induction H as [|c w Hc Hw IH]; intros p; [by apply run_prev|].
  change ((c :: w) ++ r) with (c :: w ++ r).
  rewrite (run_step _ _ _ _ _ (feed_key_blank p c st Hc)). apply IH.
Qed.
Lemma run_blanks_colon p q k w st r : blanks w ->
  run p (SKV k InColon :: st, None) (w ++ r) = run q (SKV k InColon :: st, None) r.
Proof.
  intros H. revert p. induction H as [|c w Hc Hw IH]; intros p.
  { apply run_prev; [|done]. cbn. destruct k; done. }
  change ((c :: w) ++ r) with (c :: w ++ r).
  rewrite (run_step _ _ _ _ _ (feed_colon_blank p c k st Hc)). apply IH.
Qed.
Lemma run_blanks_map p q m w st r : blanks w ->
  run p (SMap m :: st, None) (w ++ r) = run q (SMap m :: st, None) r.
Proof.
  intros H. revert p. induction H as [|c w Hc Hw IH]; intros p; [by apply run_prev|].
  change ((c :: w) ++ r) with (c :: w ++ r).
  rewrite (run_step _ _ _ _ _ (feed_map_blank p c m st Hc)). apply IH.
Qed.
Lemma run_blanks_list p q l w st r : blanks w ->
  run p (SList l :: st, None) (w ++ r) = run q (SList l :: st, None) r.
Proof.
  intros H. revert p. induction H as [|c w Hc Hw IH]; intros p; [by apply run_prev|].
  change ((c :: w) ++ r) with (c :: w ++ r).
  rewrite (run_step _ _ _ _ _ (feed_list_blank p c l None st Hc)). apply IH.
Qed.

Lemma run_string s : forall p b st pd r, inside p s ->
  run p (SSingle (cQuote :: b) true :: st, pd) (s ++ cQuote :: r)
  = run cQuote (st, Some (JStr (b ++ s))) r.
Proof.
  induction s as [|c s IH]; intros p b st pd r; cbn [inside app].
  - intros H. rewrite app_nil_r.
    rewrite (run_step _ _ _ _ _ (feed_string_end p b st pd H)). done.
  - intros [H1 H2].
    rewrite (run_step p _ c (s ++ cQuote :: r) (SSingle (cQuote :: b ++ [c]) true :: st, pd)).
    + rewrite IH by done. rewrite <- app_assoc. done.
    + apply feed_string_more. destruct (is_spec c cQuote); auto.
Qed.
Lemma run_key s : forall p b st r, inside p s ->
  run p (SKV (cQuote :: b) InKey :: st, None) (s ++ cQuote :: r)
  = run cQuote (SKV (cQuote :: (b ++ s) ++ [cQuote]) InColon :: st, None) r.
Proof.
  induction s as [|c s IH]; intros p b st r; cbn [inside app].
  - intros H. rewrite app_nil_r.
    rewrite (run_step _ _ _ _ _ (feed_key_end p b st H)). done.
  - intros [H1 H2].
    rewrite (run_step p _ c (s ++ cQuote :: r) (SKV (cQuote :: b ++ [c]) InKey :: st, None)).
    + rewrite IH by done. rewrite <- (app_assoc b [c] s). done.
    + apply feed_key_more. destruct (is_spec c cQuote); auto.
Qed.

(** What follows a boolean must end it. *)
Definition ended (v : json) (r : bytes) : Prop :=
  match v, r with
  | JBool _, [] => False
  | JBool _, c :: _ => blank c \/ closes c
  | _, _ => True
  end.

Lemma run_single_end p q a b st c r v : resting st -> blank c \/ closes c ->
  finalize (a :: b) = JOk v ->
  run p (SSingle (a :: b) false :: st, None) (c :: r) = run q (st, Some v) (c :: r).
Proof.
  intros Hs Hc Hf. cbn [run]. rewrite feed_single_end by done. rewrite Hf.
  rewrite (feed_prev p q).
  - done.
  - destruct Hs; cbn; try done.
  - destruct Hs; cbn; try done. constructor.
Qed.

Lemma run_word p a b st r : forall b0,
  Forall (fun c => ~ blank c /\ ~ closes c) b ->
  exists q, run p (SSingle (a :: b0) false :: st, None) (b ++ r)
            = run q (SSingle (a :: b0 ++ b) false :: st, None) r.
Proof.
  revert p. induction b as [|c b IH]; intros p b0 H.
  - exists p. rewrite app_nil_r. done.
  - apply Forall_cons_1 in H as [[H1 H2] H].
    destruct (IH c (b0 ++ [c]) H) as [q Hq]. exists q.
    change ((c :: b) ++ r) with (c :: b ++ r).
    rewrite (run_step _ _ _ _ _ (feed_single_more p c a b0 st None H1 H2)).
    rewrite Hq, <- app_assoc. done.
Qed.

Lemma word_chars (s : bytes) :
  forallb (fun c => negb (isWhitespace c) && negb (closer c)) s = true ->
  Forall (fun c => ~ blank c /\ ~ closes c) s.
Proof.
  intros H. rewrite forallb_forall in H. apply Forall_forall. intros c Hc.
  specialize (H c). rewrite <- elem_of_list_In in H. specialize (H Hc).
  apply andb_prop in H as [H1 H2]. split.
  - destruct (ws_spec c); [discriminate|done].
  - destruct (closer_spec c); [discriminate|done].
Qed.

Lemma run_bool p q a b st r v :
  ~ blank a -> a <> cOpenMap -> a <> cOpenList -> ~ closes a -> a <> cQuote ->
  forallb (fun c => negb (isWhitespace c) && negb (closer c)) b = true ->
  finalize (a :: b) = JOk (JBool v) -> resting st -> ended (JBool v) r ->
  run p (SPlace :: st, None) ((a :: b) ++ r) = run q (st, Some (JBool v)) r.
Proof.
  intros H1 H2 H3 H4 H5 Hb Hf Hs He.
  change ((a :: b) ++ r) with (a :: b ++ r).
  rewrite (run_step _ _ _ _ _ (feed_place_other p a st H1 H2 H3 H4)).
  rewrite is_neq by done.
  destruct (run_word a a b st r [] (word_chars b Hb)) as [q' Hq]. rewrite Hq.
  cbn [app]. destruct r as [|c r]; [done|]. apply run_single_end; done.
Qed.

(** What the entries of a map add up to. *)
Definition put_all (m kvs : list (bytes * json)) : list (bytes * json) :=
  fold_left (fun m kv => Put m (fst kv) (snd kv)) kvs m.

Lemma put_all_first kvs : forall m,
  put_all m kvs = m ++ first_wins (map fst m) kvs.
Proof.
  induction kvs as [|[k v] kvs IH]; intros m.
  - cbn. rewrite app_nil_r. done.
  - change (put_all m ((k, v) :: kvs)) with (put_all (Put m k v) kvs).
    cbn [first_wins]. rewrite IH. unfold Put.
    assert (existsb (fun kv => bool_decide (fst kv = k)) m = bool_decide (k ∈ map fst m)) as Heq.
    { apply eq_bool_prop_intro. rewrite !Is_true_true. rewrite existsb_exists, bool_decide_eq_true.
      rewrite elem_of_list_In, in_map_iff. split.
      - intros (kv & Hi & Hk). apply bool_decide_eq_true in Hk. eauto.
      - intros (kv & Hk & Hi). exists kv. split; [done|]. apply bool_decide_eq_true. done. }
    rewrite Heq. destruct (decide (k ∈ map fst m)) as [Hi|Hi].
    + rewrite bool_decide_eq_true_2 by done. done.
    + rewrite bool_decide_eq_false_2 by done. rewrite map_app. cbn [map fst].
      rewrite <- app_assoc. cbn [app]. do 2 f_equal.
      assert (forall s1 s2, (forall x, x ∈ s1 <-> x ∈ s2) ->
                first_wins s1 kvs = first_wins s2 kvs) as Hext.
      { clear. induction kvs as [|[k v] kvs IH]; intros s1 s2 H; [done|]. cbn.
        destruct (decide (k ∈ s1)) as [H1|H1], (decide (k ∈ s2)) as [H2|H2].
        - apply IH. done.
        - exfalso. apply H2, H, H1.
        - exfalso. apply H1, H, H2.
        - f_equal. apply IH. intros x. rewrite !elem_of_cons, H. done. }
      apply Hext. intros x. rewrite elem_of_app, !elem_of_cons. pose proof (not_elem_of_nil x). tauto.
Qed.

Scheme item_m := Minimality for item Sort Prop
  with items_m := Minimality for items Sort Prop
  with more_m := Minimality for more Sort Prop
  with entries_m := Minimality for entries Sort Prop
  with entry_m := Minimality for entry Sort Prop
  with others_m := Minimality for others Sort Prop.
Combined Scheme grammar_m from item_m, items_m, more_m, entries_m, entry_m, others_m.

Lemma run_junk p q l j st r : l <> [] ->
  Forall (fun c => c <> cComma /\ c <> cCloseList) j ->
  run p (SList l :: st, None) (j ++ r) = run q (SList l :: st, None) r.
Proof.
  intros Hl H. revert p. induction H as [|c w [Hc1 Hc2] Hw IH]; intros p; [by apply run_prev|].
  change ((c :: w) ++ r) with (c :: w ++ r).
  rewrite (run_step _ _ _ _ (SList l :: st, None)); [apply IH|].
  apply (feed_list_junk p c l None st); done.
Qed.

(** The element before is taken in by what comes next. *)
Lemma run_take p q l v j st r c :
  Forall (fun c => c <> cComma /\ c <> cCloseList) j ->
  c = cComma \/ c = cCloseList ->
  run p (SList l :: st, Some v) (j ++ c :: r)
  = run q (SList (l ++ [v]) :: st, None) (c :: r).
Proof.
  intros Hj Hc. assert (l ++ [v] <> []) as Hl by (destruct l; done).
  destruct j as [|d j].
  - cbn [app]. destruct Hc as [-> | ->].
    + rewrite (run_step _ _ _ _ _ (feed_list_comma p l (Some v) st Hl)).
      rewrite (run_step _ _ _ _ _ (feed_list_comma q (l ++ [v]) None st Hl)). done.
    + rewrite (run_step _ _ _ _ _ (feed_list_close p l (Some v) st)).
      rewrite (run_step _ _ _ _ _ (feed_list_close q (l ++ [v]) None st)). done.
  - apply Forall_cons_1 in Hj as [[H1 H2] Hj].
    change ((d :: j) ++ c :: r) with (d :: j ++ c :: r).
    rewrite (run_step _ _ _ _ _ (feed_list_junk p d l (Some v) st Hl H1 H2)).
    apply run_junk; done.
Qed.

Lemma run_took p q k m st v inp :
  match inp with [] => False | _ => True end ->
  run p (SKV (cQuote :: k ++ [cQuote]) InValue :: SMap m :: st, Some v) inp
  = run q (SMap (Put m k v) :: st, None) inp.
Proof.
  destruct inp as [|c r]; [done|]. intros _. cbn [run].
  rewrite feed_value, settle_map by apply put_some.
  rewrite (feed_prev p q) by done. done.
Qed.

Lemma ended_any v r : ~ is_bool v -> ended v r.
Proof. destruct v; cbn; try done. intros H. destruct H. eexists. done. Qed.
Lemma ended_cons v c r : blank c \/ closes c -> ended v (c :: r).
Proof. destruct v; done. Qed.

Ltac assoc := cbn [app]; repeat (rewrite <- app_assoc; cbn [app]).

Theorem grammar_runs :
  (forall t v, item lax t v -> forall p q st r, resting st -> ended v r ->
     run p (SPlace :: st, None) (t ++ r) = run q (st, Some v) r)
  /\ (forall b vs, items lax b vs -> forall p q st r, resting st ->
     run p (SList [] :: st, None) (b ++ cCloseList :: r) = run q (st, Some (JList vs)) r)
  /\ (forall v b vs, more lax v b vs -> forall p q l st r, resting st ->
     run p (SList l :: st, Some v) (b ++ cCloseList :: r)
     = run q (st, Some (JList (l ++ v :: vs))) r
     /\ ended v (b ++ cCloseList :: r))
  /\ (forall b kvs, entries lax b kvs -> forall p q st r, resting st ->
     run p (SMap [] :: st, None) (b ++ cCloseMap :: r)
     = run q (st, Some (JMap (put_all [] kvs))) r)
  /\ (forall e k v, entry lax e k v -> forall p q m st r, ended v r ->
     run p (SKV [] InKey :: SMap m :: st, None) (e ++ r)
     = run q (SKV (cQuote :: k ++ [cQuote]) InValue :: SMap m :: st, Some v) r)
  /\ (forall b kvs, others lax b kvs -> forall p q m st r, resting st ->
     run p (SMap m :: st, None) (b ++ cCloseMap :: r)
     = run q (st, Some (JMap (put_all m kvs))) r
     /\ (forall v, ended v (b ++ cCloseMap :: r))).
Proof.
  apply grammar_m; cbn [d_string d_filler d_lead d_keys lax].
  - (* strings *)
    intros s Hs p q st r Hr _. assoc.
    rewrite (run_step _ _ _ _ (SSingle [cQuote] true :: st, None)) by reflexivity.
    rewrite run_string by (by apply quotable_inside).
    apply run_resting. done.
  - intros p q st r Hr He. apply run_bool; try done; vm_compute; intuition discriminate.
  - intros p q st r Hr He. apply run_bool; try done; vm_compute; intuition discriminate.
  - intros b vs _ IH p q st r Hr _. assoc.
    rewrite (run_step _ _ _ _ _ (feed_place_list p st)). apply IH. done.
  - intros b kvs _ IH _ p q st r Hr _. assoc.
    rewrite (run_step _ _ _ _ _ (feed_place_map p st)).
    rewrite (put_all_first kvs []) in IH. apply IH. done.
  - (* inside lists *)
    intros w Hw p q st r Hr. rewrite (run_blanks_list p p) by done.
    rewrite (run_step _ _ _ _ _ (feed_list_close p [] None st)). by apply run_resting.
  - intros w t v b vs Hw Ht IHt Hb IHb p q st r Hr. assoc.
    rewrite (run_blanks_list p p) by done.
    assert (run p (SList [] :: st, None) (t ++ b ++ cCloseList :: r)
            = run p (SPlace :: SList [] :: st, None) (t ++ b ++ cCloseList :: r)) as ->.
    { assert (exists c t', t = c :: t' /\ ~ blank c /\ c <> cCloseList) as (c & t' & -> & Hc & Hc').
      { destruct Ht; [..|].
        - eexists _, _. split; [reflexivity|]. vm_compute. intuition discriminate.
        - eexists _, _. split; [reflexivity|]. vm_compute. intuition discriminate.
        - eexists _, _. split; [reflexivity|]. vm_compute. intuition discriminate.
        - eexists _, _. split; [reflexivity|]. vm_compute. intuition discriminate.
        - eexists _, _. split; [reflexivity|]. vm_compute. intuition discriminate. }
      cbn [app run]. rewrite feed_list_first by done. done. }
    destruct (IHb p q [] st r Hr) as [H1 H2].
    rewrite (IHt p p); [exact H1|constructor|exact H2].
  - intros v j [Hj1 Hj2] p q l st r Hr. split.
    + rewrite (run_take p p) by auto.
      rewrite (run_step _ _ _ _ _ (feed_list_close p (l ++ [v]) None st)).
      by apply run_resting.
    + destruct v; try done. destruct j as [|c j].
      * right. left. done.
      * destruct Hj2 as [H|H]; [by left|]. right. right. left. done.
  - intros v j w t v' b vs [Hj1 Hj2] Hw Ht IHt Hb IHb p q l st r Hr. assoc. split.
    + rewrite (run_take p p) by auto.
      assert (l ++ [v] <> []) as Hl by (destruct l; done).
      rewrite (run_step _ _ _ _ _ (feed_list_comma p (l ++ [v]) None st Hl)).
      rewrite (run_blanks_place _ p) by done.
      destruct (IHb p q (l ++ [v]) st r Hr) as [H1 H2].
      rewrite (IHt p p); [|constructor|exact H2]. rewrite H1, <- app_assoc. done.
    + destruct v; try done. destruct j as [|c j].
      * right. right. right. done.
      * destruct Hj2 as [H|H]; [by left|]. right. right. left. done.
  - (* inside maps *)
    intros w Hw p q st r Hr. rewrite (run_blanks_map p p) by done.
    rewrite (run_step _ _ _ _ _ (feed_map_close p [] st)). by apply run_resting.
  - intros l e k v b kvs Hl He IHe Hb IHb p q st r Hr. assoc.
    destruct (IHb p q (Put [] k v) st r Hr) as [H1 H2].
    assert (run p (SMap [] :: st, None) (l ++ e ++ b ++ cCloseMap :: r)
            = run p (SKV [] InKey :: SMap [] :: st, None) (e ++ b ++ cCloseMap :: r)) as ->.
    { destruct Hl as [Hl|(w & w' & -> & Hw & Hw')].
      - rewrite (run_blanks_map p p) by done.
        assert (exists e', e = cQuote :: e') as [e' ->].
        { destruct He. eexists. reflexivity. }
        cbn [app]. reflexivity.
      - assoc. rewrite (run_blanks_map p p) by done.
        rewrite (run_step _ _ _ _ _ (feed_map_comma p [] st)).
        rewrite (run_blanks_key _ p) by done. done. }
    rewrite (IHe p p) by apply H2. rewrite (run_took p p); [exact H1|].
    destruct b; done.
  - intros k w1 w2 t v Hk Hw1 Hw2 Ht IHt p q m st r Hr. assoc.
    rewrite (run_step _ _ _ _ _ (feed_key_start p (SMap m :: st))).
    rewrite run_key by (by apply quotable_inside).
    rewrite (run_blanks_colon _ p) by done.
    rewrite (run_step _ _ _ _ _ (feed_colon p _ (SMap m :: st))).
    rewrite (run_blanks_place _ p) by done. apply IHt; [constructor|done].
  - intros w Hw p q m st r Hr. split.
    + rewrite (run_blanks_map p p) by done.
      rewrite (run_step _ _ _ _ _ (feed_map_close p m st)). by apply run_resting.
    + intros v. destruct Hw as [|c w Hc Hw]; apply ended_cons; [|by left].
      right. right. left. done.
  - intros w w1 e k v b kvs Hw Hw1 He IHe Hb IHb p q m st r Hr. assoc.
    destruct (IHb p q (Put m k v) st r Hr) as [H1 H2]. split.
    + rewrite (run_blanks_map p p) by done.
      rewrite (run_step _ _ _ _ _ (feed_map_comma p m st)).
      rewrite (run_blanks_key _ p) by done.
      rewrite (IHe p p) by apply H2. rewrite (run_took p p); [exact H1|].
      destruct b; done.
    + intros v'. destruct Hw as [|c w Hc Hw]; apply ended_cons; [|by left].
      right. right. right. done.
Qed.

Lemma lax_accepted t v : lax_document t v -> ParseOrderedJSON t = JOk (Some v).
Proof.
  intros (w & t' & w' & -> & Hw & Ht & Hw' & Hb). unfold ParseOrderedJSON.
  rewrite (run_blanks_place _ Byte.x00) by done.
  rewrite (proj1 grammar_runs t' v Ht _ Byte.x00).
  - rewrite run_blanks_end by done. done.
  - constructor.
  - destruct v; try done. destruct Hw' as [|c w' Hc Hw']; [done|]. by left.
Qed.

(** * Only documents are taken *)

Lemma split_first (P : byte -> Prop) `{forall c, Decision (P c)} (inp : bytes) :
  (exists j c r, inp = j ++ c :: r /\ Forall P j /\ ~ P c) \/ Forall P inp.
Proof.
  induction inp as [|c r [(j & d & r' & -> & Hj & Hd)|IH]].
  - right. constructor.
  - destruct (decide (P c)) as [Hc|Hc].
    + left. exists (c :: j), d, r'. split_and!; [done|by constructor|done].
    + left. exists [], c, (j ++ d :: r'). split_and!; [done|constructor|done].
  - destruct (decide (P c)) as [Hc|Hc].
    + right. by constructor.
    + left. exists [], c, r. split_and!; [done|constructor|done].
Qed.

Global Instance blank_dec c : Decision (blank c).
Proof. destruct (ws_spec c); [left|right]; done. Defined.
Global Instance neq_dec c : Decision (c <> cComma /\ c <> cCloseList).
Proof.
  destruct (is_spec c cComma); [right; intuition|].
  destruct (is_spec c cCloseList); [right; intuition|]. left. done.
Defined.

Definition ends (x : jres machine) (res : option json) : Prop := x = JOk ([], res).

Lemma skip_blanks p q s inp res :
  (forall w r, blanks w -> run p s (w ++ r) = run q s r) -> fst s <> [] ->
  ends (run p s inp) res ->
  exists w c r, inp = w ++ c :: r /\ blanks w /\ ~ blank c /\ ends (run q s (c :: r)) res.
Proof.
  intros Hs Hn He. destruct (split_first blank inp) as [(w & c & r & -> & Hw & Hc)|Hw].
  - rewrite Hs in He by done. eauto 10.
  - exfalso. rewrite <- (app_nil_r inp), Hs in He by done. cbn [run] in He.
    unfold ends in He. injection He as ->. done.
Qed.

Lemma string_found inp : forall p b st pd res,
  ends (run p (SSingle (cQuote :: b) true :: st, pd) inp) res ->
  exists s r, inp = s ++ cQuote :: r /\ inside p s
    /\ ends (run cQuote (st, Some (JStr (b ++ s))) r) res.
Proof.
  induction inp as [|c inp IH]; intros p b st pd res He; [discriminate He|].
  destruct (decide (c = cQuote /\ p <> cBackslash)) as [[-> Hp]|Hn].
  - exists [], inp. split_and!; [done|done|].
    rewrite (run_step _ _ _ _ _ (feed_string_end p b st pd Hp)) in He.
    rewrite app_nil_r. done.
  - assert (c <> cQuote \/ p = cBackslash) as Hc.
    { destruct (is_spec c cQuote); [|by left]. destruct (is_spec p cBackslash); [by right|].
      exfalso. by apply Hn. }
    rewrite (run_step _ _ _ _ _ (feed_string_more p c b st pd Hc)) in He.
    apply IH in He as (s & r & -> & Hs & He). exists (c :: s), r.
    rewrite <- app_assoc in He. split_and!; [done| |exact He].
    cbn. split; [|done]. intros ->. by destruct Hc.
Qed.
Lemma key_found inp : forall p b st res,
  ends (run p (SKV (cQuote :: b) InKey :: st, None) inp) res ->
  exists s r, inp = s ++ cQuote :: r /\ inside p s
    /\ ends (run cQuote (SKV (cQuote :: (b ++ s) ++ [cQuote]) InColon :: st, None) r) res.
Proof.
  induction inp as [|c inp IH]; intros p b st res He; [discriminate He|].
  destruct (decide (c = cQuote /\ p <> cBackslash)) as [[-> Hp]|Hn].
  - exists [], inp. split_and!; [done|done|].
    rewrite (run_step _ _ _ _ _ (feed_key_end p b st Hp)) in He.
    rewrite app_nil_r. done.
  - assert (c <> cQuote \/ p = cBackslash) as Hc.
    { destruct (is_spec c cQuote); [|by left]. destruct (is_spec p cBackslash); [by right|].
      exfalso. by apply Hn. }
    rewrite (run_step _ _ _ _ _ (feed_key_more p c b st Hc)) in He.
    apply IH in He as (s & r & -> & Hs & He). exists (c :: s), r.
    rewrite <- (app_assoc b [c] s) in He. split_and!; [done| |exact He].
    cbn. split; [|done]. intros ->. by destruct Hc.
Qed.
Lemma word_found inp : forall p a b st res, resting st ->
  ends (run p (SSingle (a :: b) false :: st, None) inp) res ->
  exists s c r v q, inp = s ++ c :: r /\ (blank c \/ closes c)
    /\ finalize (a :: b ++ s) = JOk v /\ ends (run q (st, Some v) (c :: r)) res.
Proof.
  induction inp as [|c inp IH]; intros p a b st res Hs He; [discriminate He|].
  assert (Decision (blank c \/ closes c)) as Hd.
  { destruct (ws_spec c); [left; auto|]. destruct (closer_spec c); [left; auto|].
    right. tauto. }
  destruct Hd as [Hc|Hc].
  - exists [], c, inp. rewrite app_nil_r.
    unfold ends in He. cbn [run] in He. rewrite feed_single_end in He by done.
    destruct (finalize (a :: b)) as [v|] eqn:Ef; [|discriminate].
    exists v, p. split_and!; try done.
  - assert (~ blank c) as H1 by tauto. assert (~ closes c) as H2 by tauto.
    rewrite (run_step _ _ _ _ _ (feed_single_more p c a b st None H1 H2)) in He.
    apply IH in He as (s & d & r & v & q & -> & Hd & Hf & He); [|done].
    rewrite <- app_assoc in Hf. exists (c :: s), d, r, v, q. done.
Qed.

Lemma item_some t v : item lax t v -> exists c t', t = c :: t'.
Proof. destruct 1; eexists _, _; reflexivity. Qed.

Definition value_found (n : nat) : Prop := forall inp p st res,
  (length inp <= n)%nat -> resting st ->
  ends (run p (SPlace :: st, None) inp) res ->
  exists w t v r q, inp = w ++ t ++ r /\ blanks w /\ item lax t v /\ ended v r
    /\ ends (run q (st, Some v) r) res.

Ltac lens := repeat (progress (try rewrite !app_length in *; cbn [length] in * )); lia.

Lemma ignored_of v j c r : Forall (fun c => c <> cComma /\ c <> cCloseList) j ->
  ended v (j ++ c :: r) -> ignored v j.
Proof.
  intros Hj He. split; [done|]. destruct v; try done. destruct j as [|d j]; [done|].
  apply Forall_cons_1 in Hj as [[H1 H2] _]. cbn in He.
  destruct He as [H|[H|[H|H]]]; auto; done.
Qed.

Section Found.
  Context (n : nat) (IH : forall m, (m < n)%nat -> value_found m).

  Lemma more_found k : (k < n)%nat -> forall inp p l v st res,
    (length inp <= k)%nat -> resting st -> ended v inp ->
    ends (run p (SList l :: st, Some v) inp) res ->
    exists b vs r q, inp = b ++ cCloseList :: r /\ more lax v b vs
      /\ ends (run q (st, Some (JList (l ++ v :: vs))) r) res.
  Proof.
    intros Hk inp. remember (length inp) as len eqn:Hlen.
    revert inp Hlen. induction (lt_wf len) as [len _ IHl].
    intros inp -> p l v st res Hi Hs Hv He.
    destruct (split_first (fun c => c <> cComma /\ c <> cCloseList) inp)
      as [(j & c & r & -> & Hj & Hc)|Hj].
    2:{ exfalso. destruct inp as [|c r]; [discriminate He|].
        apply Forall_cons_1 in Hj as [[H1 H2] Hj].
        assert (l ++ [v] <> []) as Hl by (destruct l; done).
        rewrite (run_step _ _ _ _ _ (feed_list_junk p c l (Some v) st Hl H1 H2)) in He.
        rewrite <- (app_nil_r r), (run_junk _ p) in He by done. discriminate He. }
    pose proof (ignored_of v j c r Hj Hv) as Hig.
    assert (c = cComma \/ c = cCloseList) as Hc'.
    { destruct (is_spec c cComma); [by left|]. destruct (is_spec c cCloseList); [by right|].
      exfalso. by apply Hc. }
    rewrite (run_take p p) in He by done.
    assert (l ++ [v] <> []) as Hl by (destruct l; done).
    destruct Hc' as [-> | ->].
    - rewrite (run_step _ _ _ _ _ (feed_list_comma p (l ++ [v]) None st Hl)) in He.
      apply (IH k Hk) in He as (w & t & v' & r' & q & -> & Hw & Ht & Hv' & He);
        [|lens|constructor].
      destruct (item_some t v' Ht) as (d & t' & Hd).
      apply (IHl (length r')) in He as (b & vs & r'' & q' & -> & Hb & He);
        [|subst t; lens|done|subst t; lens|done|done].
      exists (j ++ cComma :: w ++ t ++ b), (v' :: vs), r'', q'.
      rewrite <- (app_assoc l [v]) in He. split_and!; [|by constructor|exact He].
      assoc. done.
    - rewrite (run_step _ _ _ _ _ (feed_list_close p (l ++ [v]) None st)) in He.
      exists j, [], r, cCloseList. split_and!; [done|by constructor|exact He].
  Qed.

  Lemma items_found k : (k < n)%nat -> forall inp p st res,
    (length inp <= k)%nat -> resting st ->
    ends (run p (SList [] :: st, None) inp) res ->
    exists b vs r q, inp = b ++ cCloseList :: r /\ items lax b vs
      /\ ends (run q (st, Some (JList vs)) r) res.
  Proof.
    intros Hk inp p st res Hi Hs He.
    apply (skip_blanks p p) in He as (w & c & r & -> & Hw & Hc & He);
      [|intros; by apply run_blanks_list|done].
    destruct (is_spec c cCloseList) as [->|Hc'].
    - rewrite (run_step _ _ _ _ _ (feed_list_close p [] None st)) in He.
      exists w, [], r, cCloseList. split_and!; [done|by constructor|exact He].
    - assert (ends (run p (SPlace :: SList [] :: st, None) (c :: r)) res) as He'.
      { unfold ends in *. cbn [run] in *. rewrite feed_list_first in He by done. exact He. }
      clear He. apply (IH k Hk) in He' as (w' & t & v & r' & q & Hr & Hw' & Ht & Hv & He);
        [|lens|constructor].
      destruct (item_some t v Ht) as (d & t' & Hd).
      assert (length (c :: r) = length (w' ++ t ++ r')) as Hlen by (by rewrite Hr).
      apply (more_found k Hk) in He as (b & vs & r'' & q' & -> & Hb & He);
        [|subst t; lens|done|done].
      exists ((w ++ w') ++ t ++ b), (v :: vs), r'', q'. rewrite Hr.
      split_and!; [by assoc| |exact He].
      constructor; [|done|done]. apply Forall_app. done.
  Qed.

  Lemma entry_found k : (k < n)%nat -> forall inp p m st res,
    (length inp <= k)%nat ->
    ends (run p (SKV [] InKey :: SMap m :: st, None) inp) res ->
    exists w e key v r q, inp = w ++ e ++ r /\ blanks w /\ entry lax e key v
      /\ ends (run q (SKV (cQuote :: key ++ [cQuote]) InValue :: SMap m :: st, Some v) r) res.
  Proof.
    intros Hk inp p m st res Hi He.
    apply (skip_blanks p p) in He as (w & c & r & -> & Hw & Hc & He);
      [|intros; by apply run_blanks_key|done].
    destruct (is_spec c cQuote) as [->|Hq].
    2:{ unfold ends in He. cbn [run] in He. rewrite feed_key_other in He by done. discriminate. }
    rewrite (run_step _ _ _ _ _ (feed_key_start p (SMap m :: st))) in He.
    apply key_found in He as (key & r1 & -> & Hin & He). cbn [app] in He.
    apply (skip_blanks _ p) in He as (w1 & c & r2 & -> & Hw1 & Hc1 & He);
      [|intros; by apply run_blanks_colon|done].
    destruct (is_spec c cColon) as [->|Hq].
    2:{ unfold ends in He. cbn [run] in He. rewrite feed_colon_other in He by done. discriminate. }
    rewrite (run_step _ _ _ _ _ (feed_colon p _ (SMap m :: st))) in He.
    apply (IH k Hk) in He as (w2 & t & v & r' & q & -> & Hw2 & Ht & Hv & He);
      [|lens|constructor].
    exists w, (cQuote :: key ++ cQuote :: w1 ++ cColon :: w2 ++ t), key, v, r', q.
    split_and!; [by assoc|done| |done].
    constructor; try done. cbn. by apply quotable_inside.
  Qed.

  Lemma others_found k : (k < n)%nat -> forall inp p m st res,
    (length inp <= k)%nat -> resting st -> m <> [] ->
    ends (run p (SMap m :: st, None) inp) res ->
    exists b kvs r q, inp = b ++ cCloseMap :: r /\ others lax b kvs
      /\ ends (run q (st, Some (JMap (put_all m kvs))) r) res.
  Proof.
    intros Hk inp. remember (length inp) as len eqn:Hlen.
    revert inp Hlen. induction (lt_wf len) as [len _ IHl].
    intros inp -> p m st res Hi Hs Hm He.
    apply (skip_blanks p p) in He as (w & c & r & -> & Hw & Hc & He);
      [|intros; by apply run_blanks_map|done].
    destruct (is_spec c cCloseMap) as [->|H1].
    { rewrite (run_step _ _ _ _ _ (feed_map_close p m st)) in He.
      exists w, [], r, cCloseMap. split_and!; [done|by constructor|exact He]. }
    destruct (is_spec c cComma) as [->|H2].
    2:{ destruct (feed_map_other p c m st Hc H1 H2 (or_intror Hm)) as [e Hf].
        unfold ends in He. cbn [run] in He. rewrite Hf in He. discriminate. }
    rewrite (run_step _ _ _ _ _ (feed_map_comma p m st)) in He.
    apply (entry_found k Hk) in He as (w1 & e & key & v & r' & q & -> & Hw1 & Hen & He);
      [|lens].
    rewrite (run_took q q) in He by (destruct r'; [discriminate He|done]).
    apply (IHl (length r')) in He as (b & kvs & r'' & q' & -> & Hb & He);
      [|lens|done|lens|done|apply put_some].
    exists (w ++ cComma :: w1 ++ e ++ b), ((key, v) :: kvs), r'', q'.
    split_and!; [by assoc|by constructor|exact He].
  Qed.

  Lemma entries_found k : (k < n)%nat -> forall inp p st res,
    (length inp <= k)%nat -> resting st ->
    ends (run p (SMap [] :: st, None) inp) res ->
    exists b kvs r q, inp = b ++ cCloseMap :: r /\ entries lax b kvs
      /\ ends (run q (st, Some (JMap (put_all [] kvs))) r) res.
  Proof.
    intros Hk inp p st res Hi Hs He.
    apply (skip_blanks p p) in He as (w & c & r & -> & Hw & Hc & He);
      [|intros; by apply run_blanks_map|done].
    destruct (is_spec c cCloseMap) as [->|H1].
    { rewrite (run_step _ _ _ _ _ (feed_map_close p [] st)) in He.
      exists w, [], r, cCloseMap. split_and!; [done|by constructor|exact He]. }
    assert (exists w' c' r', w ++ c :: r = w' ++ c' ++ r' /\ leading w'
        /\ (length r' <= length (c :: r))%nat /\ c' = []
        /\ ends (run c (SKV [] InKey :: SMap [] :: st, None) r') res)
      as (w' & c' & r' & Heq & Hl & Hlen & -> & He').
    { destruct (is_spec c cComma) as [->|H2].
      - rewrite (run_step _ _ _ _ _ (feed_map_comma p [] st)) in He.
        exists (w ++ [cComma]), [], r. split_and!; [by assoc| |cbn; lia|done|exact He].
        right. exists w, []. split_and!; [done|done|constructor].
      - destruct (is_spec c cQuote) as [->|H3].
        2:{ destruct (feed_map_other p c [] st Hc H1 H2 (or_introl H3)) as [e Hf].
            unfold ends in He. cbn [run] in He. rewrite Hf in He. discriminate. }
        exists w, [], (cQuote :: r). split_and!; [done|by left|done|done|exact He]. }
    cbn [app] in Heq. rewrite Heq.
    apply (entry_found k Hk) in He' as (w1 & e & key & v & r1 & q & -> & Hw1 & Hen & He');
      [|lens].
    rewrite (run_took q q) in He' by (destruct r1; [discriminate He'|done]).
    apply (others_found k Hk) in He' as (b & kvs & r2 & q' & -> & Hb & He');
      [|lens|done|apply put_some].
    exists ((w' ++ w1) ++ e ++ b), ((key, v) :: kvs), r2, q'.
    split_and!; [by assoc| |exact He']. constructor; [|done|done].
    destruct Hl as [Hl|(x & y & -> & Hx & Hy)].
    - left. apply Forall_app. done.
    - right. exists x, (y ++ w1). split_and!; [by assoc|done|]. apply Forall_app. done.
  Qed.
End Found.

Lemma found n : value_found n.
Proof.
  induction (lt_wf n) as [n _ IH]. intros inp p st res Hi Hs He.
  apply (skip_blanks p p) in He as (w & c & r & -> & Hw & Hc & He);
    [|intros; by apply run_blanks_place|done].
  assert (length r < n)%nat as Hr by lens.
  destruct (is_spec c cOpenMap) as [->|H1].
  { rewrite (run_step _ _ _ _ _ (feed_place_map p st)) in He.
    apply (entries_found n IH (length r) Hr) in He as (b & kvs & r' & q & -> & Hb & He);
      [|lia|done].
    exists w, (cOpenMap :: b ++ [cCloseMap]), (JMap (first_wins [] kvs)), r', q.
    rewrite put_all_first in He. split_and!; [by assoc|done|by constructor|done|exact He]. }
  destruct (is_spec c cOpenList) as [->|H2].
  { rewrite (run_step _ _ _ _ _ (feed_place_list p st)) in He.
    apply (items_found n IH (length r) Hr) in He as (b & vs & r' & q & -> & Hb & He);
      [|lia|done].
    exists w, (cOpenList :: b ++ [cCloseList]), (JList vs), r', q.
    split_and!; [by assoc|done|by constructor|done|exact He]. }
  destruct (closer_spec c) as [H3|H3].
  { unfold ends in He. cbn [run] in He. rewrite feed_place_closer in He by done. discriminate. }
  rewrite (run_step _ _ _ _ _ (feed_place_other p c st Hc H1 H2 H3)) in He.
  destruct (is_spec c cQuote) as [->|H4].
  - apply string_found in He as (s & r' & -> & Hin & He). cbn [app] in He.
    exists w, (cQuote :: s ++ [cQuote]), (JStr s), r', cQuote.
    split_and!; [by assoc|done| |done|exact He]. constructor. by apply quotable_inside.
  - apply word_found in He as (s & d & r' & v & q & -> & Hd & Hf & He); [|done].
    cbn [app] in Hf. exists w, (c :: s), v, (d :: r'), q.
    apply finalize_plain in Hf; [|done].
    destruct Hf as [[Hf ->]|[Hf ->]]; rewrite Hf;
      (split_and!; [rewrite <- Hf; by assoc|done|constructor|exact Hd|exact He]).
Qed.

Lemma parse_exact t r : ParseOrderedJSON t = JOk r <-> exists v, r = Some v /\ lax_document t v.
Proof.
  split.
  - unfold ParseOrderedJSON.
    destruct (run Byte.x00 ([SPlace], None) t) as [[st pd]|e] eqn:E; [|discriminate].
    destruct st as [|x st]; [|discriminate]. intros H. injection H as ->.
    apply (found (length t)) in E as (w & t' & v & r' & q & -> & Hw & Ht & Hv & He);
      [|lia|constructor].
    assert (blanks r' /\ r = Some v) as [Hb ->].
    { clear - He. revert q He. induction r' as [|c r' IH]; intros q He.
      - unfold ends in He. cbn in He. injection He as <-. split; [constructor|done].
      - destruct (ws_spec c) as [Hc|Hc].
        + rewrite (run_step _ _ _ _ _ (feed_end_blank q c (Some v) Hc)) in He.
          apply IH in He as [H1 H2]. split; [by constructor|done].
        + unfold ends in He. cbn [run] in He. rewrite feed_end_other in He by done. discriminate. }
    exists v. split; [done|]. exists w, t', r'. split_and!; try done.
    destruct v; try done. destruct r'; done.
  - intros (v & -> & H). by apply lax_accepted.
Qed.
