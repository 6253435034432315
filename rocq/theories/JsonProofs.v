(** Proofs about ordered JSON: the parser takes exactly the texts of the lax
    grammar. *)
From Verif Require Import Base JsonModel JsonSpec.
From Coq Require Import ZifyBool ZifyNat ZifyN.

(** * Characters *)

Lemma is_spec c d : reflect (c = d) (is c d).
Proof.
  unfold is. destruct (Byte.eqb c d) eqn:E; constructor.
  - apply Byte.byte_dec_bl. done.
  - intros ->. rewrite Byte.byte_dec_lb in E by done. discriminate.
Qed.
Lemma is_eq c : is c c = true.
Proof. destruct (is_spec c c); done. Qed.
Lemma is_neq c d : c <> d -> is c d = false.
Proof. destruct (is_spec c d); done. Qed.

Lemma ws_spec c : reflect (blank c) (isWhitespace c).
Proof.
  unfold isWhitespace, blank.
  destruct (is_spec c cSpace) as [H|H]; cbn [orb]; [constructor; tauto|].
  destruct (is_spec c cNewline) as [H1|H1]; cbn [orb]; [constructor; tauto|].
  destruct (is_spec c Byte.x0d) as [H2|H2]; cbn [orb]; [constructor; tauto|].
  destruct (is_spec c Byte.x09) as [H3|H3]; constructor; tauto.
Qed.
Lemma ws_true c : blank c -> isWhitespace c = true.
Proof. destruct (ws_spec c); done. Qed.
Lemma ws_false c : ~ blank c -> isWhitespace c = false.
Proof. destruct (ws_spec c); done. Qed.

Definition closes (c : byte) : Prop := c = cCloseList \/ c = cCloseMap \/ c = cComma.
Lemma closer_spec c : reflect (closes c) (closer c).
Proof.
  unfold closer, closes.
  destruct (is_spec c cCloseList) as [H|H]; cbn [orb]; [constructor; tauto|].
  destruct (is_spec c cCloseMap) as [H1|H1]; cbn [orb]; [constructor; tauto|].
  destruct (is_spec c cComma) as [H2|H2]; constructor; tauto.
Qed.

Lemma blank_not c : blank c ->
  c <> cQuote /\ c <> cBackslash /\ c <> cComma /\ c <> cColon
  /\ c <> cOpenList /\ c <> cCloseList /\ c <> cOpenMap /\ c <> cCloseMap.
Proof. intros [->|[->|[->| ->]]]; repeat split; discriminate. Qed.

Lemma neq_quote_blank : isWhitespace cQuote = false. Proof. reflexivity. Qed.
Lemma comma_blank : isWhitespace cComma = false. Proof. reflexivity. Qed.
Lemma colon_blank : isWhitespace cColon = false. Proof. reflexivity. Qed.

(** * Strings *)

(** The string [s] after the character [p], up to its closing quote. *)
Fixpoint inside (p : byte) (s : bytes) : Prop :=
  match s with
  | [] => p <> cBackslash
  | c :: r => (c = cQuote -> p = cBackslash) /\ inside c r
  end.



Lemma inside_iff s : forall p,
  inside p s <->
  ((forall a b, s = a ++ cQuote :: b ->
      (a = [] /\ p = cBackslash) \/ exists a', a = a' ++ [cBackslash])
   /\ (s = [] -> p <> cBackslash) /\ (forall a, s <> a ++ [cBackslash])).
Proof.
  induction s as [|c s IH]; intros p; cbn [inside].
  - split.
    + intros H. split_and!; [|done|].
      * intros a b Hab. destruct a; discriminate.
      * intros a Hab. destruct a; discriminate.
    + intros (_ & H & _). auto.
  - rewrite IH. split.
    + intros (H1 & H2 & H3 & H4). split_and!; [|done|].
      * intros a b Hab. destruct a as [|x a].
        -- injection Hab as -> ->. left. auto.
        -- injection Hab as -> ->. right.
           destruct (H2 a b eq_refl) as [[-> ->]|[a' ->]].
           ++ by exists [].
           ++ by exists (x :: a').
      * intros a Hab. destruct a as [|x a].
        -- injection Hab as -> ->. by apply H3.
        -- injection Hab as -> ->. by eapply H4.
    + intros (H1 & H2 & H3). split_and!.
      * intros ->. destruct (H1 [] s eq_refl) as [[_ H]|[a' H]]; [done|].
        destruct a'; discriminate.
      * intros a b ->. destruct (H1 (c :: a) b eq_refl) as [[H _]|[a' H]]; [done|].
        destruct a' as [|x a'].
        -- injection H as -> ->. left. done.
        -- injection H as -> ->. right. by exists a'.
      * intros -> ->. by apply (H3 []).
      * intros a ->. by apply (H3 (c :: a)).
Qed.

Lemma quotable_inside s : quotable s <-> inside cQuote s.
Proof.
  rewrite inside_iff. unfold quotable. split.
  - intros [H1 H2]. split_and!; [intros a b Hab; right; eauto|done|done].
  - intros (H1 & _ & H2). split; [|done]. intros a b Hab.
    destruct (H1 a b Hab) as [[_ H]|H]; done.
Qed.

Lemma hasQuotes_wrap s : hasQuotes (cQuote :: s ++ [cQuote]) = true.
Proof.
  unfold hasQuotes. cbn [rev]. rewrite rev_app_distr. cbn. done.
Qed.
Lemma unquoted_wrap s : unquoted (cQuote :: s ++ [cQuote]) = s.
Proof. unfold unquoted. apply removelast_last. Qed.
Lemma finalize_string s : finalize (cQuote :: s ++ [cQuote]) = JOk (JStr s).
Proof. unfold finalize. rewrite hasQuotes_wrap, unquoted_wrap. done. Qed.

Lemma finalize_plain c s v : c <> cQuote -> finalize (c :: s) = JOk v ->
  (c :: s = str "true" /\ v = JBool true) \/ (c :: s = str "false" /\ v = JBool false).
Proof.
  intros Hc. unfold finalize, hasQuotes.
  destruct (rev (c :: s)) as [|b r] eqn:Er.
  { apply (f_equal (@length byte)) in Er. rewrite rev_length in Er. discriminate. }
  rewrite (is_neq c cQuote) by done. cbn [andb].
  destruct (bool_decide (c :: s = str "true")) eqn:E1.
  { apply bool_decide_eq_true in E1. intros H. injection H as <-. auto. }
  destruct (bool_decide (c :: s = str "false")) eqn:E2.
  { apply bool_decide_eq_true in E2. intros H. injection H as <-. auto. }
  discriminate.
Qed.

(** * One character *)

Section Feed.
  Variables (p : byte).
  Ltac go := unfold feed; cbn [settle turn]; repeat first
    [ rewrite ws_true by assumption
    | rewrite ws_false by assumption
    | rewrite is_eq
    | rewrite is_neq by assumption ]; cbn [orb andb negb].

  Lemma feed_end_blank c pd : blank c -> feed p c ([], pd) = JOk ([], pd).
  Proof. intros H. go. done. Qed.
  Lemma feed_end_other c pd : ~ blank c -> feed p c ([], pd) = JErr EUnexpectedAtEnd.
  Proof. intros H. go. done. Qed.

  Lemma feed_place_blank c st : blank c ->
    feed p c (SPlace :: st, None) = JOk (SPlace :: st, None).
  Proof. intros H. go. done. Qed.
  Lemma feed_place_map st :
    feed p cOpenMap (SPlace :: st, None) = JOk (SMap [] :: st, None).
  Proof. reflexivity. Qed.
  Lemma feed_place_list st :
    feed p cOpenList (SPlace :: st, None) = JOk (SList [] :: st, None).
  Proof. reflexivity. Qed.
  Lemma feed_place_closer c st : closes c ->
    feed p c (SPlace :: st, None) = JErr EMisplaced.
  Proof. intros [->|[->| ->]]; reflexivity. Qed.
  Lemma feed_place_other c st :
    ~ blank c -> c <> cOpenMap -> c <> cOpenList -> ~ closes c ->
    feed p c (SPlace :: st, None) = JOk (SSingle [c] (is c cQuote) :: st, None).
  Proof.
    intros H1 H2 H3 H4. go. destruct (closer_spec c); [done|].
    cbn [settle turn]. done.
  Qed.

  Lemma feed_string_more c b st pd : c <> cQuote \/ p = cBackslash ->
    feed p c (SSingle (cQuote :: b) true :: st, pd)
    = JOk (SSingle (cQuote :: b ++ [c]) true :: st, pd).
  Proof.
    intros H. unfold feed. cbn [settle turn].
    destruct (is_spec c cQuote) as [->|Hc]; [|done].
    destruct H as [H| ->]; [done|]. rewrite is_eq. done.
  Qed.
  Lemma feed_string_end b st pd : p <> cBackslash ->
    feed p cQuote (SSingle (cQuote :: b) true :: st, pd) = JOk (st, Some (JStr b)).
  Proof.
    intros H. unfold feed. cbn [settle turn]. rewrite is_eq.
    rewrite is_neq by done. cbn [andb negb].
    change ((cQuote :: b) ++ [cQuote]) with (cQuote :: b ++ [cQuote]).
    rewrite finalize_string. done.
  Qed.

  Lemma feed_single_more c a b st pd : ~ blank c -> ~ closes c ->
    feed p c (SSingle (a :: b) false :: st, pd)
    = JOk (SSingle (a :: b ++ [c]) false :: st, pd).
  Proof.
    intros H1 H2. go. destruct (closer_spec c); [done|]. cbn [orb]. done.
  Qed.

  Lemma feed_list_blank c l pd st : blank c ->
    feed p c (SList l :: st, pd)
    = JOk (SList (match pd with Some v => l ++ [v] | None => l end) :: st, None).
  Proof. intros H. go. done. Qed.
  Lemma feed_list_close l pd st :
    feed p cCloseList (SList l :: st, pd)
    = JOk (st, Some (JList (match pd with Some v => l ++ [v] | None => l end))).
  Proof. reflexivity. Qed.
  Lemma feed_list_first c st : ~ blank c -> c <> cCloseList ->
    feed p c (SList [] :: st, None) = feed p c (SPlace :: SList [] :: st, None).
  Proof.
    intros H1 H2. unfold feed. cbn [settle turn]. rewrite !ws_false, (is_neq c cCloseList) by done.
    cbn [settle turn]. rewrite !ws_false by done.
    destruct (is c cOpenMap); [done|]. destruct (is c cOpenList); [done|].
    destruct (closer c); done.
  Qed.
  Lemma feed_list_comma l pd st :
    match pd with Some v => l ++ [v] | None => l end <> [] ->
    feed p cComma (SList l :: st, pd)
    = JOk (SPlace :: SList (match pd with Some v => l ++ [v] | None => l end) :: st, None).
  Proof.
    intros H. unfold feed. cbn [settle turn].
    destruct (match pd with Some v => l ++ [v] | None => l end); done.
  Qed.
  Lemma feed_list_junk c l pd st :
    match pd with Some v => l ++ [v] | None => l end <> [] ->
    c <> cComma -> c <> cCloseList ->
    feed p c (SList l :: st, pd)
    = JOk (SList (match pd with Some v => l ++ [v] | None => l end) :: st, None).
  Proof.
    intros H H1 H2. unfold feed. cbn [settle turn].
    destruct (isWhitespace c); [done|]. rewrite !is_neq by done.
    destruct (match pd with Some v => l ++ [v] | None => l end); done.
  Qed.

  Lemma feed_map_blank c m st : blank c ->
    feed p c (SMap m :: st, None) = JOk (SMap m :: st, None).
  Proof. intros H. go. done. Qed.
  Lemma feed_map_close m st :
    feed p cCloseMap (SMap m :: st, None) = JOk (st, Some (JMap m)).
  Proof. reflexivity. Qed.
  Lemma feed_map_comma m st :
    feed p cComma (SMap m :: st, None) = JOk (SKV [] InKey :: SMap m :: st, None).
  Proof. reflexivity. Qed.
  Lemma feed_map_quote st :
    feed p cQuote (SMap [] :: st, None) = JOk (SKV [cQuote] InKey :: SMap [] :: st, None).
  Proof. reflexivity. Qed.
  Lemma feed_map_other c m st : ~ blank c -> c <> cCloseMap -> c <> cComma ->
    (c <> cQuote \/ m <> []) -> exists e, feed p c (SMap m :: st, None) = JErr e.
  Proof.
    intros H1 H2 H3 H4. unfold feed. cbn [settle turn].
    rewrite ws_false, !is_neq by done.
    destruct m as [|kv m]; [|eauto]. destruct H4 as [H4|H4]; [|done].
    cbn [settle turn]. rewrite ws_false, is_neq by done. cbn [negb]. eauto.
  Qed.

  Lemma feed_key_blank c st : blank c ->
    feed p c (SKV [] InKey :: st, None) = JOk (SKV [] InKey :: st, None).
  Proof. intros H. go. done. Qed.
  Lemma feed_key_start st :
    feed p cQuote (SKV [] InKey :: st, None) = JOk (SKV [cQuote] InKey :: st, None).
  Proof. reflexivity. Qed.
  Lemma feed_key_other c st : ~ blank c -> c <> cQuote ->
    feed p c (SKV [] InKey :: st, None) = JErr EKeyQuote.
  Proof. intros H1 H2. go. done. Qed.
  Lemma feed_key_more c b st : c <> cQuote \/ p = cBackslash ->
    feed p c (SKV (cQuote :: b) InKey :: st, None)
    = JOk (SKV (cQuote :: b ++ [c]) InKey :: st, None).
  Proof.
    intros H. unfold feed. cbn [settle turn].
    destruct (is_spec c cQuote) as [->|Hc]; [|done].
    destruct H as [H| ->]; [done|]. rewrite is_eq. done.
  Qed.
  Lemma feed_key_end b st : p <> cBackslash ->
    feed p cQuote (SKV (cQuote :: b) InKey :: st, None)
    = JOk (SKV (cQuote :: b ++ [cQuote]) InColon :: st, None).
  Proof.
    intros H. unfold feed. cbn [settle turn]. rewrite is_eq, is_neq by done. done.
  Qed.
  Lemma feed_colon_blank c k st : blank c ->
    feed p c (SKV k InColon :: st, None) = JOk (SKV k InColon :: st, None).
  Proof. intros H. go. done. Qed.
  Lemma feed_colon k st :
    feed p cColon (SKV k InColon :: st, None) = JOk (SPlace :: SKV k InValue :: st, None).
  Proof. reflexivity. Qed.
  Lemma feed_colon_other c k st : ~ blank c -> c <> cColon ->
    feed p c (SKV k InColon :: st, None) = JErr EColonExpected.
  Proof. intros H1 H2. go. done. Qed.
End Feed.

(** The states in which a value is waited for and has just arrived. *)
Inductive resting : list jstate -> Prop :=
| re_nil : resting []
| re_list l st : resting (SList l :: st)
| re_kv k m st : resting (SKV (cQuote :: k ++ [cQuote]) InValue :: SMap m :: st).

Lemma feed_value p c k m st v :
  feed p c (SKV (cQuote :: k ++ [cQuote]) InValue :: SMap m :: st, Some v)
  = settle 8 p c (SMap (Put m k v) :: st, None).
Proof.
  unfold feed. cbn [settle turn]. rewrite hasQuotes_wrap, unquoted_wrap. done.
Qed.

Lemma put_some m k v : Put m k v <> [].
Proof.
  unfold Put. destruct m as [|x m]; [done|]. destruct (existsb _ _); done.
Qed.

Lemma settle_map n p c m st : m <> [] ->
  settle (S n) p c (SMap m :: st, None) = feed p c (SMap m :: st, None).
Proof.
  intros Hm. unfold feed. cbn [settle turn].
  destruct (isWhitespace c); [done|]. destruct (is c cCloseMap); [done|].
  destruct (is c cComma); [done|]. destruct m; done.
Qed.

Lemma settle_resting n p c st v : resting st ->
  settle (S (S n)) p c (st, Some v) = feed p c (st, Some v).
Proof.
  intros [|l st'|k m st'].
  - unfold feed. cbn [settle turn]. destruct (isWhitespace c); done.
  - unfold feed. cbn [settle turn]. destruct (isWhitespace c); [done|].
    destruct (is c cCloseList); [done|].
    destruct (l ++ [v]) eqn:E; [destruct l; discriminate|].
    destruct (is c cComma); done.
  - rewrite feed_value.
    change (settle (S (S n)) p c
              (SKV (cQuote :: k ++ [cQuote]) InValue :: SMap m :: st', Some v))
      with (match turn p c (SKV (cQuote :: k ++ [cQuote]) InValue :: SMap m :: st', Some v) with
            | JErr e => JErr e
            | JOk (s', true) => JOk s'
            | JOk (s', false) => settle (S n) p c s'
            end).
    cbn [turn]. rewrite hasQuotes_wrap, unquoted_wrap. cbn [negb].
    rewrite !settle_map by apply put_some. done.
Qed.

Lemma settle_place n p c st :
  settle (S (S n)) p c (SPlace :: st, None) = feed p c (SPlace :: st, None).
Proof.
  unfold feed. cbn [settle turn]. destruct (isWhitespace c); [done|].
  destruct (is c cOpenMap); [done|]. destruct (is c cOpenList); [done|].
  destruct (closer c); [done|]. done.
Qed.

Lemma feed_single_end p c a b st pd : resting st -> blank c \/ closes c ->
  feed p c (SSingle (a :: b) false :: st, pd)
  = match finalize (a :: b) with
    | JErr e => JErr e
    | JOk v => feed p c (st, Some v)
    end.
Proof.
  intros Hs Hc. unfold feed at 1. cbn [settle turn].
  assert (closer c || isWhitespace c = true) as ->.
  { destruct Hc as [H|H].
    - rewrite (ws_true c H). apply orb_true_r.
    - destruct (closer_spec c); done. }
  destruct (finalize (a :: b)) as [v|e]; [|done].
  apply (settle_resting 6). done.
Qed.

(** The character before matters only inside strings and keys. *)
Definition calm (s : machine) : Prop :=
  match fst s with
  | SSingle (_ :: _) _ :: _ => False
  | SKV (_ :: _) InKey :: _ => False
  | _ => True
  end.

Lemma feed_prev p q c s : calm s ->
  match fst s with SKV _ InValue :: _ => resting (fst s) | _ => True end ->
  feed p c s = feed q c s.
Proof.
  destruct s as [[|x st] pd]; cbn [fst]; intros Hs Hr.
  { unfold feed. cbn [settle turn]. destruct (isWhitespace c); done. }
  destruct x as [|buf esc|m|k a|l]; cbn in Hs.
  - destruct pd; [done|]. unfold feed. cbn [settle turn].
    destruct (isWhitespace c); [done|]. destruct (is c cOpenMap); [done|].
    destruct (is c cOpenList); [done|]. destruct (closer c); done.
  - destruct buf; done.
  - unfold feed. cbn [settle turn].
    destruct (isWhitespace c); [done|]. destruct (is c cCloseMap); [done|].
    destruct (is c cComma); [done|]. destruct m; [|done].
    cbn [settle turn negb]; destruct (isWhitespace c), (is c cQuote); done.
  - destruct a.
    + destruct k; [|contradiction]. unfold feed. cbn [settle turn].
      destruct (isWhitespace c), (is c cQuote); done.
    + unfold feed. cbn [settle turn].
      destruct (isWhitespace c), (is c cColon); done.
    + inversion Hr; subst. destruct pd as [v|]; [|done].
      rewrite !feed_value, !settle_map by apply put_some.
      unfold feed. cbn [settle turn].
      destruct (isWhitespace c); [done|]. destruct (is c cCloseMap); [done|].
      destruct (is c cComma); [done|]. destruct (Put m k0 v); [|done].
      cbn [settle turn negb]; destruct (isWhitespace c), (is c cQuote); done.
  - unfold feed. cbn [settle turn].
    set (l' := match pd with Some v => l ++ [v] | None => l end).
    destruct (isWhitespace c); [done|]. destruct (is c cCloseList); [done|].
    destruct l' as [|y l'']; [|destruct (is c cComma); done].
    cbn [settle turn]. destruct (isWhitespace c); [done|].
    destruct (is c cOpenMap); [done|]. destruct (is c cOpenList); [done|].
    destruct (closer c); done.
Qed.

Lemma run_prev p q s inp : calm s ->
  match fst s with SKV _ InValue :: _ => resting (fst s) | _ => True end ->
  run p s inp = run q s inp.
Proof.
  intros H1 H2. destruct inp as [|c r]; [done|]. cbn [run].
  rewrite (feed_prev p q) by done. done.
Qed.

Lemma run_resting p q st pd inp : resting st -> run p (st, pd) inp = run q (st, pd) inp.
Proof.
  intros H. apply run_prev; destruct H; cbn; try done. constructor.
Qed.
Lemma run_place p q st inp : run p (SPlace :: st, None) inp = run q (SPlace :: st, None) inp.
Proof. apply run_prev; done. Qed.
