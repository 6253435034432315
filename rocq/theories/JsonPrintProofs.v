(** What is printed is a document for the value; what is parsed can be printed;
    JSON proper is taken; the parser always comes to an end. *)
From Verif Require Import Base JsonModel JsonSpec JsonProofs JsonParseProofs.
From Coq Require Import ZifyBool ZifyNat ZifyN.

Section JsonInd.
  Context (P : json -> Prop)
    (Hs : forall s, P (JStr s)) (Hb : forall b, P (JBool b))
    (Hl : forall l, Forall P l -> P (JList l))
    (Hm : forall m, Forall (fun kv => P (snd kv)) m -> P (JMap m)).
  Fixpoint json_rec (v : json) : P v :=
    match v with
    | JStr s => Hs s
    | JBool b => Hb b
    | JList l =>
        Hl l ((fix go (l : list json) : Forall P l :=
                 match l with
                 | [] => List.Forall_nil _
                 | x :: r => List.Forall_cons _ _ _ (json_rec x) (go r)
                 end) l)
    | JMap m =>
        Hm m ((fix go (m : list (bytes * json)) : Forall (fun kv => P (snd kv)) m :=
                 match m with
                 | [] => List.Forall_nil _
                 | x :: r => List.Forall_cons _ _ _ (json_rec (snd x)) (go r)
                 end) m)
    end.
End JsonInd.

Lemma indent_blank n : blanks (addIndent n).
Proof.
  unfold addIndent. induction n as [|n IH]; [constructor|].
  cbn. repeat (constructor; [by left|]). exact IH.
Qed.
Lemma newline_blank n : blanks (cNewline :: addIndent n).
Proof. constructor; [right; right; left; done|apply indent_blank]. Qed.

Lemma first_wins_nodup kvs : forall seen,
  NoDup (map fst kvs) -> (forall k, k ∈ map fst kvs -> k ∉ seen) ->
  first_wins seen kvs = kvs.
Proof.
  induction kvs as [|[k v] kvs IH]; intros seen Hn Hd; [done|].
  cbn in *. apply NoDup_cons in Hn as [Hk Hn].
  rewrite decide_False by (apply Hd; left). f_equal. apply IH; [done|].
  intros k' Hk'. rewrite elem_of_cons. intros [->|H]; [done|].
  apply (Hd k'); [by right|done].
Qed.

Section Print.
  Context (D : dialect)
    (Hf : forall v j, blanks j -> d_filler D v j)
    (Hld : forall j, blanks j -> d_lead D j)
    (Hk : forall ks, NoDup ks -> d_keys D ks).

  Lemma more_lines n m ts vs : Forall2 (item D) ts vs -> forall v,
    more D v (match ts with
              | [] => cNewline :: addIndent m
              | _ => cComma :: lines n ts ++ cNewline :: addIndent m
              end) vs.
  Proof.
    induction 1 as [|t v ts vs Ht Hts IH]; intros v0.
    - constructor. apply Hf, newline_blank.
    - specialize (IH v).
      assert (lines n (t :: ts) ++ cNewline :: addIndent m
              = (cNewline :: addIndent n) ++ t
                ++ match ts with
                   | [] => cNewline :: addIndent m
                   | _ => cComma :: lines n ts ++ cNewline :: addIndent m
                   end) as ->.
      { destruct ts as [|t' ts].
        - change (lines n [t]) with (cNewline :: addIndent n ++ t). by assoc.
        - change (lines n (t :: t' :: ts))
            with (cNewline :: addIndent n ++ t ++ cComma :: lines n (t' :: ts)). by assoc. }
      change (more D v0 ([] ++ cComma :: (cNewline :: addIndent n) ++ t
                ++ match ts with
                   | [] => cNewline :: addIndent m
                   | _ => cComma :: lines n ts ++ cNewline :: addIndent m
                   end) (v :: vs)).
      apply mo_next; [apply Hf; constructor|apply newline_blank|done|exact IH].
  Qed.
  Lemma items_lines n m ts vs : Forall2 (item D) ts vs -> ts <> [] ->
    items D (lines n ts ++ cNewline :: addIndent m) vs.
  Proof.
    intros H Hn. destruct H as [|t v ts vs Ht Hts]; [done|].
    pose proof (more_lines n m ts vs Hts v) as Hm.
    assert (lines n (t :: ts) ++ cNewline :: addIndent m
              = (cNewline :: addIndent n) ++ t
                ++ match ts with
                   | [] => cNewline :: addIndent m
                   | _ => cComma :: lines n ts ++ cNewline :: addIndent m
                   end) as ->.
    { destruct ts as [|t' ts].
      - change (lines n [t]) with (cNewline :: addIndent n ++ t). by assoc.
      - change (lines n (t :: t' :: ts))
          with (cNewline :: addIndent n ++ t ++ cComma :: lines n (t' :: ts)). by assoc. }
    constructor; [apply newline_blank|done|done].
  Qed.

  Lemma others_lines n m ts kvs :
    Forall2 (fun t kv => entry D t (fst kv) (snd kv)) ts kvs ->
    others D (match ts with
              | [] => cNewline :: addIndent m
              | _ => cComma :: lines n ts ++ cNewline :: addIndent m
              end) kvs.
  Proof.
    induction 1 as [|t [k v] ts kvs Ht Hts IH].
    - constructor. apply newline_blank.
    - assert (lines n (t :: ts) ++ cNewline :: addIndent m
              = (cNewline :: addIndent n) ++ t
                ++ match ts with
                   | [] => cNewline :: addIndent m
                   | _ => cComma :: lines n ts ++ cNewline :: addIndent m
                   end) as ->.
      { destruct ts as [|t' ts].
        - change (lines n [t]) with (cNewline :: addIndent n ++ t). by assoc.
        - change (lines n (t :: t' :: ts))
            with (cNewline :: addIndent n ++ t ++ cComma :: lines n (t' :: ts)). by assoc. }
      apply (ot_next D []); [constructor|apply newline_blank|done|exact IH].
  Qed.
  Lemma entries_lines n m ts kvs :
    Forall2 (fun t kv => entry D t (fst kv) (snd kv)) ts kvs -> ts <> [] ->
    entries D (lines n ts ++ cNewline :: addIndent m) kvs.
  Proof.
    intros H Hn. destruct H as [|t [k v] ts kvs Ht Hts]; [done|].
    pose proof (others_lines n m ts kvs Hts) as Hm.
    assert (lines n (t :: ts) ++ cNewline :: addIndent m
              = (cNewline :: addIndent n) ++ t
                ++ match ts with
                   | [] => cNewline :: addIndent m
                   | _ => cComma :: lines n ts ++ cNewline :: addIndent m
                   end) as ->.
    { destruct ts as [|t' ts].
      - change (lines n [t]) with (cNewline :: addIndent n ++ t). by assoc.
      - change (lines n (t :: t' :: ts))
          with (cNewline :: addIndent n ++ t ++ cComma :: lines n (t' :: ts)). by assoc. }
    constructor; [apply Hld, newline_blank|done|done].
  Qed.

  Lemma printed v : writable (d_string D) v -> forall n, item D (writeJSON n v) v.
  Proof.
    revert v. apply (json_rec (fun v => writable (d_string D) v -> forall n, item D (writeJSON n v) v)).
    - intros s H n. inversion H; subst. cbn. by constructor.
    - intros [] H n; constructor.
    - intros l IH H n. inversion H as [| |l' Hl|]; subst.
      destruct l as [|x l].
      + apply (it_list D []). constructor. constructor.
      + change (writeJSON n (JList (x :: l)))
          with (cOpenList :: lines (S n) (map (writeJSON (S n)) (x :: l))
                  ++ cNewline :: addIndent n ++ [cCloseList]).
        set (b := lines (S n) (map (writeJSON (S n)) (x :: l)) ++ cNewline :: addIndent n).
        assert (lines (S n) (map (writeJSON (S n)) (x :: l)) ++ cNewline :: addIndent n ++ [cCloseList]
                = b ++ [cCloseList]) as -> by (unfold b; by assoc).
        constructor. apply items_lines; [|done].
        clear b. clear H. revert IH Hl. generalize (x :: l). clear x l.
        induction l as [|x l IHl]; intros IH Hl; [constructor|].
        apply Forall_cons_1 in IH as [IHx IH]. apply Forall_cons_1 in Hl as [Hx Hl].
        cbn [map]. constructor; [by apply IHx|by apply IHl].
    - intros m IH H n. inversion H as [| | |m' Hm Hnd]; subst.
      rewrite <- (first_wins_nodup m []) at 2; [|done|intros; apply not_elem_of_nil].
      destruct m as [|x m].
      + apply (it_map D [] []); [constructor; constructor|apply Hk; constructor].
      + set (f := fun kv : bytes * json =>
                cQuote :: fst kv ++ [cQuote; cColon; cSpace] ++ writeJSON (S n) (snd kv)).
        change (writeJSON n (JMap (x :: m)))
          with (cOpenMap :: lines (S n) (map f (x :: m)) ++ cNewline :: addIndent n ++ [cCloseMap]).
        set (b := lines (S n) (map f (x :: m)) ++ cNewline :: addIndent n).
        assert (lines (S n) (map f (x :: m)) ++ cNewline :: addIndent n ++ [cCloseMap]
                = b ++ [cCloseMap]) as -> by (unfold b; by assoc).
        constructor; [|by apply Hk]. apply entries_lines; [|done].
        clear b H Hnd. revert IH Hm. generalize (x :: m). clear x m.
        induction l as [|[k v] l IHl]; intros IH Hl; [constructor|].
        apply Forall_cons_1 in IH as [IHx IH]. apply Forall_cons_1 in Hl as [[Hk1 Hx] Hl].
        cbn [map]. constructor; [|by apply IHl]. cbn [fst snd] in *. unfold f. cbn [fst snd].
        change (entry D (cQuote :: k ++ cQuote :: [] ++ cColon :: [cSpace] ++ writeJSON (S n) v) k v).
        constructor; [done|constructor| |by apply IHx].
        constructor; [by left|constructor].
  Qed.
End Print.

Lemma ignored_blanks v j : blanks j -> ignored v j.
Proof.
  intros H. split.
  - eapply Forall_impl; [exact H|]. intros c Hc. apply blank_not in Hc. tauto.
  - destruct v; try done. destruct H; auto. Qed.

Lemma print_lax v n : writable quotable v -> item lax (writeJSON n v) v.
Proof.
  intros H. apply printed; [| | |exact H].
  - intros; by apply ignored_blanks.
  - intros; by left.
  - done.
Qed.
Lemma print_strict v n : writable json_string v -> item strict (writeJSON n v) v.
Proof. intros H. by apply printed. Qed.

Lemma print_parse v : writable quotable v -> ~ is_bool v ->
  ParseOrderedJSON (JSONString v) = JOk (Some v).
Proof.
  intros H Hb. apply lax_accepted. exists [], (JSONString v), [].
  rewrite app_nil_r. split_and!; [done|constructor|by apply print_lax|constructor|].
  destruct v; try done. destruct Hb. by eexists.
Qed.

(** * Parsed values can be written *)

Lemma first_wins_keys kvs : forall seen,
  NoDup (map fst (first_wins seen kvs))
  /\ forall k, k ∈ map fst (first_wins seen kvs) -> k ∉ seen.
Proof.
  induction kvs as [|[k v] kvs IH]; intros seen; cbn.
  - split; [constructor|]. intros k H. by apply not_elem_of_nil in H.
  - destruct (decide (k ∈ seen)) as [Hi|Hi]; [apply IH|].
    destruct (IH (k :: seen)) as [H1 H2]. cbn. split.
    + apply NoDup_cons. split; [|done]. intros H. apply H2 in H. apply H. left.
    + intros k' H. apply elem_of_cons in H as [->|H]; [done|].
      apply H2 in H. intros H'. apply H. by right.
Qed.
Lemma first_wins_all (P : bytes * json -> Prop) kvs : forall seen,
  Forall P kvs -> Forall P (first_wins seen kvs).
Proof.
  induction kvs as [|[k v] kvs IH]; intros seen H; cbn; [constructor|].
  apply Forall_cons_1 in H as [H1 H2].
  destruct (decide (k ∈ seen)); [by apply IH|]. constructor; [done|by apply IH].
Qed.

Lemma grammar_writable D :
  (forall t v, item D t v -> writable (d_string D) v)
  /\ (forall b vs, items D b vs -> Forall (writable (d_string D)) vs)
  /\ (forall v b vs, more D v b vs -> Forall (writable (d_string D)) vs)
  /\ (forall b kvs, entries D b kvs ->
        Forall (fun kv => d_string D (fst kv) /\ writable (d_string D) (snd kv)) kvs)
  /\ (forall e k v, entry D e k v -> d_string D k /\ writable (d_string D) v)
  /\ (forall b kvs, others D b kvs ->
        Forall (fun kv => d_string D (fst kv) /\ writable (d_string D) (snd kv)) kvs).
Proof.
  apply grammar_m; intros; try (by constructor); try done.
  - constructor; [by apply first_wins_all|]. apply first_wins_keys.
Qed.

Lemma parsed_writable t v : ParseOrderedJSON t = JOk (Some v) -> writable quotable v.
Proof.
  intros H. apply parse_exact in H as (v' & [= <-] & w & t' & w' & _ & _ & Ht & _).
  by apply (proj1 (grammar_writable lax)) in Ht.
Qed.

(** * JSON proper *)

Section Mono.
  Context (D1 D2 : dialect)
    (H1 : forall s, d_string D1 s -> d_string D2 s)
    (H2 : forall v j, d_filler D1 v j -> d_filler D2 v j)
    (H3 : forall l, d_lead D1 l -> d_lead D2 l)
    (H4 : forall ks, d_keys D1 ks -> d_keys D2 ks).
  Lemma grammar_mono :
    (forall t v, item D1 t v -> item D2 t v)
    /\ (forall b vs, items D1 b vs -> items D2 b vs)
    /\ (forall v b vs, more D1 v b vs -> more D2 v b vs)
    /\ (forall b kvs, entries D1 b kvs -> entries D2 b kvs)
    /\ (forall e k v, entry D1 e k v -> entry D2 e k v)
    /\ (forall b kvs, others D1 b kvs -> others D2 b kvs).
  Proof. apply grammar_m; intros; constructor; auto. Qed.
End Mono.

Lemma tame_inside s : json_string s -> (forall a, s <> a ++ [cBackslash]) ->
  forall p, (s = [] -> p <> cBackslash) -> inside p s.
Proof.
  induction 1 as [|c s Hc1 Hc2 Hs IH|c s Hs IH]; intros Hl p Hp.
  - by apply Hp.
  - cbn. split; [done|]. apply IH.
    + intros a ->. by apply (Hl (c :: a)).
    + done.
  - cbn. split; [done|]. split; [done|]. apply IH.
    + intros a ->. by apply (Hl (cBackslash :: c :: a)).
    + intros -> ->. by apply (Hl [cBackslash]).
Qed.
Lemma tame_quotable s : tame_string s -> quotable s.
Proof.
  intros [H1 H2]. apply quotable_inside. apply tame_inside; done.
Qed.
Lemma tame_lax t v : item tame t v -> item lax t v.
Proof.
  apply grammar_mono.
  - apply tame_quotable.
  - intros; by apply ignored_blanks.
  - intros; by left.
  - done.
Qed.

Lemma tame_accepted w t w' v : blanks w -> item tame t v -> blanks w' ->
  (is_bool v -> w' <> []) -> ParseOrderedJSON (w ++ t ++ w') = JOk (Some v).
Proof.
  intros Hw Ht Hw' Hb. apply lax_accepted. exists w, t, w'.
  split_and!; try done; [by apply tame_lax|]. destruct v; try done. apply Hb. by eexists.
Qed.

(** * The inner loop comes to an end *)

Inductive base : list jstate -> Prop :=
| ba_nil : base []
| ba_list l st : base st -> base (SList l :: st)
| ba_kv k m st : base st ->
    base (SKV (cQuote :: k ++ [cQuote]) InValue :: SMap m :: st).
Inductive good : machine -> Prop :=
| go_base st pd : base st -> good (st, pd)
| go_place st : base st -> good (SPlace :: st, None)
| go_string b st : base st -> good (SSingle (cQuote :: b) true :: st, None)
| go_word a b st : base st -> good (SSingle (a :: b) false :: st, None)
| go_map m st : base st -> good (SMap m :: st, None)
| go_key0 m st : base st -> good (SKV [] InKey :: SMap m :: st, None)
| go_key b m st : base st -> good (SKV (cQuote :: b) InKey :: SMap m :: st, None)
| go_colon k m st : base st ->
    good (SKV (cQuote :: k ++ [cQuote]) InColon :: SMap m :: st, None).

Definition fine (x : jres machine) : Prop :=
  match x with JOk s => good s | JErr e => e <> EFuel end.

Lemma base_resting st : base st -> resting st.
Proof. destruct 1; constructor. Qed.

Lemma place_fine p c st : base st -> fine (feed p c (SPlace :: st, None)).
Proof.
  intros Hs. destruct (ws_spec c) as [H|H].
  { rewrite feed_place_blank by done. by constructor. }
  destruct (is_spec c cOpenMap) as [->|H1]; [rewrite feed_place_map; by constructor|].
  destruct (is_spec c cOpenList) as [->|H2].
  { rewrite feed_place_list. by constructor; constructor. }
  destruct (closer_spec c); [by rewrite feed_place_closer|].
  rewrite feed_place_other by done.
  destruct (is_spec c cQuote) as [->|H4]; by constructor.
Qed.
Lemma map_fine p c m st : base st -> fine (feed p c (SMap m :: st, None)).
Proof.
  intros Hs. destruct (ws_spec c) as [H|H].
  { rewrite feed_map_blank by done. by constructor. }
  destruct (is_spec c cCloseMap) as [->|H1]; [rewrite feed_map_close; by constructor|].
  destruct (is_spec c cComma) as [->|H2]; [rewrite feed_map_comma; by constructor|].
  unfold feed. cbn [settle turn]. rewrite ws_false, !is_neq by done.
  destruct m as [|kv m]; [|done]. cbn [settle turn].
  rewrite ws_false by done. destruct (is_spec c cQuote) as [->|]; cbn; [|done]. by constructor.
Qed.
Lemma base_fine p c st pd : base st -> fine (feed p c (st, pd)).
Proof.
  intros H. destruct H as [|l st H|k m st H].
  - destruct (ws_spec c).
    + rewrite feed_end_blank by done. by constructor; constructor.
    + by rewrite feed_end_other.
  - destruct (ws_spec c) as [Hc|Hc].
    { rewrite feed_list_blank by done. by constructor; constructor. }
    destruct (is_spec c cCloseList) as [->|H1]; [rewrite feed_list_close; by constructor|].
    destruct (match pd with Some v => l ++ [v] | None => l end) as [|x l'] eqn:El.
    { destruct pd; [destruct l; discriminate|]. subst l.
      rewrite feed_list_first by done. by apply place_fine; constructor. }
    assert (match pd with Some v => l ++ [v] | None => l end <> []) as Hn by (by rewrite El).
    destruct (is_spec c cComma) as [->|H2].
    + rewrite feed_list_comma by done. by constructor; constructor.
    + rewrite feed_list_junk by done. by constructor; constructor.
  - destruct pd as [v|]; [|done].
    rewrite feed_value, settle_map by apply put_some. by apply map_fine.
Qed.

Lemma feed_fine p c s : good s -> fine (feed p c s).
Proof.
  intros H. destruct H as [st pd H|st H|b st H|a b st H|m st H|m st H|b m st H|k m st H].
  - by apply base_fine.
  - by apply place_fine.
  - destruct (decide (c = cQuote /\ p <> cBackslash)) as [[-> Hp]|Hn].
    + rewrite feed_string_end by done. by constructor.
    + rewrite feed_string_more; [by constructor|].
      destruct (is_spec c cQuote); [|by left]. destruct (is_spec p cBackslash); [by right|].
      exfalso. by apply Hn.
  - destruct (ws_spec c) as [Hc|Hc]; [|destruct (closer_spec c)].
    + rewrite feed_single_end by (try apply base_resting; auto).
      destruct (finalize (a :: b)) eqn:E; [by apply base_fine|].
      cbn. intros ->. unfold finalize in E. destruct (hasQuotes (a :: b)); [discriminate|].
      do 2 (case_bool_decide; [discriminate|]). discriminate.
    + rewrite feed_single_end by (try apply base_resting; auto).
      destruct (finalize (a :: b)) eqn:E; [by apply base_fine|].
      cbn. intros ->. unfold finalize in E. destruct (hasQuotes (a :: b)); [discriminate|].
      do 2 (case_bool_decide; [discriminate|]). discriminate.
    + rewrite feed_single_more by done. by constructor.
  - by apply map_fine.
  - destruct (ws_spec c) as [Hc|Hc]; [rewrite feed_key_blank by done; by constructor|].
    destruct (is_spec c cQuote) as [->|]; [rewrite feed_key_start; by constructor|].
    by rewrite feed_key_other.
  - destruct (decide (c = cQuote /\ p <> cBackslash)) as [[-> Hp]|Hn].
    + rewrite feed_key_end by done. by constructor.
    + rewrite feed_key_more; [by constructor|].
      destruct (is_spec c cQuote); [|by left]. destruct (is_spec p cBackslash); [by right|].
      exfalso. by apply Hn.
  - destruct (ws_spec c) as [Hc|Hc]; [rewrite feed_colon_blank by done; by constructor|].
    destruct (is_spec c cColon) as [->|]; [|by rewrite feed_colon_other].
    rewrite feed_colon. by constructor; constructor.
Qed.

Lemma run_fine inp : forall p s, good s -> fine (run p s inp).
Proof.
  induction inp as [|c inp IH]; intros p s H; [exact H|]. cbn [run].
  pose proof (feed_fine p c s H) as Hf. destruct (feed p c s); [by apply IH|done].
Qed.

Lemma parse_ends t : ParseOrderedJSON t <> JErr EFuel.
Proof.
  unfold ParseOrderedJSON.
  pose proof (run_fine t Byte.x00 ([SPlace], None) ltac:(by constructor; constructor)) as H.
  destruct (run Byte.x00 ([SPlace], None) t) as [[[|x st] pd]|e]; cbn in H; try done.
  intros [= ->]. done.
Qed.
