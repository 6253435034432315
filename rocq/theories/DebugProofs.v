(** Proofs about the debugging facade. *)
From Verif Require Import Base MandosModel WorldModel WorldSpec WorldProofs JsonProofs MandosTextProofs DebugModel DebugSpec.
From Coq Require Import ZifyBool ZifyNat.
Local Open Scope Z_scope.

(** * Text *)
Ltac bools := unfold is_two, is_three, is_four, between, rng in *.
Lemma character_kept c l : character c -> as_text (c ++ l) = c ++ as_text l.
Proof.
  intros H. destruct H; cbn [app as_text].
  - bools. replace (bz a <? 128) with true by lia. reflexivity.
  - replace (bz a <? 128) with false by (bools; lia). replace (is_two a b) with true by (bools; lia). reflexivity.
  - replace (bz a <? 128) with false by (bools; lia). replace (is_two a b) with false by (bools; lia).
    replace (is_three a b c) with true by (bools; lia). reflexivity.
  - replace (bz a <? 128) with false by (bools; lia). replace (is_two a b) with false by (bools; lia).
    replace (is_three a b c) with true by (bools; lia). reflexivity.
  - replace (bz a <? 128) with false by (bools; lia). replace (is_two a b) with false by (bools; lia).
    replace (is_three a b c) with true by (bools; lia). reflexivity.
  - replace (bz a <? 128) with false by (bools; lia). replace (is_two a b) with false by (bools; lia).
    replace (is_three a b c) with false by (bools; lia). replace (is_four a b c d) with true by (bools; lia). reflexivity.
  - replace (bz a <? 128) with false by (bools; lia). replace (is_two a b) with false by (bools; lia).
    replace (is_three a b c) with false by (bools; lia). replace (is_four a b c d) with true by (bools; lia). reflexivity.
  - replace (bz a <? 128) with false by (bools; lia). replace (is_two a b) with false by (bools; lia).
    replace (is_three a b c) with false by (bools; lia). replace (is_four a b c d) with true by (bools; lia). reflexivity.
Qed.
Lemma utf8_kept l : utf8 l -> as_text l = l.
Proof. induction 1 as [|c l Hc _ IH]; [reflexivity|]. rewrite character_kept, IH by exact Hc. reflexivity. Qed.
Lemma two_ch a b : is_two a b = true -> character [a; b].
Proof. intros H. apply ch_2; bools; lia. Qed.
Lemma three_ch a b c : is_three a b c = true -> character [a; b; c].
Proof.
  intros H. destruct (Z.eq_dec (bz a) 224); [apply ch_3a; bools; lia|]. destruct (Z.eq_dec (bz a) 237); [apply ch_3c; bools; lia|].
  apply ch_3b; bools; lia.
Qed.
Lemma four_ch a b c d : is_four a b c d = true -> character [a; b; c; d].
Proof.
  intros H. destruct (Z.eq_dec (bz a) 240); [apply ch_4a; bools; lia|]. destruct (Z.eq_dec (bz a) 244); [apply ch_4c; bools; lia|].
  apply ch_4b; bools; lia.
Qed.
(** text that changes grows *)
Lemma as_text_grows : forall n l, (length l <= n)%nat -> utf8 l \/ (length l < length (as_text l))%nat.
Proof.
  induction n as [|n IH]; intros [|a l] Hn; cbn [length] in Hn; try lia; [left; constructor..|].
  assert (R : (length (a :: l) < length (replacement ++ as_text l))%nat).
  { rewrite app_length. cbn [length replacement]. destruct (IH l ltac:(lia)) as [U|U]; [rewrite (utf8_kept l U); lia|lia]. }
  assert (K : forall c r, character c -> (0 < length c)%nat -> a :: l = c ++ r -> as_text (a :: l) = c ++ as_text r ->
    utf8 (a :: l) \/ (length (a :: l) < length (as_text (a :: l)))%nat).
  { intros c r Hc Hl E Ea. assert (length (a :: l) = length c + length r)%nat as El by (rewrite E, app_length; reflexivity).
    cbn [length] in El. destruct (IH r ltac:(lia)) as [U|U].
    - left. rewrite E. constructor; assumption.
    - right. rewrite Ea, app_length. cbn [length]. lia. }
  cbn [as_text] in K |- *.
  destruct (bz a <? 128) eqn:H1.
  { apply (K [a] l); try reflexivity; [|cbn; lia]. apply ch_1. pose proof (bz_range a). bools. lia. }
  destruct l as [|b l]; [right; exact R|].
  destruct (is_two a b) eqn:H2.
  { apply (K [a; b] l); try reflexivity; [apply two_ch, H2|cbn; lia]. }
  destruct l as [|c l]; [right; exact R|].
  destruct (is_three a b c) eqn:H3.
  { apply (K [a; b; c] l); try reflexivity; [apply three_ch, H3|cbn; lia]. }
  destruct l as [|d l]; [right; exact R|].
  destruct (is_four a b c d) eqn:H4; [|right; exact R].
  apply (K [a; b; c; d] l); try reflexivity; [apply four_ch, H4|cbn; lia].
Qed.
Lemma as_text_iff l : as_text l = l <-> utf8 l.
Proof.
  split; [|apply utf8_kept]. intros H. destruct (as_text_grows (length l) l ltac:(lia)) as [U|U]; [exact U|]. rewrite H in U. lia.
Qed.

(** maps *)
Lemma fold_insert {V} (l : list (bytes * V)) : forall acc, NoDup l.*1 ->
  fold_left (fun r kv => <[kv.1 := kv.2]> r) l acc = (list_to_map l ∪ acc : gmap bytes V).
Proof.
  induction l as [|[k v] l IH]; intros acc Hd; cbn [fold_left].
  - rewrite list_to_map_nil, map_empty_union. reflexivity.
  - rewrite fmap_cons in Hd. apply NoDup_cons in Hd as [Hk Hd]. rewrite IH by exact Hd. cbn [fst snd].
    rewrite list_to_map_cons, <- insert_union_l, insert_union_r; [reflexivity|].
    apply not_elem_of_list_to_map_1, Hk.
Qed.
Lemma as_text_map_id {V} (f : V -> V) (m : gmap bytes V) : (forall k v, m !! k = Some v -> utf8 k /\ f v = v) -> as_text_map f m = m.
Proof.
  intros H. unfold as_text_map.
  assert (P : Permutation (sorted_by_key (map_to_list m)) (map_to_list m)) by apply sorted_perm.
  assert (A : forall l acc, (forall kv, kv ∈ l -> kv ∈ map_to_list m) ->
    fold_left (fun r kv => <[as_text (fst kv) := f (snd kv)]> r) l acc = fold_left (fun r kv => <[kv.1 := kv.2]> r) l (acc : gmap bytes V)).
  { induction l as [|[k v] l IH]; intros acc Hl; [reflexivity|]. cbn [fold_left fst snd].
    destruct (H k v) as [U E]; [apply elem_of_map_to_list, Hl; left|]. rewrite (utf8_kept k U), E. apply IH. intros kv Hkv. apply Hl. right. exact Hkv. }
  rewrite A by (intros kv Hkv; rewrite <- P; exact Hkv).
  rewrite fold_insert.
  - rewrite map_union_empty. rewrite <- (list_to_map_to_list m) at 2. apply list_to_map_proper; [|exact P].
    rewrite P. apply NoDup_fst_map_to_list.
  - rewrite P. apply NoDup_fst_map_to_list.
Qed.
Lemma text_account_id a : utf8 (wa_async a) -> (forall s v, wa_storage a !! s = Some v -> utf8 s) -> as_text_account a = a.
Proof.
  intros H1 H2. unfold as_text_account. rewrite (utf8_kept _ H1), as_text_map_id by (intros k v Hk; split; [eapply H2, Hk|reflexivity]).
  destruct a; reflexivity.
Qed.
Lemma text_accounts_id m : text_accounts m -> as_text_map as_text_account m = m.
Proof. intros H. apply as_text_map_id. intros k a Hk. destruct (H k a Hk) as (A & B & C). split; [exact A|apply text_account_id; assumption]. Qed.

(** * Files *)
Lemma split_app s t : split_on slash (s ++ slash :: t) = split_on slash s ++ split_on slash t.
Proof.
  induction s as [|c s IH]; [reflexivity|]. cbn [app split_on]. destruct (is c slash); [rewrite IH; reflexivity|].
  rewrite IH. destruct (split_on slash s) eqn:E; [|reflexivity]. destruct s; cbn in E; [discriminate|]. destruct (is _ _); [discriminate|]. destruct (split_on slash s); discriminate.
Qed.
Lemma split_plain s : slash ∉ s -> split_on slash s = [s].
Proof.
  induction s as [|c s IH]; intros H; [reflexivity|]. cbn [split_on]. apply not_elem_of_cons in H as [H1 H2]. rewrite IH by exact H2.
  destruct (is_spec c slash) as [->|_]; [contradiction (H1 eq_refl)|reflexivity].
Qed.
Definition regular (c : bytes) : Prop := c <> [] /\ c <> str "." /\ c <> str "..".
Lemma clean_app r l1 l2 : forall acc, List.Forall regular l2 -> clean_parts r (l1 ++ l2) acc = clean_parts r l1 acc ++ l2.
Proof.
  induction l1 as [|c l1 IH]; intros acc H2.
  - cbn [app clean_parts]. revert acc. induction H2 as [|c l (A & B & C) _ IH]; intros acc; [rewrite app_nil_r; reflexivity|].
    cbn [clean_parts]. rewrite !bool_decide_eq_false_2 by assumption. cbn [orb]. rewrite IH. cbn [rev]. rewrite <- app_assoc. reflexivity.
  - cbn [app clean_parts]. destruct (_ || _); [apply IH, H2|]. destruct (bool_decide _); [|apply IH, H2].
    destruct acc as [|x acc]; [apply IH, H2|]. destruct (bool_decide _); apply IH, H2.
Qed.
Lemma json_regular name : regular (name ++ str ".json").
Proof.
  assert (H : forall x, (length x <= 2)%nat -> name ++ str ".json" <> x).
  { intros x Hx E. subst x. rewrite app_length in Hx. change (length (str ".json")) with 5%nat in Hx. lia. }
  split_and!; apply H; cbn; lia.
Qed.
Lemma file_eq root dir name : root <> [] -> regular dir -> plain dir -> plain name ->
  Clean (root ++ slash :: dir ++ slash :: name ++ str ".json") = (fst (Clean root), snd (Clean root) ++ [dir; name ++ str ".json"]).
Proof.
  intros Hr Hd Pd Pn. unfold Clean. destruct root as [|c root]; [contradiction|]. cbn [app fst snd].
  f_equal. change (c :: root ++ slash :: dir ++ slash :: name ++ str ".json") with ((c :: root) ++ slash :: dir ++ slash :: name ++ str ".json").
  rewrite split_app. rewrite split_app. rewrite (split_plain dir Pd), (split_plain (name ++ str ".json")).
  - apply clean_app. repeat constructor; try apply Hd; apply json_regular.
  - intros H. apply elem_of_app in H as [H|H]; [exact (Pn H)|]. revert H. change (slash ∉ str ".json"). rewrite <- (bool_decide_eq_false (slash ∈ str ".json")). reflexivity.
Qed.
Lemma world_file root name : root <> [] -> plain name ->
  getWorldFile root name = (fst (Clean root), snd (Clean root) ++ [str "worlds"; name ++ str ".json"]).
Proof.
  intros Hr Hp. apply (file_eq root (str "worlds") name Hr); [split_and!; discriminate| |exact Hp].
  unfold plain. rewrite <- (bool_decide_eq_false (slash ∈ str "worlds")). reflexivity.
Qed.
Lemma outcome_file root name : root <> [] -> plain name ->
  getOutcomeFile root name = (fst (Clean root), snd (Clean root) ++ [str "out"; name ++ str ".json"]).
Proof.
  intros Hr Hp. apply (file_eq root (str "out") name Hr); [split_and!; discriminate| |exact Hp].
  unfold plain. rewrite <- (bool_decide_eq_false (slash ∈ str "out")). reflexivity.
Qed.
Lemma last_two {A} (l l' : list A) a b a' b' : l ++ [a; b] = l' ++ [a'; b'] -> l = l' /\ a = a' /\ b = b'.
Proof.
  intros H. change (l ++ [a] ++ [b] = l' ++ [a'] ++ [b']) in H. rewrite !app_assoc in H.
  apply app_inj_tail in H as [H ->]. apply app_inj_tail in H as [-> ->]. auto.
Qed.
Lemma world_file_inj root name root' name' : root <> [] -> root' <> [] -> plain name -> plain name' ->
  getWorldFile root name = getWorldFile root' name' -> Clean root = Clean root' /\ name = name'.
Proof.
  intros H1 H2 P1 P2. rewrite !world_file by assumption. intros [= E1 E2]. apply last_two in E2 as (E2 & _ & E3).
  split; [|apply app_inv_tail in E3; exact E3]. rewrite (surjective_pairing (Clean root)). symmetry. rewrite (surjective_pairing (Clean root')). symmetry. exact (f_equal2 pair E1 E2).
Qed.
Lemma outcome_not_world root name root' name' : root <> [] -> root' <> [] -> plain name -> plain name' ->
  getOutcomeFile root name <> getWorldFile root' name'.
Proof.
  intros H1 H2 P1 P2. rewrite world_file, outcome_file by assumption. intros [= E1 E2]. apply last_two in E2 as (_ & E & _). discriminate E.
Qed.
Lemma root_ne b : rb_database (digest_base b) <> [].
Proof. unfold digest_base. cbn. destruct (rb_database b); discriminate. Qed.

(** * Sessions *)
Section session.
Context `{D : denv}.
Definition R (fs : disk) (s : memory) : Prop := forall root name, root <> [] -> plain name -> utf8 name ->
  loadWorld root name fs = Some (mkWorldData name (Some (default ∅ (s !! (Clean root, name))))).
Lemma default_utf8 : utf8 (str "default").
Proof. apply as_text_iff. reflexivity. Qed.
Lemma base_ok r : usual r -> let b := digest_base (base_of r) in plain (rb_world b) /\ utf8 (rb_world b) /\ plain (rb_outcome b).
Proof.
  intros [H1 H2 H3 _]. cbn. split_and!; [| |exact H3].
  - destruct (rb_world (base_of r)); [|exact H1]. unfold plain. rewrite <- (bool_decide_eq_false (slash ∈ str "default")). reflexivity.
  - destruct (rb_world (base_of r)); [apply default_utf8|exact H2].
Qed.
Lemma serve_some a m : exists m' x, serve a (Some m) = Some (Some m', x) /\ (is_query a = true -> m' = m).
Proof.
  destruct a as [i|i|i|x]; cbn [serve default is_query].
  - unfold default. destruct (de_create D _ i) as [[o|] ad]; unfold update; do 2 eexists; (split; [reflexivity|]); intros [=]; reflexivity.
  - unfold default. destruct (de_call D _ i) as [o|]; unfold update; do 2 eexists; (split; [reflexivity|]); intros [=]; reflexivity.
  - do 2 eexists; split; reflexivity.
  - do 2 eexists. split; [reflexivity|]. intros [=].
Qed.
Lemma R_outcome root key fs fs' s : root <> [] -> plain key -> R fs s -> storeOutcome root key fs = Some fs' -> R fs' s.
Proof.
  intros Hr Hp HR H root' name Hr' Hn Hu. rewrite <- (HR root' name Hr' Hn Hu). unfold storeOutcome in H.
  destruct key as [|c key]; [injection H as <-; reflexivity|]. destruct (de_writable D _); [|discriminate]. injection H as <-.
  unfold loadWorld. rewrite lookup_insert_ne by (apply outcome_not_world; assumption). reflexivity.
Qed.
Lemma R_store root id m fs fs' s : root <> [] -> plain id -> utf8 id -> text_accounts m -> R fs s ->
  storeWorld root (mkWorldData id (Some m)) fs = Some fs' -> R fs' (<[(Clean root, id) := m]> s).
Proof.
  intros Hr Hp Hi Ht HR H root' name Hr' Hn Hu. unfold storeWorld in H. cbn [wd_id wd_accounts default] in H.
  destruct (de_writable D _); [|discriminate]. injection H as <-. rewrite (text_accounts_id m Ht), (utf8_kept id Hi).
  destruct (decide ((Clean root, id) = (Clean root', name))) as [E|E].
  - rewrite <- E, lookup_insert. pose proof (f_equal fst E) as E1. pose proof (f_equal snd E) as E2. cbn [fst snd] in E1, E2. unfold loadWorld. subst name.
    assert (EF : getWorldFile root' id = getWorldFile root id).
    { rewrite (world_file root' id Hr' Hp), (world_file root id Hr Hp), <- E1. reflexivity. }
    rewrite EF.
    rewrite lookup_insert. reflexivity.
  - rewrite lookup_insert_ne by exact E. rewrite <- (HR root' name Hr' Hn Hu). unfold loadWorld.
    rewrite lookup_insert_ne; [reflexivity|]. intros F. apply world_file_inj in F as [F1 F2]; try assumption. congruence.
Qed.
Lemma session_step r fs s fs' x : usual r -> R fs s -> (forall k m, fst (remember r s) !! k = Some m -> text_accounts m) ->
  facade r fs = (fs', x) -> snd (remember r s) = x /\ R fs' (fst (remember r s)).
Proof.
  intros HU HR HT H. destruct (base_ok r HU) as (P1 & P2 & P3). pose proof (root_ne (base_of r)) as Hne. pose proof (us_disk r HU) as Hw.
  revert HT. unfold facade in H. unfold remember. destruct (digest r) as [a|]; [|injection H as <- <-; auto].
  cbv zeta in *. set (b := digest_base (base_of r)) in *. clearbody b. rewrite (HR _ _ Hne P1 P2) in H. cbn [wd_accounts wd_id] in H.
  unfold place. set (m := default ∅ (s !! (Clean (rb_database b), rb_world b))) in *.
  destruct (serve_some a m) as (m' & y & Hs & Hq). rewrite Hs in *. cbn [fst snd]. intros HT.
  destruct (is_query a) eqn:Ha.
  - destruct (storeOutcome (rb_database b) (rb_outcome b) fs) as [fs2|] eqn:Ho.
    + injection H as <- <-. split; [reflexivity|]. exact (R_outcome _ _ _ _ _ Hne P3 HR Ho).
    + exfalso. unfold storeOutcome in Ho. destruct (rb_outcome b) as [|c k] eqn:Ek; [discriminate|].
      destruct (Hw _ P3) as [_ W2]. rewrite <- Ek in *. rewrite W2 in Ho. discriminate.
  - destruct (storeWorld _ _ fs) as [fs1|] eqn:Hst.
    + assert (HR1 : R fs1 (<[(Clean (rb_database b), rb_world b) := m']> s)).
      { eapply R_store; try eassumption. apply (HT (Clean (rb_database b), rb_world b)), lookup_insert. }
      destruct (storeOutcome (rb_database b) (rb_outcome b) fs1) as [fs2|] eqn:Ho.
      * injection H as <- <-. split; [reflexivity|]. exact (R_outcome _ _ _ _ _ Hne P3 HR1 Ho).
      * exfalso. unfold storeOutcome in Ho. destruct (rb_outcome b) as [|c k] eqn:Ek; [discriminate|].
        destruct (Hw _ P3) as [_ W2]. rewrite <- Ek in *. rewrite W2 in Ho. discriminate.
    + exfalso. unfold storeWorld in Hst. cbn [wd_id] in Hst. destruct (Hw _ P1) as [W1 _]. rewrite W1 in Hst. discriminate.
Qed.
Lemma session l : forall fs s, List.Forall usual l -> R fs s -> all_text l s ->
  snd (facade_run l fs) = snd (remember_run l s) /\ R (fst (facade_run l fs)) (fst (remember_run l s)).
Proof.
  induction l as [|r l IH]; intros fs s HU HR HT; [split; [reflexivity|exact HR]|].
  cbn [all_text] in HT. destruct HT as [_ HT]. assert (HT1 : forall k m, fst (remember r s) !! k = Some m -> text_accounts m) by (destruct l; apply HT).
  apply List.Forall_cons_iff in HU as [U1 U2]. cbn [facade_run remember_run].
  destruct (facade r fs) as [fs1 x] eqn:Hf. destruct (session_step r fs s fs1 x U1 HR HT1 Hf) as [Hx HR1].
  destruct (remember r s) as [s1 x1]. cbn [fst snd] in *. subst x1.
  destruct (IH fs1 s1 U2 HR1 HT) as [E1 E2]. destruct (facade_run l fs1), (remember_run l s1). cbn [fst snd] in *. subst. auto.
Qed.
Lemma session_new l fs : (forall root name, root <> [] -> plain name -> fs !! getWorldFile root name = None) -> List.Forall usual l -> all_text l ∅ ->
  snd (facade_run l fs) = snd (remember_run l ∅) /\ R (fst (facade_run l fs)) (fst (remember_run l ∅)).
Proof.
  intros HN HU HT. apply session; try assumption. intros root name H1 H2 H3. unfold loadWorld. rewrite HN by assumption.
  rewrite lookup_empty. reflexivity.
Qed.

(** a query writes its outcome at most *)
Lemma query_writes b c p fs fs' x f : facade (Query b c p) fs = (fs', x) ->
  f <> getOutcomeFile (rb_database (digest_base b)) (rb_outcome b) -> fs' !! f = fs !! f.
Proof.
  intros H Hf. unfold facade in H. destruct (digest (Query b c p)) as [a|] eqn:Hd; [|injection H as <- <-; reflexivity].
  assert (Ha : is_query a = true).
  { cbn [digest] in Hd. destruct (digest_contract c); [|discriminate]. destruct (decodeArguments (rp_args p)); [|discriminate].
    destruct (hex_decode (rp_address p)); [|discriminate]. injection Hd as <-. reflexivity. }
  cbn [base_of] in H. cbv zeta in H. set (b' := digest_base b) in *. destruct (loadWorld _ _ _) as [d|]; [|injection H as <- <-; reflexivity].
  destruct (serve a _) as [[m y]|]; [|injection H as <- <-; reflexivity]. rewrite Ha in H.
  assert (Hb : rb_outcome b' = rb_outcome b) by reflexivity. rewrite Hb in H. unfold storeOutcome in H.
  destruct (rb_outcome b) as [|k o] eqn:Ek; [injection H as <- <-; reflexivity|].
  destruct (de_writable D _); injection H as <- <-; [|reflexivity].
  apply lookup_insert_ne. intros F; apply Hf; symmetry; exact F.
Qed.
(** a request that cannot be understood writes nothing *)
Lemma refused_writes r fs fs' x : digest r = None -> facade r fs = (fs', x) -> fs' = fs /\ x = SErr.
Proof. intros Hd H. unfold facade in H. rewrite Hd in H. injection H as <- <-. auto. Qed.

(** * Money *)
Lemma serve_total a m m' x : serve a (Some m) = Some (Some m', x) -> is_query a = false -> (forall y, x <> RAccount y) ->
  total_balance m' = total_balance m + match answer x with Some o => total_delta (o_accounts o) | None => 0 end.
Proof.
  intros H Hq Hn. destruct a as [i|i|i|y]; unfold serve in H; cbn [is_query] in Hq; try discriminate.
  - destruct (de_create D _ i) as [[o|] ad]; unfold update in H.
    + pose proof (f_equal (option_map fst) H) as E1. pose proof (f_equal (option_map snd) H) as E2. cbn [option_map fst snd] in E1, E2.
      apply Some_inj, Some_inj in E1. apply Some_inj in E2. subst m' x. cbn [answer]. rewrite total_update. reflexivity.
    + injection H as <- <-. cbn [answer]. lia.
  - destruct (de_call D _ i) as [o|]; unfold update in H.
    + pose proof (f_equal (option_map fst) H) as E1. pose proof (f_equal (option_map snd) H) as E2. cbn [option_map fst snd] in E1, E2.
      apply Some_inj, Some_inj in E1. apply Some_inj in E2. subst m' x. cbn [answer]. rewrite total_update. reflexivity.
    + injection H as <- <-. cbn [answer]. lia.
  - injection H as <- <-. edestruct Hn. reflexivity.
Qed.
Lemma digest_query r a : digest r = Some a -> is_query a = true <-> asks r.
Proof.
  intros H. destruct r as [b c p|b c p ad|b c p|b c p|b ad bal n]; cbn [digest] in H.
  - destruct (digest_contract c); [|discriminate]. destruct (digest_code p) as [[[? ?] ?]|]; [|discriminate]. injection H as <-. cbn. split; [discriminate|contradiction].
  - destruct (digest_contract c); [|discriminate]. destruct (digest_code p) as [[[? ?] ?]|]; [|discriminate]. destruct (hex_decode ad); [|discriminate]. injection H as <-. cbn. split; [discriminate|contradiction].
  - destruct (digest_contract c); [|discriminate]. destruct (decodeArguments _); [|discriminate]. destruct (hex_decode _); [|discriminate]. injection H as <-. cbn. split; [discriminate|contradiction].
  - destruct (digest_contract c); [|discriminate]. destruct (decodeArguments _); [|discriminate]. destruct (hex_decode _); [|discriminate]. injection H as <-. cbn. split; auto.
  - destruct ad as [|x ad]; [discriminate|]. destruct (hex_decode _); [|discriminate]. destruct (parseValue bal); [|discriminate]. injection H as <-. cbn. split; [discriminate|contradiction].
Qed.
Lemma serve_account r a m m' x : digest r = Some a -> ~ makes_account r -> serve a (Some m) = Some (m', x) -> forall y, x <> RAccount y.
Proof.
  intros H Hn Hs y ->. destruct a as [i|i|i|z]; unfold serve in Hs.
  - destruct (de_create D _ i) as [o ad]. destruct (update o (Some m)); discriminate.
  - cbv zeta in Hs. destruct (update _ (Some m)); discriminate.
  - discriminate.
  - clear Hs. destruct r as [b c p|b c p ad|b c p|b c p|b ad bal n]; cbn [digest] in H; [..|exact (Hn I)].
    + destruct (digest_contract c); [|discriminate]. destruct (digest_code p) as [[[? ?] ?]|]; discriminate.
    + destruct (digest_contract c); [|discriminate]. destruct (digest_code p) as [[[? ?] ?]|]; [|discriminate]. destruct (hex_decode ad); discriminate.
    + destruct (digest_contract c); [|discriminate]. destruct (decodeArguments _); [|discriminate]. destruct (hex_decode _); discriminate.
    + destruct (digest_contract c); [|discriminate]. destruct (decodeArguments _); [|discriminate]. destruct (hex_decode _); discriminate.
Qed.
Lemma R_worth fs s root name : R fs s -> root <> [] -> plain name -> utf8 name ->
  worth root name fs = total_balance (default ∅ (s !! (Clean root, name))).
Proof. intros HR H1 H2 H3. unfold worth. rewrite (HR root name H1 H2 H3). reflexivity. Qed.
(** what a request other than for an account adds to the balances of a world *)
Lemma worth_step r fs s fs' x root name : usual r -> R fs s -> (forall k m, fst (remember r s) !! k = Some m -> text_accounts m) ->
  facade r fs = (fs', SOk x) -> ~ makes_account r -> root <> [] -> plain name -> utf8 name ->
  worth root name fs' = worth root name fs +
    if bool_decide ((Clean root, name) = place (digest_base (base_of r)))
    then match answer x with Some o => if is_query (default (DoAccount (mkWAcc false [] 0 0 0 ∅ [] [] [] [] [] [] 0 0 false)) (digest r)) then 0 else total_delta (o_accounts o) | None => 0 end else 0.
Proof.
  intros HU HR HT Hf Hn H1 H2 H3. destruct (session_step r fs s fs' (SOk x) HU HR HT Hf) as [Hx HR'].
  rewrite (R_worth _ _ root name HR H1 H2 H3), (R_worth _ _ root name HR' H1 H2 H3). clear HR HR' Hf HT.
  unfold remember in *. destruct (digest r) as [a|] eqn:Hd; [|discriminate]. cbv zeta in *.
  set (k := place (digest_base (base_of r))) in *. change (default _ (Some a)) with a.
  destruct (serve_some a (default ∅ (s !! k))) as (m' & y & Hs & Hq). rewrite Hs in *. cbn [fst snd] in *. injection Hx as ->.
  destruct (is_query a) eqn:Ha.
  - destruct (bool_decide _); [destruct (answer x)|]; lia.
  - destruct (bool_decide_reflect ((Clean root, name) = k)) as [E|E].
    + rewrite E, lookup_insert. change (default ∅ (Some m')) with m'. exact (serve_total a _ m' x Hs Ha (serve_account r a _ _ x Hd Hn Hs)).
    + rewrite lookup_insert_ne by (intros F; apply E; symmetry; exact F). lia.
Qed.
Lemma all_text_app l : forall l' s, all_text (l ++ l') s -> all_text l s /\ all_text l' (fst (remember_run l s)).
Proof.
  induction l as [|r l IH]; intros l' s H; cbn [app all_text remember_run] in *.
  - split; [destruct l'; split; try apply H; exact I|exact H].
  - destruct H as [H1 H2]. apply IH in H2 as [H2 H3]. destruct (remember r s) as [s1 x]. cbn [fst] in *.
    destruct (remember_run l s1). cbn [fst] in *. auto.
Qed.
Lemma worth_session l r fs0 fs' x root name :
  (forall root name, root <> [] -> plain name -> fs0 !! getWorldFile root name = None) -> List.Forall usual (l ++ [r]) -> all_text (l ++ [r]) ∅ ->
  facade r (fst (facade_run l fs0)) = (fs', SOk x) -> ~ makes_account r -> root <> [] -> plain name -> utf8 name ->
  worth root name fs' = worth root name (fst (facade_run l fs0)) +
    if bool_decide ((Clean root, name) = place (digest_base (base_of r)))
    then match answer x with Some o => if is_query (default (DoAccount (mkWAcc false [] 0 0 0 ∅ [] [] [] [] [] [] 0 0 false)) (digest r)) then 0 else total_delta (o_accounts o) | None => 0 end else 0.
Proof.
  intros HN HU HT Hf Hn H1 H2 H3. apply List.Forall_app in HU as [U1 U2]. apply all_text_app in HT as [T1 T2].
  apply List.Forall_cons_iff in U2 as [U2 _]. destruct (session_new l fs0 HN U1 T1) as [_ HR].
  eapply worth_step; try eassumption. intros k m Hk. cbn [all_text] in T2. destruct T2 as [_ [T2 _]]. exact (T2 k m Hk).
Qed.
(** ... nothing for a query, what the deltas of the answer add up to otherwise *)
Lemma worth_ask l r fs0 fs' x root name :
  (forall root name, root <> [] -> plain name -> fs0 !! getWorldFile root name = None) -> List.Forall usual (l ++ [r]) -> all_text (l ++ [r]) ∅ ->
  facade r (fst (facade_run l fs0)) = (fs', SOk x) -> ~ makes_account r -> root <> [] -> plain name -> utf8 name ->
  asks r \/ (Clean root, name) <> place (digest_base (base_of r)) ->
  worth root name fs' = worth root name (fst (facade_run l fs0)).
Proof.
  intros HN HU HT Hf Hn H1 H2 H3 Hc. rewrite (worth_session l r fs0 fs' x root name HN HU HT Hf Hn H1 H2 H3).
  destruct (bool_decide_reflect ((Clean root, name) = place (digest_base (base_of r)))) as [E|E]; [|lia].
  destruct Hc as [Hc|Hc]; [|contradiction]. destruct (digest r) as [a|] eqn:Hd.
  - change (default _ (Some a)) with a. rewrite (proj2 (digest_query r a Hd) Hc). destruct (answer x); lia.
  - unfold facade in Hf. rewrite Hd in Hf. discriminate.
Qed.
Lemma worth_run l r fs0 fs' x root name o :
  (forall root name, root <> [] -> plain name -> fs0 !! getWorldFile root name = None) -> List.Forall usual (l ++ [r]) -> all_text (l ++ [r]) ∅ ->
  facade r (fst (facade_run l fs0)) = (fs', SOk x) -> ~ makes_account r -> root <> [] -> plain name -> utf8 name ->
  ~ asks r -> (Clean root, name) = place (digest_base (base_of r)) -> answer x = Some o ->
  worth root name fs' = worth root name (fst (facade_run l fs0)) + total_delta (o_accounts o).
Proof.
  intros HN HU HT Hf Hn H1 H2 H3 Hq E Ho. rewrite (worth_session l r fs0 fs' x root name HN HU HT Hf Hn H1 H2 H3).
  rewrite bool_decide_eq_true_2 by exact E. rewrite Ho. destruct (digest r) as [a|] eqn:Hd.
  - change (default _ (Some a)) with a. destruct (is_query a) eqn:Ha; [|reflexivity]. apply (digest_query r a Hd) in Ha. contradiction.
  - unfold facade in Hf. rewrite Hd in Hf. discriminate.
Qed.
(** a query leaves every world as it was, if its outcome stays where outcomes go *)
Lemma query_keeps r fs root name : asks r -> plain (rb_outcome (base_of r)) -> root <> [] -> plain name ->
  loadWorld root name (fst (facade r fs)) = loadWorld root name fs.
Proof.
  intros Hq Hp H1 H2. destruct r as [| | |b c p|]; try contradiction. destruct (facade (Query b c p) fs) as [fs' x] eqn:Hf. cbn [fst].
  unfold loadWorld. rewrite (query_writes b c p fs fs' x (getWorldFile root name) Hf); [reflexivity|].
  intros E. symmetry in E. revert E. apply outcome_not_world; try assumption. apply root_ne.
Qed.
End session.
