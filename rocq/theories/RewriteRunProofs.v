(** The texts of a scenario play no part in its execution. *)
From Coq Require Import ZifyBool ZifyNat ZifyN.
From Verif Require Import Base WorldModel RewriteSpec.
Local Open Scope Z_scope.

Section Run.
Context {W : wenv}.

Lemma fold_map {A B C} (f : C -> B -> C) (g : A -> B) l c :
  fold_left f (map g l) c = fold_left (fun c a => f c (g a)) l c.
Proof. revert c. induction l as [|a l IH]; intros c; [done|]. cbn. apply IH. Qed.
Lemma fold_ext {A B} (f g : B -> A -> B) l b :
  (forall b a, f b a = g b a) -> fold_left f l b = fold_left g l b.
Proof. intros H. revert b. induction l as [|a l IH]; intros b; [done|]. cbn. rewrite H. apply IH. Qed.
Lemma fold_fmap {K A B C} `{Countable K} (g : A -> B) (f : C -> A) (k : C -> K) l (m : gmap K A) :
  fold_left (fun m c => <[k c := g (f c)]> m) l (g <$> m) =
  g <$> fold_left (fun m c => <[k c := f c]> m) l m.
Proof.
  revert m. induction l as [|c l IH]; intros m; [done|]. cbn. by rewrite <- fmap_insert, IH.
Qed.
Lemma keys_fmap {K A B} `{Countable K} (g : A -> B) (m : gmap K A) :
  Permutation (map fst (map_to_list (g <$> m))) (map fst (map_to_list m)).
Proof.
  transitivity (map fst (prod_map id g <$> map_to_list m)).
  - apply Permutation_map, map_to_list_fmap.
  - generalize (map_to_list m). intros l. induction l as [|[k a] l IH]; [done|]. cbn.
    by apply perm_skip.
Qed.
Lemma sforall_perm {A} (f : A -> sres bool) l l' :
  (forall a, f a <> SErr) -> Permutation l l' -> sforall f l = sforall f l'.
Proof.
  intros Hf. induction 1 as [|x l l' _ IH|x y l|l1 l2 l3 _ IH1 _ IH2]; cbn [sforall].
  - done.
  - by rewrite IH.
  - pose proof (Hf x). pose proof (Hf y). destruct (f x) as [b1| |], (f y) as [b2| |]; try done.
    cbn [sbind]. destruct (sforall f l) as [b3| |]; try done. cbn [sbind].
    by destruct b1, b2, b3.
  - congruence.
Qed.
Lemma sforall_no_err {A} (f : A -> sres bool) l : (forall a, f a <> SErr) -> sforall f l <> SErr.
Proof.
  intros Hf. induction l as [|x l IH]; cbn [sforall]; [done|]. pose proof (Hf x).
  destruct (f x); try done. cbn [sbind]. by destruct (sforall f l).
Qed.
Lemma forallb_perm {A} (f : A -> bool) l l' : Permutation l l' -> forallb f l = forallb f l'.
Proof.
  induction 1 as [|x l l' _ IH|x y l|l1 l2 l3 _ IH1 _ IH2]; cbn [forallb].
  - done.
  - by rewrite IH.
  - by destruct (f x), (f y).
  - congruence.
Qed.

(** * setState *)
Lemma token_text d a : put_token (W := W) a (p_data d) = put_token (W := W) a d.
Proof.
  unfold put_token. f_equal. cbn [p_data ed_instances ed_token ed_roles]. rewrite fold_map.
  apply fold_ext. done.
Qed.
Lemma account_text t : convertAccount (W := W) (p_account t) = convertAccount (W := W) t.
Proof.
  unfold convertAccount. cbn [p_account a_address a_balance a_esdt a_storage p_bytes p_big jb_value jz_value].
  destruct (_ =? _)%nat; [|done]. destruct (jz_value (a_balance t)) as [b|]; [|done]. f_equal.
  rewrite fold_map. erewrite fold_ext; [|intros; apply token_text]. f_equal.
  cbn [a_nonce a_code a_owner a_async a_username a_shard p_uint ju_value jb_value].
  f_equal. unfold storage_of. rewrite fold_map. by apply fold_ext.
Qed.
Lemma accounts_text l m : put_accounts (W := W) (map p_account l) m = put_accounts (W := W) l m.
Proof.
  revert m. induction l as [|t l IH]; intros m; [done|]. cbn [map put_accounts].
  rewrite account_text. destruct (convertAccount (W := W) t); [|done..]. by destruct (Validate _).
Qed.
Lemma block_text b : convertBlockInfo (p_block b) = convertBlockInfo b.
Proof. unfold convertBlockInfo. cbn. by destruct (bi_seed b). Qed.

(** * checkState *)

(** What is loaded without a nonce has no metadata. *)
Definition bare (t : token * token_meta) : Prop :=
  tm_nonce (snd t) = 0 ->
  tm_creator (snd t) = [] /\ tm_royalties (snd t) = 0 /\ tm_hash (snd t) = [] /\
  tm_uris (snd t) = [] /\ tm_attributes (snd t) = [].
Definition bare_all (m : gmap bytes mock_esdt) : Prop :=
  forall name e, m !! name = Some e -> Forall bare (me_instances e).
Lemma bare_get m name : bare_all m -> Forall bare (me_instances (getOrCreateMockESDTData m name)).
Proof.
  intros H. unfold getOrCreateMockESDTData. destruct (m !! name) as [e|] eqn:E; [|constructor].
  by eapply H.
Qed.
Lemma bare_insert m name e :
  bare_all m -> Forall bare (me_instances e) -> bare_all (<[name := e]> m).
Proof.
  intros H He n x Hx. destruct (decide (name = n)) as [->|Hn].
  - rewrite lookup_insert in Hx. by injection Hx as <-.
  - rewrite lookup_insert_ne in Hx by done. by eapply H.
Qed.
Lemma loaded_bare a key name t : loadMockESDTDataInstance (W := W) a key = SOk (name, t) -> bare t.
Proof.
  unfold loadMockESDTDataInstance. destruct (GetTokenData (W := W) a key) as [x| |]; [|done..]. cbn [sbind].
  destruct (tk_meta x) as [m|].
  - destruct (Z.eqb_spec (tm_nonce m) 0) as [E|E].
    + intros [= _ <-]. by intros _.
    + destruct (_ <? 0); [done|]. destruct (bool_decide _); [|done]. intros [= _ <-] H. done.
  - intros [= _ <-]. by intros _.
Qed.
Lemma entry_bare a k v m m' : bare_all m -> esdt_entry (W := W) a k v m = SOk m' -> bare_all m'.
Proof.
  intros H. unfold esdt_entry. destruct (after ESDTTokenKeyPrefix k).
  - destruct (loadMockESDTDataInstance (W := W) a k) as [[name [t tm]]| |] eqn:E; [|done..]. cbn [sbind].
    destruct (tk_value t) as [z|]; [|done]. destruct (0 <? z); intros [= <-]; [|done].
    apply bare_insert; [done|]. apply Forall_app. split; [by apply bare_get|].
    constructor; [|constructor]. by eapply loaded_bare.
  - destruct (after ESDTNonceKeyPrefix k).
    + intros [= <-]. apply bare_insert; [done|]. by apply bare_get.
    + destruct (after ESDTRoleKeyPrefix k) as [nm|]; [|by intros [= <-]].
      destruct (GetTokenRoles (W := W) a nm) as [r| |]; [|done..]. cbn [sbind]. intros [= <-].
      apply bare_insert; [done|]. by apply bare_get.
Qed.
Lemma full_bare a m : GetFullMockESDTData (W := W) a = SOk m -> bare_all m.
Proof.
  unfold GetFullMockESDTData. assert (bare_all ∅) as H by done. revert H.
  generalize (∅ : gmap bytes mock_esdt). generalize (map_to_list (wa_storage a)). intros l.
  induction l as [|[k v] l IH]; intros x H; cbn [esdt_entries].
  - by intros [= <-].
  - destruct (esdt_entry (W := W) a k v x) as [y| |] eqn:E; [|done..]. cbn [sbind]. apply IH.
    by eapply entry_bare.
Qed.

Lemma meta_text n c have : (n = 0 -> have = []) ->
  unspec_or (p_meta n c) have = unspec_or c have.
Proof.
  intros H. unfold unspec_or, p_meta, checkBytes. destruct c as [v st o un]. cbn.
  destruct un, st; cbn; [| | |done];
    (destruct (Z.eqb_spec n 0) as [E|E]; cbn; [rewrite (H E); by apply bool_decide_eq_true|done]).
Qed.
Lemma meta_number_text n c have : (n = 0 -> have = 0) ->
  cu_unspec (p_meta_number n c) || checkUint64 (p_meta_number n c) have =
  cu_unspec c || checkUint64 c have.
Proof.
  intros H. unfold p_meta_number, checkUint64. destruct c as [v st o un]. cbn.
  destruct un, st; cbn; [| | |done];
    (destruct (Z.eqb_spec n 0) as [E|E]; cbn; [by rewrite (H E)|done]).
Qed.
Lemma instance_text x t name n :
  (forall i, x = Some i -> cu_value (xi_nonce i) = n) ->
  (forall i, t = Some i -> tm_nonce (snd i) = n /\ bare i) ->
  instance_ok (p_check_inst <$> x) t name n = instance_ok x t name n.
Proof.
  intros Hx Ht. destruct x as [i|]; [|done]. unfold instance_ok. cbn [fmap option_fmap option_map default].
  specialize (Hx i eq_refl).
  assert (exists value m, match t with
    | Some (t, m) => (tk_value t, m) | None => (Some 0, mkTokMeta n name [] 0 [] [] []) end = (value, m) /\
    (n = 0 -> tm_creator m = [] /\ tm_royalties m = 0 /\ tm_hash m = [] /\ tm_uris m = [] /\
      tm_attributes m = [])) as (value & m & -> & Hm).
  { destruct t as [[t m]|]; [|by eexists _, _]. eexists _, _. split; [done|]. intros Hn.
    destruct (Ht _ eq_refl) as [E B]. apply B. cbn in *. congruence. }
  destruct value as [v|]; [|done]. cbn [id].
  unfold p_check_inst. cbn [xi_balance xi_creator xi_royalties xi_hash xi_uri xi_attributes].
  rewrite Hx. unfold checkBigInt at 1. cbn [cz_star cz_value]. fold (checkBigInt (xi_balance i) v).
  rewrite !meta_text, meta_number_text; [done|..]; intros Hn; destruct (Hm Hn) as (? & ? & ? & E & ?);
    try done. by rewrite E.
Qed.

Lemma sforall_ext {A} (f g : A -> sres bool) l : (forall a, f a = g a) -> sforall f l = sforall g l.
Proof. intros H. induction l as [|a l IH]; [done|]. cbn. by rewrite H, IH. Qed.
Lemma last_key {K A} `{Countable K} (key : A -> K) (P : A -> Prop) l (m : gmap K A) :
  Forall P l -> (forall k a, m !! k = Some a -> key a = k /\ P a) ->
  forall k a, fold_left (fun m a => <[key a := a]> m) l m !! k = Some a -> key a = k /\ P a.
Proof.
  intros Hl. revert m. induction Hl as [|b l Hb Hl IH]; intros m Hm; [done|]. cbn. apply IH.
  intros k a. destruct (decide (key b = k)) as [E|E].
  - rewrite E, lookup_insert. intros [= <-]. done.
  - rewrite lookup_insert_ne by done. apply Hm.
Qed.

Lemma instance_no_err x t name n : instance_ok x t name n <> SErr.
Proof.
  unfold instance_ok. destruct t as [[t m]|]; cbn;
    repeat (match goal with |- context [match ?a with Some _ => _ | None => _ end] => destruct a end;
            cbn; try done); unfold checkBigInt;
    destruct (cz_star _); cbn; try done; by destruct (cz_value _).
Qed.
Lemma instances_no_err name want have : checkTokenInstances name want have <> SErr.
Proof.
  unfold checkTokenInstances.
  match goal with |- sbind (sforall ?f ?l) _ <> _ =>
    pose proof (fun x => sforall_no_err f x (fun n => instance_no_err _ _ _ _)) as H;
    pose proof (H l); destruct (sforall f l) as [b| |]; try done end. cbn [sbind].
  match goal with |- sbind (sforall ?f ?l) _ <> _ => pose proof (H l); by destruct (sforall f l) end.
Qed.
Lemma state_no_err name x t : checkTokenState name x t <> SErr.
Proof.
  unfold checkTokenState. pose proof (instances_no_err name (xe_instances x) (me_instances t)).
  by destruct (checkTokenInstances _ _ _).
Qed.
Lemma instances_text name want have : Forall bare have ->
  checkTokenInstances name (map p_check_inst want) have = checkTokenInstances name want have.
Proof.
  intros Hb. unfold checkTokenInstances.
  assert (fold_left (fun m i => <[cu_value (xi_nonce i) := i]> m) (map p_check_inst want)
            (∅ : gmap Z check_inst) =
          p_check_inst <$> fold_left (fun m i => <[cu_value (xi_nonce i) := i]> m) want ∅) as E.
  { rewrite fold_map. rewrite <- (fold_fmap p_check_inst (fun i => i)). rewrite fmap_empty.
    by apply fold_ext. }
  rewrite E. cbv zeta. clear E.
  erewrite sforall_perm; [|intros; apply instance_no_err|apply keys_fmap].
  match goal with |- sbind (sforall ?f ?l) _ = sbind (sforall ?g _) _ =>
    assert (forall n, f n = g n) as Hf end.
  { intros n. rewrite lookup_fmap. apply instance_text.
    - intros i Hi. refine (proj1 (last_key (fun i => cu_value (xi_nonce i)) (fun _ => True) want ∅ _ _ n i Hi)).
      + by apply Forall_forall.
      + by intros ? ?.
    - intros i Hi. refine (last_key (fun i => tm_nonce (snd i)) bare have ∅ Hb _ n i Hi). by intros ? ?. }
  rewrite (sforall_ext _ _ _ Hf).
  match goal with |- sbind ?a _ = _ => destruct a as [x| |]; [|done..] end. cbn [sbind].
  by rewrite (sforall_ext _ _ _ Hf).
Qed.

Lemma token_state_text name x t : Forall bare (me_instances t) ->
  checkTokenState name (p_check_esdt x) t = checkTokenState name x t.
Proof.
  intros Hb. unfold checkTokenState. cbn [p_check_esdt xe_instances xe_last xe_roles].
  by rewrite instances_text.
Qed.

Lemma esdt_text x a : checkAccountESDT (W := W) (p_check_account x) a = checkAccountESDT (W := W) x a.
Proof.
  unfold checkAccountESDT. cbn [p_check_account x_ignore_esdt x_esdt]. destruct (x_ignore_esdt x); [done|].
  assert (fold_left (fun m e => <[jb_value (xe_token e) := e]> m) (map p_check_esdt (x_esdt x))
            (∅ : gmap bytes check_esdt) =
          p_check_esdt <$> fold_left (fun m e => <[jb_value (xe_token e) := e]> m) (x_esdt x) ∅) as E.
  { rewrite fold_map. rewrite <- (fold_fmap p_check_esdt (fun i => i)). rewrite fmap_empty.
    by apply fold_ext. }
  rewrite E. cbv zeta. clear E.
  destruct (GetFullMockESDTData (W := W) a) as [tokens| |] eqn:F; [|done..]. cbn [sbind].
  pose proof (full_bare _ _ F) as Hb. generalize (fold_left (fun m e => <[jb_value (xe_token e) := e]> m) (x_esdt x) (∅ : gmap bytes check_esdt)).
  intros m. erewrite sforall_perm; [|intros; apply state_no_err|apply keys_fmap].
  match goal with |- sbind (sforall ?f ?l) _ = sbind (sforall ?g _) _ =>
    assert (forall n, f n = g n) as Hf end.
  { intros n. rewrite lookup_fmap.
    assert (Forall bare (me_instances (default (mkMockEsdt [] 0 []) (tokens !! n)))) as H1.
    { destruct (tokens !! n) as [e|] eqn:T; [by eapply Hb|constructor]. }
    destruct (m !! n) as [e|]; cbn [fmap option_fmap option_map default id]; [|done].
    by apply token_state_text. }
  rewrite (sforall_ext _ _ _ Hf).
  match goal with |- sbind ?a _ = _ => destruct a as [y| |]; [|done..] end. cbn [sbind].
  by rewrite (sforall_ext _ _ _ Hf).
Qed.

Lemma forallb_ext' {A} (f g : A -> bool) l : (forall a, f a = g a) -> forallb f l = forallb g l.
Proof. intros H. induction l as [|a l IH]; [done|]. cbn. by rewrite H, IH. Qed.
Lemma storage_text x a : checkAccountStorage (p_check_account x) a = checkAccountStorage x a.
Proof.
  unfold checkAccountStorage. cbn [p_check_account x_ignore_storage x_storage].
  destruct (x_ignore_storage x); [done|].
  assert (fold_left (fun m kv => <[jb_value (fst kv) := snd kv]> m)
      (map (fun kv => (p_bytes (fst kv), p_cbytes (snd kv))) (x_storage x)) (∅ : gmap bytes cbytes) =
    p_cbytes <$> fold_left (fun m kv => <[jb_value (fst kv) := snd kv]> m) (x_storage x) ∅) as E.
  { rewrite fold_map. rewrite <- (fold_fmap p_cbytes snd). rewrite fmap_empty. by apply fold_ext. }
  rewrite E. cbv zeta. clear E. erewrite forallb_perm by apply keys_fmap.
  generalize (fold_left (fun m kv => <[jb_value (fst kv) := snd kv]> m) (x_storage x) (∅ : gmap bytes cbytes)). intros m.
  assert (forall k, storage_key_ok (p_check_account x) (p_cbytes <$> m) a k = storage_key_ok x m a k) as H.
  { intros k. unfold storage_key_ok. destruct (after _ _); [done|]. rewrite lookup_fmap.
    by destruct (m !! k). }
  f_equal; apply forallb_ext', H.
Qed.

Lemma check_account_text accts x :
  checkAccount (W := W) accts (p_check_account x) = checkAccount (W := W) accts x.
Proof.
  unfold checkAccount. change (jb_value (x_address (p_check_account x))) with (jb_value (x_address x)).
  destruct (accts !! _) as [a|]; [|done]. rewrite storage_text, esdt_text. done.
Qed.
Lemma check_each_text accts l : checkEach (W := W) accts (map p_check_account l) = checkEach (W := W) accts l.
Proof.
  induction l as [|x l IH]; [done|]. cbn [map checkEach]. rewrite check_account_text.
  destruct (checkAccount (W := W) accts x); [|done..]. apply IH.
Qed.
Lemma find_text l addr :
  FindCheckAccount (map p_check_account l) addr = p_check_account <$> FindCheckAccount l addr.
Proof.
  unfold FindCheckAccount. induction l as [|x l IH]; [done|]. cbn [map List.find].
  change (jb_value (x_address (p_check_account x))) with (jb_value (x_address x)).
  by destruct (bool_decide _).
Qed.
Lemma check_accounts_text xs w : checkAccounts (W := W) (p_accounts xs) w = checkAccounts (W := W) xs w.
Proof.
  unfold checkAccounts. cbn [p_accounts xs_accounts xs_more]. rewrite check_each_text. f_equal. do 2 f_equal.
  apply forallb_ext'. intros a. rewrite find_text. by destruct (FindCheckAccount _ _).
Qed.

(** * Transactions *)
Lemma tx_text ident t w : executeTx (W := W) ident (p_tx t) w = executeTx (W := W) ident t w.
Proof.
  assert (forall v w, senderHasEnoughBalance (p_tx t) v w = senderHasEnoughBalance t v w) as H1 by done.
  assert (forall from v g, tx_input ident (p_tx t) from v g = tx_input ident t from v g) as H2.
  { intros. unfold tx_input. f_equal; cbn [p_tx t_args t_esdt].
    - induction (t_args t) as [|x l IH]; [done|]. cbn. by rewrite IH.
    - by destruct (t_esdt t). }
  assert (forall v g w, tx_output (W := W) ident (p_tx t) v g w = tx_output (W := W) ident t v g w) as H3.
  { intros. unfold tx_output. rewrite H1. destruct (negb _); [done|].
    change (t_type (p_tx t)) with (t_type t). unfold scCreate, scCall. destruct (t_type t); try done;
    rewrite H2; done. }
  unfold executeTx. change (jz_value (t_value (p_tx t))) with (jz_value (t_value t)).
  destruct (jz_value (t_value t)) as [v|]; [|done]. cbv zeta.
  change (t_type (p_tx t)) with (t_type t). change (t_esdt (p_tx t)) with (p_esdt_tx <$> t_esdt t).
  change (jb_value (t_from (p_tx t))) with (jb_value (t_from t)).
  change (ju_value (t_gaslimit (p_tx t))) with (ju_value (t_gaslimit t)).
  change (ju_value (t_gasprice (p_tx t))) with (ju_value (t_gasprice t)).
  match goal with |- (let '(_, _) := ?A in _) = (let '(_, _) := ?B in _) =>
    assert (A = B) as -> end.
  { destruct (HasSender _); [|done]. destruct (UpdateWorldStateBefore _ _ _ _) as [w' []]; [|done].
    by destruct (t_esdt t). }
  match goal with |- (let '(_, _) := ?B in _) = _ => destruct B as [w1 [g| |]]; [|done..] end.
  rewrite H3. destruct (tx_output (W := W) ident t v g w1) as [w2 [o| |]]; done.
Qed.
Lemma list_text want have : check_list (map p_cbytes want) have = check_list want have.
Proof.
  revert have. induction want as [|c l IH]; intros [|b have]; try done. cbn [map check_list].
  by rewrite IH.
Qed.
Lemma logs_text want have : check_logs (map p_log want) have = check_logs want have.
Proof.
  revert have. induction want as [|c l IH]; intros [|b have]; try done. cbn [map check_logs].
  rewrite IH. f_equal. unfold check_log. cbn [p_log lc_address lc_identifier lc_topics lc_data].
  by rewrite list_text.
Qed.
Lemma results_text r g o : checkTxResults (p_result r) g o = checkTxResults r g o.
Proof.
  unfold checkTxResults. cbn [p_result tr_out tr_logs tr_logs_star tr_status tr_message tr_refund tr_gas].
  by rewrite list_text, logs_text.
Qed.

(** * Steps *)
Lemma step_text g s w : ExecuteStep (W := W) g (p_step s) w = ExecuteStep (W := W) g s w.
Proof.
  destruct s as [| c accounts previous current hashes mocks | c [xs|] | | ident c t expected]; try done;
    cbn [p_step ExecuteStep fmap option_fmap option_map].
  - unfold ExecuteSetStateStep. rewrite accounts_text.
    destruct (put_accounts (W := W) accounts _) as [m [u| |]]; [|done..].
    assert (forall o : option block_info, convertBlockInfo <$> (p_block <$> o) = convertBlockInfo <$> o) as Hb.
    { intros [b|]; [|done]. cbn. by rewrite block_text. }
    assert (map jb_value (map p_bytes hashes) = map jb_value hashes) as ->.
    { rewrite map_map. by apply map_ext. }
    assert (forallb (fun n => IsSmartContractAddress (jb_value (na_new n))) (map p_mock mocks) =
            forallb (fun n => IsSmartContractAddress (jb_value (na_new n))) mocks) as ->.
    { induction mocks as [|n l IH]; [done|]. cbn [map forallb]. by rewrite IH. }
    assert (map convertNewAddressMock (map p_mock mocks) = map convertNewAddressMock mocks) as ->.
    { rewrite map_map. by apply map_ext. }
    rewrite <- (Hb previous), <- (Hb current). done.
  - by rewrite check_accounts_text.
  - unfold ExecuteTxStep. rewrite tx_text. destruct (executeTx (W := W) ident t w) as [w' [o| |]]; [|done..].
    cbn [sbind]. destruct expected as [r|]; cbn [fmap option_fmap option_map]; [|done].
    by rewrite results_text.
Qed.
Lemma steps_text g l w : ExecuteSteps (W := W) g (map p_step l) w = ExecuteSteps (W := W) g l w.
Proof.
  revert w. induction l as [|s l IH]; intros w; [done|]. cbn [map ExecuteSteps]. rewrite step_text.
  destruct (ExecuteStep (W := W) g s w) as [w' [u| |]]; [|done..]. apply IH.
Qed.
Lemma same_run g l l' w : map p_step l' = map p_step l ->
  ExecuteSteps (W := W) g l' w = ExecuteSteps (W := W) g l w.
Proof. intros H. by rewrite <- (steps_text g l), <- (steps_text g l'), H. Qed.
End Run.
