(** What the writer of scenarios writes is read again: accounts, transactions,
    steps and the text. *)
From Verif Require Import Base JsonModel JsonSpec JsonProofs JsonParseProofs JsonPrintProofs.
From Verif Require Import ScenParseModel ScenWriteModel RewriteSpec ReadProofs RewriteTokenProofs.
From stdpp Require Import list.
Local Open Scope Z_scope.

Section Back.
Context (files : bytes -> option bytes) (keccak : bytes -> bytes).
Notation bytes_of_text := (bytes_of_text files keccak).
Notation parseAccountAddress := (parseAccountAddress files keccak).
Notation processSubTreeAsByteArray := (processSubTreeAsByteArray files keccak).
Notation processBigInt := (processBigInt files keccak).
Notation processUint64 := (processUint64 files keccak).
Notation parseCheckBytes := (parseCheckBytes files keccak).
Notation processCheckBigInt := (processCheckBigInt files keccak).
Notation processCheckUint64 := (processCheckUint64 files keccak).
Notation good_bytes := (good_bytes files keccak).
Notation good_tree := (good_tree files keccak).
Notation good_big := (good_big files keccak).
Notation good_big0 := (good_big0 files keccak).
Notation good_uint := (good_uint files keccak).
Notation good_cbytes := (good_cbytes files keccak).
Notation good_cbytes0 := (good_cbytes0 files keccak).
Notation read_cbytes := (read_cbytes files keccak).
Notation good_cbig := (good_cbig files keccak).
Notation good_cuint := (good_cuint files keccak).
Notation read_cuint := (read_cuint files keccak).
Notation good_address := (good_address files keccak).
Notation read_address := (read_address files keccak).

Notation bytes_zero := (bytes_zero files keccak).
Notation bytes_text := (bytes_text files keccak).
Notation bytes_oj := (bytes_oj files keccak).
Notation bytes_back := (bytes_back files keccak).
Notation address_bytes := (address_bytes files keccak).
Notation address_back := (address_back files keccak).
Notation address_read := (address_read files keccak).
Notation tree_value := (tree_value files keccak).
Notation tree_oj := (tree_oj files keccak).
Notation tree_back := (tree_back files keccak).
Notation big_back := (big_back files keccak).
Notation big0_back := (big0_back files keccak).
Notation uint_back := (uint_back files keccak).
Notation uint_zero := (uint_zero files keccak).
Notation cuint_back := (cuint_back files keccak).
Notation cuint_read := (cuint_read files keccak).
Notation cuint_unspec := (cuint_unspec files keccak).
Notation read_cuint_spec := (read_cuint_spec files keccak).
Notation read_cuint_zero := (read_cuint_zero files keccak).
Notation cbig_back := (cbig_back files keccak).
Notation cbig_unspec := (cbig_unspec files keccak).
Notation cbytes_back := (cbytes_back files keccak).
Notation cbytes_read := (cbytes_read files keccak).
Notation read_cbytes_spec := (read_cbytes_spec files keccak).
Notation cbytes_unspec := (cbytes_unspec files keccak).
Notation cbytes_if := (cbytes_if files keccak).
Notation drop_uint := (drop_uint files keccak).
Notation drop_bytes := (drop_bytes files keccak).
Notation drop_cuint := (drop_cuint files keccak).
Notation spec_cuint := (spec_cuint files keccak).
Notation spec_cbig := (spec_cbig files keccak).
Notation spec_cbytes := (spec_cbytes files keccak).
Notation inst_back := (inst_back files keccak).
Notation esdt_loop := (esdt_loop files keccak).
Notation token_tail_back := (token_tail_back files keccak).
Notation insts_back := (insts_back files keccak).
Notation token_back := (token_back files keccak).
Notation told_read := (told_read files keccak).
Notation told_number_meta := (told_number_meta files keccak).
Notation cuint_number := (cuint_number files keccak).
Notation cuint_given := (cuint_given files keccak).
Notation cbig_given := (cbig_given files keccak).
Notation cbig_number := (cbig_number files keccak).
Notation check_inst_back := (check_inst_back files keccak).
Notation check_esdt_loop := (check_esdt_loop files keccak).
Notation check_token_tail_back := (check_token_tail_back files keccak).
Notation check_insts_back := (check_insts_back files keccak).
Notation check_token_back := (check_token_back files keccak).

(** * Accounts *)

Lemma wj_entries {A} (key : A -> bytes) (val : A -> json) l :
  Forall (fun x => quotable (key x) /\ wj (val x)) l -> NoDup (map key l) ->
  wj (JMap (map (fun x => (key x, val x)) l)).
Proof.
  intros H Hn. constructor.
  - by rewrite Forall_map.
  - by rewrite map_map.
Qed.

Lemma tokens_back l :
  Forall (good_data files keccak) l -> NoDup (map (fun d => jb_orig (ed_token d)) l) ->
  Forall kept_token l ->
  wj (esdtDataToOJ l) /\
  exists m l', esdtDataToOJ l = JMap m /\ each (esdt_entry_of files keccak) m = SOk l' /\
    map p_data l' = map p_data l.
Proof.
  intros Hg Hn Hk. unfold esdtDataToOJ. rewrite fold_put by done. cbn [app].
  rewrite Forall_forall in Hg, Hk. split.
  - apply wj_entries; [|done]. apply Forall_forall. intros d Hd. destruct (Hg d Hd) as [[_ Hq] _].
    split; [done|]. by apply token_back; auto.
  - destruct (each_back_pure (fun d => (jb_orig (ed_token d), esdtItemToOJ d))
      (esdt_entry_of files keccak) (fun _ => True) (fun d d' => p_data d' = p_data d) l)
      as (_ & l' & H1 & H2).
    + intros d Hd. split; [done|]. destruct (token_back d (Hg d Hd) (Hk d Hd)) as (_ & d' & H1 & H2).
      exists d'. split; [|done]. unfold esdt_entry_of. cbn [fst snd].
      destruct (Hg d Hd) as [[-> _] _]. exact H1.
    + eexists _, l'. split_and!; [reflexivity|exact H1|by apply Forall2_map_eq].
Qed.
Definition storageToOJ (l : list (jbytes * jtree)) : json :=
  JMap (fold_left (fun m kv =>
          Put m (bytesFromStringToString (fst kv)) (bytesFromTreeToOJ (snd kv))) l []).
Lemma storage_back l :
  Forall (fun kv => good_bytes (fst kv) /\ good_tree (snd kv)) l ->
  NoDup (map (fun kv => jb_orig (fst kv)) l) ->
  wj (storageToOJ l) /\
  exists m, storageToOJ l = JMap m /\ each (storage_entry_of files keccak) m = SOk l.
Proof.
  intros Hg Hn. unfold storageToOJ.
  assert (map (fun kv => bytesFromStringToString (fst kv)) l = map (fun kv => jb_orig (fst kv)) l) as E.
  { clear Hn. induction Hg as [|x l [H _] _ IH]; cbn [map]; [done|]. by rewrite bytes_text, IH. }
  rewrite <- E in Hn.
  rewrite (fold_put (fun kv : jbytes * jtree => bytesFromStringToString (fst kv))
    (fun kv => bytesFromTreeToOJ (snd kv))) by done. cbn [app]. split.
  - apply (wj_entries (fun kv : jbytes * jtree => bytesFromStringToString (fst kv))
      (fun kv => bytesFromTreeToOJ (snd kv))); [|done].
    eapply Forall_impl; [exact Hg|]. intros [k t] [Hk Ht]. cbn [fst snd] in *.
    rewrite bytes_text by done. split; [apply Hk|by apply tree_back].
  - eexists. split; [reflexivity|]. clear Hn E. induction Hg as [|[k t] l [Hk Ht] _ IH]; [done|].
    cbn [map each]. unfold storage_entry_of at 1. cbn [fst snd] in *. rewrite bytes_text by done.
    destruct Hk as [-> _]. destruct (tree_back _ Ht) as [-> _]. cbn [sbind]. by rewrite IH.
Qed.

Ltac account_acc := cbn [set_a_address set_a_shard set_a_comment set_a_nonce set_a_balance set_a_username
  set_a_storage set_a_code set_a_owner set_a_async set_a_esdt a_address a_shard a_comment a_nonce
  a_balance a_username a_storage a_code a_owner a_async a_esdt].
Ltac account_go := unfold account_field; keys; account_acc.

Lemma account_back a : good_account0 files keccak a -> kept_account a ->
  wj (accountToOJ a) /\
  exists a', processAccount files keccak (accountToOJ a) = SOk a' /\
    p_account (set_a_address (a_address a) a') = p_account a.
Proof.
  intros (G1 & G2 & G3 & G4 & G5 & [G6 G6'] & G7 & G8 & G9 & [G10 G10']) [K1 K2].
  destruct (uint_back _ G3) as [N3 W3]. destruct (big_back _ G4) as [N4 W4].
  destruct (bytes_back _ G5) as [N5 W5].
  destruct (storage_back _ G6 G6') as (W6 & m6 & M6 & N6).
  destruct (bytes_back _ G7) as [N7 W7]. destruct (bytes_back _ G8) as [N8 W8].
  destruct (tokens_back _ G10 G10' K2) as (W10 & m10 & l10 & M10 & N10 & P10).
  unfold accountToOJ. fold (storageToOJ (a_storage a)). split.
  - eapply (okf_wj ["comment"; "nonce"; "balance"; "esdt"; "username"; "storage"; "code"; "owner";
      "asyncCallData"]%string); [by vm_compute|]. right_nested.
    repeat (apply okf_if || apply okf_must || apply okf_nil); try done; intros _; try done;
      by constructor.
  - eexists. split.
    + unfold processAccount. cbn [as_map sbind]. right_nested. unfold account_start.
      seg set_a_comment a_comment (a_comment a) with (account_acc) via (account_go; done).
      must set_a_nonce (a_nonce a) with (account_acc) via (account_go; by rewrite N3).
      must set_a_balance (a_balance a) with (account_acc) via (account_go; by rewrite N4).
      seg set_a_esdt a_esdt l10 with (account_acc) via
        (account_go; rewrite M10; cbn [as_map sbind]; by rewrite N10).
      seg set_a_username a_username (a_username a) with (account_acc) via (account_go; by rewrite N5).
      must set_a_storage (a_storage a) with (account_acc) via
        (account_go; rewrite M6; cbn [as_map sbind]; by rewrite N6).
      must set_a_code (a_code a) with (account_acc) via (account_go; by rewrite N7).
      seg set_a_owner a_owner (a_owner a) with (account_acc) via (account_go; by rewrite N8).
      seg set_a_async a_async (a_async a) with (account_acc) via (account_go; done).
      reflexivity.
    + unfold p_account. account_acc. rewrite !drop_text, !drop_bytes_value. f_equal.
      * unfold p_uint. by rewrite K1.
      * rewrite <- P10. case_bool_decide as E; cbn [negb]; [|done].
        destruct (a_esdt a); [|done]. by rewrite P10.
Qed.
Lemma accounts_back l : good_accounts files keccak l -> Forall kept_account l ->
  wj (AccountsToOJ l) /\
  exists l', processAccountMap files keccak (AccountsToOJ l) = SOk l' /\ map p_account l' = map p_account l.
Proof.
  intros [Hg Hn] Hk. unfold AccountsToOJ.
  assert (map (fun a => bytesFromStringToString (a_address a)) l = map (fun a => jb_orig (a_address a)) l) as E.
  { clear Hn Hk. induction Hg as [|x l [H _] _ IH]; cbn [map]; [done|].
    apply address_bytes in H as [H _]. by rewrite bytes_text, IH. }
  rewrite <- E in Hn.
  rewrite (fold_put (fun a => bytesFromStringToString (a_address a)) accountToOJ) by done. cbn [app].
  rewrite Forall_forall in Hg, Hk. split.
  - apply (wj_entries (fun a => bytesFromStringToString (a_address a)) accountToOJ); [|done].
    apply Forall_forall. intros a Ha. destruct (Hg a Ha) as [H1 H2].
    rewrite bytes_text by apply (address_bytes _ H1). split; [apply H1|]. by apply account_back; auto.
  - destruct (each_back_pure (fun a => (bytesFromStringToString (a_address a), accountToOJ a))
      (account_entry files keccak) (fun _ => True) (fun a a' => p_account a' = p_account a) l)
      as (_ & l' & H1 & H2).
    + intros a Ha. split; [done|]. destruct (Hg a Ha) as [H1 H2].
      destruct (account_back a H2 (Hk a Ha)) as (_ & a' & H3 & H4).
      exists (set_a_address (a_address a) a'). split; [|done]. unfold account_entry. cbn [fst snd].
      rewrite H3. cbn [sbind]. rewrite bytes_text by apply (address_bytes _ H1).
      destruct H1 as [-> _]. reflexivity.
    + exists l'. split; [exact H1|by apply Forall2_map_eq].
Qed.

(** * Conditions on accounts *)

Ltac x_acc := cbn [set_x_address set_x_comment set_x_nonce set_x_balance set_x_username set_x_storage
  set_x_ignore_storage set_x_more_storage set_x_code set_x_owner set_x_async set_x_esdt
  set_x_ignore_esdt set_x_more_esdt x_address x_comment x_nonce x_balance x_username x_storage
  x_ignore_storage x_more_storage x_code x_owner x_async x_esdt x_ignore_esdt x_more_esdt].
Ltac x_go := unfold check_account_field; keys; x_acc.

Lemma plus_if_ok {A} (key : A -> bytes) (l : list A) kvs more :
  plus_free key l -> map fst kvs = map key l ->
  Forall (fun kv => quotable (fst kv) /\ wj (snd kv)) kvs ->
  plus_if more kvs = JMap (kvs ++ field_if more "+" (stringToOJ [])) /\
  wj (plus_if more kvs).
Proof.
  intros [Hn Hp] E Hw. unfold plus_if. destruct more; cbn [field_if].
  - rewrite put_new by by rewrite E. split; [done|]. constructor.
    + apply Forall_app. split; [done|]. constructor; [|done]. cbn [fst snd]. split.
      * by apply plain_quotable.
      * constructor. apply nil_quotable.
    + rewrite map_app, E. apply NoDup_app. split_and!; [done| |apply NoDup_singleton].
      intros x Hx Hx'. apply elem_of_list_singleton in Hx' as ->. done.
  - rewrite app_nil_r. split; [done|]. constructor; [done|]. by rewrite E.
Qed.

Lemma check_esdt_run kvs ds : forall a,
  Forall2 (fun kv d => fst kv <> str "+" /\ exists name, bytes_of_text (fst kv) = SOk name /\
             processCheckESDTData files keccak name (snd kv) = SOk d) kvs ds ->
  over (check_esdt_entry files keccak) kvs a = SOk (set_x_esdt (x_esdt a ++ ds) a).
Proof.
  intros a H. revert a. induction H as [|[k v] d kvs ds (Hk & name & H1 & H2) _ IH]; intros a.
  - cbn [over]. rewrite app_nil_r. by destruct a.
  - cbn [over fst snd] in *. unfold check_esdt_entry at 1. unfold key_is.
    rewrite bool_decide_eq_false_2 by done. rewrite H1. cbn [sbind]. rewrite H2. cbn [sbind].
    rewrite IH. x_acc. by rewrite <- app_assoc.
Qed.
Lemma check_storage_run kvs ds : forall a,
  Forall2 (fun kv d => fst kv <> str "+" /\ bytes_of_text (fst kv) = SOk (fst d) /\
             parseCheckBytes (snd kv) = SOk (snd d)) kvs ds ->
  over (check_storage_entry files keccak) kvs a = SOk (set_x_storage (x_storage a ++ ds) a).
Proof.
  intros a H. revert a. induction H as [|[k v] [dk d] kvs ds (Hk & H1 & H2) _ IH]; intros a.
  - cbn [over]. rewrite app_nil_r. by destruct a.
  - cbn [over fst snd] in *. unfold check_storage_entry at 1. unfold key_is.
    rewrite bool_decide_eq_false_2 by done. rewrite H1. cbn [sbind]. rewrite H2. cbn [sbind].
    rewrite IH. x_acc. by rewrite <- app_assoc.
Qed.

Lemma each_rel {A B} (w : A -> sres B) (R : A -> B -> Prop) l :
  (forall x, x ∈ l -> exists y, w x = SOk y /\ R x y) ->
  exists ys, each w l = SOk ys /\ Forall2 R l ys.
Proof.
  induction l as [|x l IH]; intros H; [exists []; by repeat constructor|].
  destruct (H x) as (y & H1 & H2); [constructor|].
  destruct IH as (ys & H3 & H4); [intros z Hz; apply H; by constructor|].
  exists (y :: ys). cbn [each]. rewrite H1, H3. split; [done|by constructor].
Qed.

Definition esdt_done (a : check_account) (l' : list check_esdt) (acc : check_account) : check_account :=
  set_x_esdt l' (set_x_ignore_esdt (x_ignore_esdt a) (set_x_more_esdt (x_more_esdt a) acc)).
Lemma check_esdt_segment a : good_check_account0 files keccak a -> kept_check_account a ->
  exists fe l', check_esdt_fields a = SOk fe /\ okf ["esdt"]%string fe /\
    map p_check_esdt l' = map p_check_esdt (x_esdt a) /\
    forall acc, x_esdt acc = [] -> x_more_esdt acc = false -> x_ignore_esdt acc = false ->
      over (check_account_field files keccak) fe acc = SOk (esdt_done a l' acc).
Proof.
  intros (_ & _ & _ & _ & _ & _ & _ & _ & Hg & Hp & Hi) [Hm Hk]. unfold check_esdt_fields, esdt_done.
  destruct (x_ignore_esdt a) eqn:Ei.
  - destruct (Hi eq_refl) as [-> ->]. eexists _, []. split_and!; [reflexivity| |done|].
    + rewrite <- (app_nil_r (field _ _)). apply okf_must; [constructor; by apply plain_quotable|apply okf_nil].
    + intros acc H1 H2 H3. rewrite <- (app_nil_r (field _ _)).
      erewrite over_must; [reflexivity|]. x_go.
      change (IsStar (stringToOJ (str "*"))) with true. cbv beta iota. destruct acc.
      cbn in *. by subst.
  - destruct (x_esdt a) as [|d0 l0] eqn:El.
    + rewrite (Hm eq_refl). exists [], []. split_and!; [done|apply okf_skip, okf_nil|done|].
      intros acc H1 H2 H3. cbn [over]. destruct acc. cbn in *. by subst.
    + rewrite <- El in *. clear El d0 l0. unfold checkESDTDataToOJ. rewrite Forall_forall in Hg, Hk.
      destruct (each_rel (fun d => sbind (checkESDTItemToOJ d) (fun v => SOk (jb_orig (xe_token d), v)))
        (fun d kv => fst kv = jb_orig (xe_token d) /\ wj (snd kv) /\
           exists d', processCheckESDTData files keccak (xe_token d) (snd kv) = SOk d' /\
             p_check_esdt d' = p_check_esdt d) (x_esdt a)) as (kvs & E1 & E2).
      { intros d Hd. destruct (check_token_back d (Hg d Hd) (Hk d Hd)) as (j & d' & H1 & H2 & H3 & H4).
        exists (jb_orig (xe_token d), j). rewrite H1. cbn [fst snd]. eauto 7. }
      assert (map fst kvs = map (fun d => jb_orig (xe_token d)) (x_esdt a)) as Ek.
      { apply Forall2_map_eq. eapply Forall2_impl; [exact E2|]. by intros d kv (? & _). }
      assert (Forall (fun kv => quotable (fst kv) /\ wj (snd kv)) kvs) as Ew.
      { eapply Forall2_Forall_r; [exact E2|]. apply Forall_forall. intros d Hd kv (-> & Hw & _).
        split; [|done]. by destruct (Hg d Hd) as [[_ ?] _]. }
      rewrite (put_each_ok _ _ kvs []); [|done|cbn; rewrite Ek; apply Hp]. cbn [app sbind].
      destruct (plus_if_ok _ _ _ (x_more_esdt a) Hp Ek Ew) as [Pe Pw].
      assert (exists ds, Forall2 (fun kv d => fst kv <> str "+" /\ exists name,
          bytes_of_text (fst kv) = SOk name /\
          processCheckESDTData files keccak name (snd kv) = SOk d) kvs ds /\
          map p_check_esdt ds = map p_check_esdt (x_esdt a)) as (ds & D1 & D2).
      { destruct Hp as [_ Hp]. clear -Hg Hp E2.
        induction E2 as [|d kv l kvs (H1 & H3 & d' & H4 & H5) _ IH].
        - exists []. by split; [constructor|].
        - destruct IH as (ds & D1 & D2).
          + intros x Hx. apply Hg. by constructor.
          + intros Hin. apply Hp. cbn [map]. by constructor.
          + exists (d' :: ds). split; [|cbn [map]; by rewrite H5, D2]. constructor; [|done].
            rewrite H1. split.
            * intros Hs. apply Hp. cbn [map]. rewrite Hs. constructor.
            * exists (xe_token d). split; [|done]. destruct (Hg d) as [[? _] _]; [constructor|done]. }
      exists (field "esdt" (plus_if (x_more_esdt a) kvs)), ds. split_and!; [done| |done|].
      * rewrite <- (app_nil_r (field _ _)). apply okf_must; [done|apply okf_nil].
      * intros acc H1 H2 H3. rewrite <- (app_nil_r (field _ _)).
        erewrite over_must; [reflexivity|]. x_go. rewrite Pe. cbn [IsStar as_map sbind].
        rewrite over_app, (check_esdt_run _ _ _ D1). cbn [sbind]. destruct acc. x_acc. cbn in H1, H2, H3.
        subst. destruct (x_more_esdt a); reflexivity.
Qed.

Definition storage_done (a acc : check_account) : check_account :=
  set_x_storage (x_storage a)
    (set_x_ignore_storage (x_ignore_storage a) (set_x_more_storage (x_more_storage a) acc)).
Lemma check_storage_segment a : good_check_account0 files keccak a ->
  exists fe, check_storage_fields a = SOk fe /\ okf ["storage"]%string fe /\
    forall acc, x_storage acc = [] -> x_more_storage acc = false -> x_ignore_storage acc = false ->
      over (check_account_field files keccak) fe acc = SOk (storage_done a acc).
Proof.
  intros (_ & _ & _ & _ & (Hg & Hp & Hi) & _). unfold check_storage_fields, storage_done.
  destruct (x_ignore_storage a) eqn:Ei.
  - destruct (Hi eq_refl) as [-> ->]. eexists. split_and!; [reflexivity| |].
    + rewrite <- (app_nil_r (field _ _)). apply okf_must; [constructor; by apply plain_quotable|apply okf_nil].
    + intros acc H1 H2 H3. rewrite <- (app_nil_r (field _ _)).
      erewrite over_must; [reflexivity|]. x_go.
      change (IsStar (stringToOJ (str "*"))) with true. cbv beta iota. destruct acc.
      cbn in *. by subst.
  - rewrite Forall_forall in Hg.
    destruct (each_rel (fun kv : jbytes * cbytes =>
        sbind (checkBytesToOJ (snd kv)) (fun v => SOk (bytesFromStringToString (fst kv), v)))
      (fun x kv => fst kv = jb_orig (fst x) /\ wj (snd kv) /\ bytes_of_text (fst kv) = SOk (fst x) /\
         quotable (fst kv) /\ parseCheckBytes (snd kv) = SOk (snd x)) (x_storage a)) as (kvs & E1 & E2).
    { intros [k c] Hd. destruct (Hg _ Hd) as [Hk Hc]. cbn [fst snd] in *.
      destruct (cbytes_back _ Hc) as (H1 & H2 & H3). rewrite H1. cbn [sbind].
      rewrite bytes_text by done. eexists. split; [reflexivity|]. cbn [fst snd].
      destruct Hk. split_and!; done. }
    assert (map fst kvs = map (fun kv => jb_orig (fst kv)) (x_storage a)) as Ek.
    { apply Forall2_map_eq. eapply Forall2_impl; [exact E2|]. by intros d kv (? & _). }
    assert (Forall (fun kv => quotable (fst kv) /\ wj (snd kv)) kvs) as Ew.
    { eapply Forall2_Forall_r; [exact E2|]. apply Forall_forall. by intros d _ kv (_ & ? & _ & ? & _). }
    rewrite (put_each_ok _ _ kvs []); [|done|cbn; rewrite Ek; apply Hp]. cbn [app sbind].
    destruct (plus_if_ok _ _ _ (x_more_storage a) Hp Ek Ew) as [Pe Pw].
    assert (Forall2 (fun kv d => fst kv <> str "+" /\ bytes_of_text (fst kv) = SOk (fst d) /\
             parseCheckBytes (snd kv) = SOk (snd d)) kvs (x_storage a)) as D1.
    { destruct Hp as [_ Hp]. clear -Hp E2.
      induction E2 as [|d kv l kvs (H1 & H2 & H3 & H4 & H5) _ IH]; [constructor|]. constructor.
      - split_and!; try done. rewrite H1. intros Hs. apply Hp. cbn [map]. rewrite Hs. constructor.
      - apply IH. intros Hin. apply Hp. cbn [map]. by constructor. }
    eexists. split_and!; [reflexivity| |].
    + rewrite <- (app_nil_r (field _ _)). apply okf_must; [done|apply okf_nil].
    + intros acc H1 H2 H3. rewrite <- (app_nil_r (field _ _)).
      erewrite over_must; [reflexivity|]. x_go. rewrite Pe. cbn [IsStar as_map sbind].
      rewrite over_app, (check_storage_run _ _ _ D1). cbn [sbind]. destruct acc. x_acc. cbn in H1, H2, H3.
      subst. destruct (x_more_storage a); reflexivity.
Qed.

Lemma spec_true b : negb b = true -> b = false.
Proof. by destruct b. Qed.
Lemma over_part {A} (F : bytes -> json -> A -> sres A) l rest acc acc' :
  over F l acc = SOk acc' -> over F (l ++ rest) acc = over F rest acc'.
Proof. intros H. by rewrite over_app, H. Qed.

Lemma check_account_back a : good_check_account0 files keccak a -> kept_check_account a ->
  exists j a', checkAccountToOJ a = SOk j /\ wj j /\
    processCheckAccount files keccak j = SOk a' /\
    p_check_account (set_x_address (x_address a) a') = p_check_account a.
Proof.
  intros Hg Hk. destruct (check_esdt_segment a Hg Hk) as (fe & l' & E1 & E2 & E3 & E4).
  destruct (check_storage_segment a Hg) as (fs & S1 & S2 & S3).
  destruct Hg as (G1 & G2 & G3 & G4 & _ & G6 & G7 & G8 & _).
  unfold checkAccountToOJ. rewrite E1, S1. cbn [sbind].
  rewrite (cbytes_if _ _ _ (fun H => cbytes_read _ G4 (spec_true _ H))). cbn [sbind].
  rewrite (cbytes_if _ _ _ (fun H => cbytes_read _ G6 (spec_true _ H))). cbn [sbind].
  rewrite (cbytes_if _ _ _ (fun H => cbytes_read _ G7 (spec_true _ H))). cbn [sbind].
  rewrite (cbytes_if _ _ _ (fun H => cbytes_read _ G8 (spec_true _ H))). cbn [sbind].
  assert (forall c, good_cbytes c -> negb (cb_unspec c) = true ->
    parseCheckBytes (cb_json c) = SOk c /\ wj (cb_json c)) as Hc.
  { intros c Gc Hu. apply (cbytes_back c). apply cbytes_read; [done|by apply spec_true]. }
  eexists _, _. split_and!; [reflexivity|..].
  - eapply (okf_wj ["comment"; "nonce"; "balance"; "esdt"; "username"; "storage";
      "code"; "owner"; "asyncCallData"]%string); [by vm_compute|]. right_nested.
    cbn [app]. apply okf_if; [intros _; by constructor|].
    apply okf_if; [intros Hu; apply cuint_back, cuint_read; [done|by apply spec_true]|].
    apply okf_if; [intros Hu; eapply cbig_back; [done|by apply spec_true]|].
    apply (okf_app ["esdt"]%string); [done|]. apply okf_if; [by apply Hc|].
    apply (okf_app ["storage"]%string); [done|]. repeat (apply okf_if; [by apply Hc|]). apply okf_nil.
  - unfold processCheckAccount. cbn [as_map sbind]. right_nested. unfold check_account_start.
    seg set_x_comment x_comment (x_comment a) with (x_acc) via (x_go; done).
    seg set_x_nonce x_nonce (x_nonce a) with (x_acc) via
      (x_go; destruct (cuint_back _ (cuint_read _ G2 (spec_true _ Hb'))) as [N _]; by rewrite N).
    seg set_x_balance x_balance (x_balance a) with (x_acc) via
      (x_go; destruct (cbig_back _ _ G3 (spec_true _ Hb')) as [N _]; by rewrite N).
    match goal with |- over ?F (fe ++ ?r) ?acc = _ =>
      rewrite (over_part F fe r acc _ (E4 acc eq_refl eq_refl eq_refl)) end. unfold esdt_done. x_acc.
    seg set_x_username x_username (x_username a) with (x_acc) via
      (x_go; destruct (Hc _ G4 Hb') as [N _]; by rewrite N).
    match goal with |- over ?F (fs ++ ?r) ?acc = _ =>
      rewrite (over_part F fs r acc _ (S3 acc eq_refl eq_refl eq_refl)) end. unfold storage_done. x_acc.
    seg set_x_code x_code (x_code a) with (x_acc) via
      (x_go; destruct (Hc _ G6 Hb') as [N _]; by rewrite N).
    seg set_x_owner x_owner (x_owner a) with (x_acc) via
      (x_go; destruct (Hc _ G7 Hb') as [N _]; by rewrite N).
    seg set_x_async x_async (x_async a) with (x_acc) via
      (x_go; destruct (Hc _ G8 Hb') as [N _]; by rewrite N).
    reflexivity.
  - unfold p_check_account. x_acc. rewrite drop_text, E3, spec_cuint, !spec_cbytes by done.
    by rewrite (spec_cbig _ _ G3).
Qed.

Lemma check_accounts_run kvs xs' : forall more l,
  Forall2 (fun kv a => fst kv <> str "+" /\ exists a0, processCheckAccount files keccak (snd kv) = SOk a0 /\
             exists x, parseAccountAddress (fst kv) = SOk x /\ a = set_x_address x a0) kvs xs' ->
  over (check_accounts_entry files keccak) kvs (mkCheckAccounts l more) = SOk (mkCheckAccounts (l ++ xs') more).
Proof.
  intros more l H. revert l. induction H as [|[k v] d kvs ds (Hk & a0 & H1 & x & H2 & ->) _ IH]; intros l.
  - cbn [over]. by rewrite app_nil_r.
  - cbn [over fst snd] in *. unfold check_accounts_entry at 1. unfold key_is.
    rewrite bool_decide_eq_false_2 by done. rewrite H1. cbn [sbind]. rewrite H2. cbn [sbind].
    cbn [xs_accounts xs_more]. rewrite IH. by rewrite <- app_assoc.
Qed.
Lemma check_accounts_back xs : good_check_accounts files keccak xs ->
  Forall kept_check_account (xs_accounts xs) ->
  exists j xs', checkAccountsToOJ (Some xs) = SOk j /\ wj j /\
    processCheckAccountMap files keccak j = SOk xs' /\ p_accounts xs' = p_accounts xs.
Proof.
  intros [Hg Hp] Hk. rewrite Forall_forall in Hg, Hk. cbn [checkAccountsToOJ].
  destruct (each_rel (fun a => sbind (checkAccountToOJ a) (fun v =>
               SOk (bytesFromStringToString (x_address a), v)))
    (fun x kv => fst kv = jb_orig (x_address x) /\ wj (snd kv) /\ quotable (fst kv) /\
       parseAccountAddress (fst kv) = SOk (x_address x) /\
       exists a', processCheckAccount files keccak (snd kv) = SOk a' /\
         p_check_account (set_x_address (x_address x) a') = p_check_account x) (xs_accounts xs)) as (kvs & E1 & E2).
  { intros a Ha. destruct (Hg _ Ha) as [H1 H2].
    destruct (check_account_back a H2 (Hk a Ha)) as (j & a' & J1 & J2 & J3 & J4). rewrite J1. cbn [sbind].
    rewrite bytes_text by apply (address_bytes _ H1). eexists. split; [reflexivity|]. cbn [fst snd].
    destruct H1. split_and!; eauto. }
  assert (map fst kvs = map (fun a => jb_orig (x_address a)) (xs_accounts xs)) as Ek.
  { apply Forall2_map_eq. eapply Forall2_impl; [exact E2|]. by intros d kv (? & _). }
  assert (Forall (fun kv => quotable (fst kv) /\ wj (snd kv)) kvs) as Ew.
  { eapply Forall2_Forall_r; [exact E2|]. apply Forall_forall. by intros d _ kv (_ & ? & ? & _). }
  rewrite (put_each_ok _ _ kvs []); [|done|cbn; rewrite Ek; apply Hp]. cbn [app sbind].
  destruct (plus_if_ok _ _ _ (xs_more xs) Hp Ek Ew) as [Pe Pw].
  assert (exists ds, Forall2 (fun kv a => fst kv <> str "+" /\ exists a0,
      processCheckAccount files keccak (snd kv) = SOk a0 /\
      exists x, parseAccountAddress (fst kv) = SOk x /\ a = set_x_address x a0) kvs ds /\
      map p_check_account ds = map p_check_account (xs_accounts xs)) as (ds & D1 & D2).
  { destruct Hp as [_ Hp]. clear -Hp E2.
    induction E2 as [|d kv l kvs (H1 & H2 & H3 & H4 & d' & H5 & H6) _ IH].
    - exists []. by split; [constructor|].
    - destruct IH as (ds & D1 & D2); [intros Hin; apply Hp; cbn [map]; by constructor|].
      exists (set_x_address (x_address d) d' :: ds). split; [|cbn [map]; by rewrite H6, D2].
      constructor; [|done]. split; [|eauto 6].
      rewrite H1. intros Hs. apply Hp. cbn [map]. rewrite Hs. constructor. }
  eexists _, _. split_and!; [reflexivity|done| |].
  - rewrite Pe. unfold processCheckAccountMap. cbn [as_map sbind].
    rewrite over_app, (check_accounts_run _ _ _ _ D1). cbn [sbind app].
    instantiate (1 := mkCheckAccounts ds (xs_more xs)). by destruct (xs_more xs).
  - unfold p_accounts. cbn [xs_accounts xs_more]. by rewrite D2.
Qed.

(** * Blocks, mocks, transactions and results *)

Lemma list_back {A} (w : A -> json) (f : json -> sres A) l :
  Forall (fun x => f (w x) = SOk x /\ wj (w x)) l ->
  sbind (as_list (JList (map w l))) (each f) = SOk l /\ wj (JList (map w l)).
Proof.
  intros H. cbn [as_list sbind]. split.
  - induction H as [|x l [Hx _] _ IH]; [done|]. cbn [map each]. by rewrite Hx, IH.
  - constructor. rewrite Forall_map. eapply Forall_impl; [exact H|]. by intros x [].
Qed.

Ltac block_acc := cbn [set_bi_timestamp set_bi_nonce set_bi_round set_bi_epoch set_bi_seed bi_timestamp
  bi_nonce bi_round bi_epoch bi_seed].
Ltac block_go := unfold block_field; keys; block_acc.
Lemma block_back b : good_block files keccak b ->
  wj (blockInfoToOJ b) /\
  exists b', processBlockInfo files keccak (blockInfoToOJ b) = SOk b' /\ p_block b' = p_block b.
Proof.
  intros (G1 & G2 & G3 & G4 & G5). destruct (uint_back _ G1) as [N1 W1].
  destruct (uint_back _ G2) as [N2 W2]. destruct (uint_back _ G3) as [N3 W3].
  destruct (uint_back _ G4) as [N4 W4].
  set (seed := match bi_seed b with
        | Some s => field "blockRandomSeed" (bytesFromTreeToOJ s)
        | None => []
        end).
  assert (okf ["blockRandomSeed"]%string seed /\ forall acc, bi_seed acc = None ->
    over (block_field files keccak) seed acc = SOk (set_bi_seed (bi_seed b) acc)) as [S1 S2].
  { subst seed. destruct (bi_seed b) as [t|].
    - destruct (G5 t eq_refl) as [Gt Ht]. destruct (tree_back _ Gt) as [N5 W5].
      rewrite <- (app_nil_r (field _ _)). split; [apply okf_must; [done|apply okf_nil]|].
      intros acc _. erewrite over_must; [reflexivity|]. block_go. rewrite N5. cbn [sbind]. by rewrite Ht.
    - split; [apply okf_skip, okf_nil|]. intros acc H. destruct acc. cbn in *. by subst. }
  unfold blockInfoToOJ. fold seed. split.
  - eapply (okf_wj ["blockTimestamp"; "blockNonce"; "blockRound"; "blockEpoch"; "blockRandomSeed"]%string);
      [by vm_compute|]. repeat (apply okf_if; [by intros _|]). exact S1.
  - eexists. split.
    + unfold processBlockInfo. cbn [as_map sbind]. right_nested.
      seg set_bi_timestamp bi_timestamp (bi_timestamp b) with (block_acc) via (block_go; by rewrite N1).
      seg set_bi_nonce bi_nonce (bi_nonce b) with (block_acc) via (block_go; by rewrite N2).
      seg set_bi_round bi_round (bi_round b) with (block_acc) via (block_go; by rewrite N3).
      seg set_bi_epoch bi_epoch (bi_epoch b) with (block_acc) via (block_go; by rewrite N4).
      match goal with |- over ?F (seed ++ ?r) ?acc = _ =>
        rewrite (over_part F seed r acc _ (S2 acc eq_refl)) end. reflexivity.
    + unfold p_block. block_acc. unfold juint_zero. f_equal; by apply drop_uint.
Qed.

Ltac mock_acc := cbn [set_na_creator set_na_nonce set_na_new na_creator na_nonce na_new].
Ltac mock_go := unfold mock_field; keys; mock_acc.
Lemma mock_back n : good_mock files keccak n -> kept_mock n ->
  wj (newAddressMockToOJ n) /\ processNewAddressMock files keccak (newAddressMockToOJ n) = SOk n.
Proof.
  intros (G1 & G2 & G3) [K1 K2]. destruct (address_back _ (address_read _ G1 K1)) as [N1 W1].
  destruct (uint_back _ G2) as [N2 W2]. destruct (address_back _ (address_read _ G3 K2)) as [N3 W3].
  unfold newAddressMockToOJ. split.
  - eapply (okf_wj ["creatorAddress"; "creatorNonce"; "newAddress"]%string); [by vm_compute|].
    right_nested. repeat (apply okf_must; [done|]). apply okf_nil.
  - unfold processNewAddressMock. cbn [as_map sbind]. right_nested.
    must set_na_creator (na_creator n) with (mock_acc) via (mock_go; by rewrite N1).
    must set_na_nonce (na_nonce n) with (mock_acc) via (mock_go; by rewrite N2).
    must set_na_new (na_new n) with (mock_acc) via (mock_go; by rewrite N3).
    by destruct n.
Qed.

Ltac etx_acc := cbn [set_tx_token set_tx_tnonce set_tx_tvalue tx_token tx_tnonce tx_tvalue].
Ltac etx_go := unfold esdt_tx_field; keys; etx_acc.
Lemma esdt_tx_back e : good_esdt_tx files keccak e -> jz_orig (tx_tvalue e) <> [] ->
  wj (esdtTxDataToOJ e) /\
  exists e', processTxESDT files keccak (esdtTxDataToOJ e) = SOk e' /\ p_esdt_tx e' = p_esdt_tx e.
Proof.
  intros (G1 & G2 & G3) K. apply big0_back in G3; [|auto]. destruct (bytes_back _ G1) as [N1 W1].
  destruct (uint_back _ G2) as [N2 W2]. destruct (big_back _ G3) as [N3 W3].
  unfold esdtTxDataToOJ. split.
  - eapply (okf_wj ["tokenIdentifier"; "nonce"; "value"]%string); [by vm_compute|].
    right_nested. repeat (apply okf_if; [by intros _|]). apply okf_nil.
  - eexists. split.
    + unfold processTxESDT. cbn [as_map sbind]. right_nested.
      seg set_tx_token tx_token (tx_token e) with (etx_acc) via (etx_go; by rewrite N1).
      seg set_tx_tnonce tx_tnonce (tx_tnonce e) with (etx_acc) via (etx_go; by rewrite N2).
      seg set_tx_tvalue tx_tvalue (tx_tvalue e) with (etx_acc) via (etx_go; by rewrite N3).
      reflexivity.
    + unfold p_esdt_tx. etx_acc. f_equal; [by apply drop_bytes|by apply drop_uint|].
      by destruct (jz_orig (tx_tvalue e)).
Qed.

Ltac t_acc := cbn [set_t_nonce set_t_value set_t_esdt set_t_from set_t_to set_t_function set_t_code
  set_t_args set_t_gasprice set_t_gaslimit t_type t_nonce t_value t_esdt t_from t_to t_function t_code
  t_args t_gasprice t_gaslimit].
Ltac t_go := unfold tx_field; keys; t_acc.

Lemma tx_back ty t : good_tx files keccak ty t -> kept_tx t ->
  wj (transactionToScenarioOJ t) /\
  exists t', processTx files keccak ty (transactionToScenarioOJ t) = SOk t' /\ p_tx t' = p_tx t.
Proof.
  intros (Ty & G2 & G3 & G4 & G5 & G6 & G7 & G8 & G9 & G10 & D1 & D2 & D3 & D4 & D5 & D6 & D7)
    (K1 & K2 & K3 & K4). rewrite Ty in K1, K2, K3.
  assert (HasSender ty = true -> address_field files keccak (bytesFromStringToOJ (t_from t)) = SOk (t_from t)
    /\ wj (bytesFromStringToOJ (t_from t))) as N1.
  { intros H. apply address_back, address_read; [done|]. by apply K1; destruct ty. }
  assert (HasReceiver ty = true -> address_field files keccak (bytesFromStringToOJ (t_to t)) = SOk (t_to t)
    /\ wj (bytesFromStringToOJ (t_to t))) as N2.
  { intros H. apply address_back, address_read; [done|]. by apply K2; destruct ty. }
  destruct (big_back _ G2) as [N3 W3].
  set (fe := match t_esdt t with Some e => field "esdt" (esdtTxDataToOJ e) | None => [] end).
  assert (okf ["esdt"]%string fe /\ exists o, p_esdt_tx <$> o = p_esdt_tx <$> t_esdt t /\
    forall acc, t_esdt acc = None ->
    over (tx_field files keccak ty) fe acc = SOk (set_t_esdt o acc)) as (F1 & o & F2 & F3).
  { subst fe. destruct (t_esdt t) as [e|].
    - destruct (G3 e eq_refl) as [Ge He]. destruct (esdt_tx_back e Ge (K4 e eq_refl)) as (W & e' & E1 & E2).
      rewrite <- (app_nil_r (field _ _)). split; [apply okf_must; [done|apply okf_nil]|].
      exists (Some e'). split; [cbn; by rewrite E2|]. intros acc _.
      erewrite over_must; [reflexivity|]. t_go. rewrite He, E1. reflexivity.
    - split; [apply okf_skip, okf_nil|]. exists None. split; [done|]. intros acc H.
      destruct acc. cbn in *. by subst. }
  destruct (bytes_back _ G7) as [N7 W7].
  destruct (list_back bytesFromTreeToOJ (processSubTreeAsByteArray) (t_args t)) as [N8 W8].
  { eapply Forall_impl; [exact G8|]. intros x Hx. by apply tree_back. }
  destruct (uint_back _ G9) as [N9 W9]. destruct (uint_back _ G10) as [N10 W10].
  unfold transactionToScenarioOJ. fold fe. rewrite Ty. split.
  - eapply (okf_wj ["from"; "to"; "value"; "esdt"; "function"; "contractCode"; "arguments"; "gasLimit";
      "gasPrice"]%string); [by vm_compute|]. right_nested.
    apply okf_if; [apply N1|]. apply okf_if; [apply N2|]. apply okf_if; [done|].
    apply (okf_app ["esdt"]%string); [done|]. apply okf_if; [intros _; by constructor|].
    repeat (apply okf_if; [by intros _|]). apply okf_nil.
  - eexists. split.
    + unfold processTx. cbn [as_map sbind]. right_nested. unfold tx_start.
      seg set_t_from t_from (t_from t) with (t_acc) via
        (t_go; rewrite Hb'; destruct (N1 Hb') as [N _]; by rewrite N).
      seg set_t_to t_to (t_to t) with (t_acc) via
        (t_go; destruct (N2 Hb') as [N _]; unfold address_field in N;
         apply sbind_ok in N as (z & Z1 & Z2); rewrite Z1; cbn [sbind];
         rewrite bool_decide_eq_false_2 by (by destruct ty); by rewrite Z2).
      seg set_t_value t_value (t_value t) with (t_acc) via (t_go; rewrite Hb'; by rewrite N3).
      match goal with |- over ?F (fe ++ ?r) ?acc = _ =>
        rewrite (over_part F fe r acc _ (F3 acc eq_refl)) end. t_acc.
      seg set_t_function t_function (t_function t) with (t_acc) via
        (t_go; cbn [parseString stringToOJ sbind]; by rewrite Hb').
      seg set_t_code t_code (t_code t) with (t_acc) via
        (t_go; rewrite N7; cbn [sbind]; by rewrite Hb').
      seg set_t_args t_args (t_args t) with (t_acc) via
        (t_go; unfold parseSubTreeList; rewrite N8; cbn [sbind]; by destruct ty).
      seg set_t_gaslimit t_gaslimit (t_gaslimit t) with (t_acc) via (t_go; rewrite Hb'; by rewrite N10).
      seg set_t_gasprice t_gasprice (t_gasprice t) with (t_acc) via (t_go; rewrite Hb'; by rewrite N9).
      reflexivity.
    + unfold p_tx. t_acc. rewrite F2, Ty.
      assert ((if HasSender ty then t_from t else jbytes_zero) = t_from t) as ->.
      { destruct (HasSender ty); [done|]. by rewrite D1. }
      assert ((if HasReceiver ty then t_to t else jbytes_zero) = t_to t) as ->.
      { destruct (HasReceiver ty); [done|]. by rewrite D2. }
      assert ((if HasValue ty then t_value t else JSONBigIntZero) = t_value t) as ->.
      { destruct (HasValue ty); [done|]. by rewrite D3. }
      assert ((if HasFunction ty then t_function t else []) = t_function t) as ->.
      { destruct (HasFunction ty); [done|]. by rewrite D4. }
      assert (p_bytes (if bool_decide (ty = ScDeploy) then t_code t else jbytes_zero) = p_bytes (t_code t)) as ->.
      { case_bool_decide; [done|]. unfold p_bytes. by rewrite D5. }
      assert ((if HasFunction ty || bool_decide (ty = ScDeploy) then t_args t else []) = t_args t) as ->.
      { destruct ty; try done; cbn; [by rewrite D6|by rewrite K3]. }
      assert ((if HasGas ty then t_gaslimit t else juint_zero) = t_gaslimit t) as ->.
      { destruct (HasGas ty); [done|]. by destruct D7. }
      assert ((if HasGas ty then t_gasprice t else juint_zero) = t_gasprice t) as ->.
      { destruct (HasGas ty); [done|]. by destruct D7. }
      reflexivity.
Qed.

(** A list of conditions. *)
Lemma cbytes_list l : Forall read_cbytes l ->
  each checkBytesToOJ l = SOk (map cb_json l) /\
  parseCheckBytesList files keccak (JList (map cb_json l)) = SOk l /\ wj (JList (map cb_json l)).
Proof.
  intros H. split; [|apply list_back; eapply Forall_impl; [exact H|]; intros c Hc; apply (cbytes_back c Hc)].
  induction H as [|c l Hc _ IH]; [done|]. cbn [each map]. destruct (cbytes_back c Hc) as [-> _].
  cbn [sbind]. by rewrite IH.
Qed.
Lemma told_cbytes0 c : read_cbytes0 files keccak c -> cb_orig c <> None -> read_cbytes c.
Proof. by intros [->|H]. Qed.

Ltac log_acc := cbn [set_lc_address set_lc_identifier set_lc_topics set_lc_data lc_address lc_identifier
  lc_topics lc_data].
Ltac log_go := unfold log_field; keys; log_acc.
Lemma log_back l : good_log files keccak l -> kept_log l ->
  exists j, logToOJ l = SOk j /\ wj j /\ processLog files keccak j = SOk l.
Proof.
  intros (G1 & G2 & G3 & G4) (K1 & K2 & K3).
  destruct (cbytes_back _ (told_cbytes0 _ G1 K1)) as (C1 & N1 & W1).
  destruct (cbytes_back _ (told_cbytes0 _ G2 K2)) as (C2 & N2 & W2).
  destruct (cbytes_back _ (told_cbytes0 _ G4 K3)) as (C4 & N4 & W4).
  destruct (cbytes_list _ G3) as (C3 & N3 & W3).
  unfold logToOJ. rewrite C1, C2, C3, C4. cbn [sbind]. eexists. split_and!; [reflexivity|..].
  - eapply (okf_wj ["address"; "identifier"; "topics"; "data"]%string); [by vm_compute|].
    right_nested. repeat (apply okf_must; [done|]). apply okf_nil.
  - unfold processLog. cbn [as_map sbind]. right_nested.
    must set_lc_address (lc_address l) with (log_acc) via (log_go; by rewrite N1).
    must set_lc_identifier (lc_identifier l) with (log_acc) via (log_go; by rewrite N2).
    must set_lc_topics (lc_topics l) with (log_acc) via (log_go; by rewrite N3).
    must set_lc_data (lc_data l) with (log_acc) via (log_go; by rewrite N4).
    by destruct l.
Qed.

Ltac r_acc := cbn [set_tr_out set_tr_status set_tr_message set_tr_gas set_tr_refund set_tr_logs_star
  set_tr_logs_unspec set_tr_log_hash set_tr_logs tr_out tr_status tr_message tr_gas tr_refund
  tr_logs_star tr_logs_unspec tr_log_hash tr_logs].
Ltac r_go := unfold result_field; keys; r_acc.

Definition logs_done (r acc : tx_result) : tx_result :=
  set_tr_logs_star (tr_logs_star r) (set_tr_logs_unspec (tr_logs_unspec r)
    (set_tr_log_hash (tr_log_hash r) (set_tr_logs (tr_logs r) acc))).
Lemma logs_segment r : good_result files keccak r -> Forall kept_log (tr_logs r) ->
  exists fl, logs_field r = SOk fl /\ okf ["logs"]%string fl /\
    forall acc, tr_logs_star acc = true -> tr_logs_unspec acc = true -> tr_log_hash acc = [] ->
      tr_logs acc = [] ->
      over (result_field files keccak) fl acc = SOk (logs_done r acc).
Proof.
  intros (_ & _ & _ & _ & _ & Gq & Gl & L1 & L2 & L3 & L4) K. unfold logs_field, logs_done.
  destruct (tr_logs_unspec r) eqn:Eu.
  - rewrite (L1 eq_refl) in *. rewrite (L2 eq_refl), (L3 (or_introl eq_refl)).
    exists []. split_and!; [done|apply okf_skip, okf_nil|]. intros acc H1 H2 H3 H4. destruct acc.
    cbn in *. by subst.
  - destruct (tr_logs_star r) eqn:Es.
    + rewrite (L2 eq_refl), (L3 (or_introl eq_refl)). eexists. split_and!; [reflexivity|..].
      * rewrite <- (app_nil_r (field _ _)). apply okf_must; [constructor; by apply plain_quotable|apply okf_nil].
      * intros acc H1 H2 H3 H4. rewrite <- (app_nil_r (field _ _)).
        erewrite over_must; [reflexivity|]. r_go.
        change (IsStar (stringToOJ (str "*"))) with true. cbv beta iota. destruct acc. cbn in *. by subst.
    + destruct (given (tr_log_hash r)) eqn:Eg.
      * rewrite (L3 (or_intror (given_true _ Eg))). eexists. split_and!; [reflexivity|..].
        -- rewrite <- (app_nil_r (field _ _)). apply okf_must; [by constructor|apply okf_nil].
        -- intros acc H1 H2 H3 H4. rewrite <- (app_nil_r (field _ _)).
           erewrite over_must; [reflexivity|]. r_go. cbn [IsStar stringToOJ]. unfold key_is.
           rewrite bool_decide_eq_false_2 by done. cbn [parseString]. destruct acc. cbn in *. by subst.
      * assert (tr_log_hash r = []) as -> by by destruct (tr_log_hash r).
        destruct (each_back logToOJ (processLog files keccak) wj eq (tr_logs r)) as (js & ys & J1 & J2 & J3 & J4).
        { intros l Hl. rewrite Forall_forall in Gl, K.
          destruct (log_back l (Gl l Hl) (K l Hl)) as (j & ? & ? & ?). eauto 7. }
        assert (ys = tr_logs r) as ->.
        { clear -J4. induction J4 as [|x y l1 l2 -> _ IH]; [done|by rewrite IH]. }
        unfold logsToOJ. rewrite J1. cbn [sbind]. eexists. split_and!; [reflexivity|..].
        -- rewrite <- (app_nil_r (field _ _)). apply okf_must; [by constructor|apply okf_nil].
        -- intros acc H1 H2 H3 H4. rewrite <- (app_nil_r (field _ _)).
           erewrite over_must; [reflexivity|]. r_go. cbn [IsStar parseString]. unfold processLogList.
           cbn [as_list sbind]. rewrite J3. cbn [sbind]. destruct acc. cbn in *. by subst.
Qed.

Lemma result_back r : good_result files keccak r -> Forall kept_log (tr_logs r) ->
  exists j r', resultToOJ r = SOk j /\ wj j /\
    processTxExpectedResult files keccak j = SOk r' /\ p_result r' = p_result r.
Proof.
  intros Hg K. destruct (logs_segment r Hg K) as (fl & L1 & L2 & L3).
  destruct Hg as (G1 & G2 & G3 & G4 & G5 & _). destruct (cbytes_list _ G1) as (C1 & N1 & W1).
  unfold resultToOJ. rewrite C1, L1. cbn [sbind].
  rewrite (cbytes_if _ _ _ (fun H => cbytes_read _ G3 (spec_true _ H))). cbn [sbind].
  assert (negb (cb_unspec (tr_message r)) = true ->
    parseCheckBytes (cb_json (tr_message r)) = SOk (tr_message r) /\ wj (cb_json (tr_message r))) as Hc.
  { intros Hu. apply (cbytes_back (tr_message r)). apply cbytes_read; [done|by apply spec_true]. }
  eexists _, _. split_and!; [reflexivity|..].
  - eapply (okf_wj ["out"; "status"; "message"; "logs"; "gas"; "refund"]%string); [by vm_compute|].
    right_nested. apply okf_must; [done|].
    apply okf_if; [intros Hu; eapply cbig_back; [done|by apply spec_true]|].
    apply okf_if; [apply Hc|]. apply (okf_app ["logs"]%string); [done|].
    apply okf_if; [intros Hu; apply cuint_back, cuint_read; [done|by apply spec_true]|].
    apply okf_if; [intros Hu; eapply cbig_back; [done|by apply spec_true]|]. apply okf_nil.
  - unfold processTxExpectedResult. cbn [as_map sbind]. right_nested. unfold result_start.
    must set_tr_out (tr_out r) with (r_acc) via (r_go; by rewrite N1).
    seg set_tr_status tr_status (tr_status r) with (r_acc) via
      (r_go; destruct (cbig_back _ _ G2 (spec_true _ Hb')) as [N _]; by rewrite N).
    seg set_tr_message tr_message (tr_message r) with (r_acc) via
      (r_go; destruct (Hc Hb') as [N _]; by rewrite N).
    match goal with |- over ?F (fl ++ ?rr) ?acc = _ =>
      rewrite (over_part F fl rr acc _ (L3 acc eq_refl eq_refl eq_refl eq_refl)) end.
    unfold logs_done. r_acc.
    seg set_tr_gas tr_gas (tr_gas r) with (r_acc) via
      (r_go; destruct (cuint_back _ (cuint_read _ G4 (spec_true _ Hb'))) as [N _]; by rewrite N).
    seg set_tr_refund tr_refund (tr_refund r) with (r_acc) via
      (r_go; destruct (cbig_back _ _ G5 (spec_true _ Hb')) as [N _]; by rewrite N).
    reflexivity.
  - unfold p_result. r_acc. rewrite spec_cuint, spec_cbytes by done.
    by rewrite (spec_cbig _ _ G2), (spec_cbig _ _ G5).
Qed.

(** * Steps *)

Lemma other_fields ks l : okf ks l -> bool_decide (str "step" ∈ map str ks) = false -> forall n,
  over step_type_field l n = SOk n.
Proof.
  intros [H _] Hn%bool_decide_eq_false n.
  assert (str "step" ∉ map fst l) as Hl.
  { intros Hin. apply Hn. eapply elem_of_submseteq; [exact Hin|by apply sublist_submseteq]. }
  clear H Hn. induction l as [|[k v] l IH]; cbn [over]; [done|]. cbn [map fst] in Hl.
  unfold step_type_field at 1, key_is. rewrite bool_decide_eq_false_2.
  - cbn [sbind]. apply IH. intros Hin. apply Hl. by constructor.
  - intros ->. apply Hl. constructor.
Qed.
Lemma step_type ks n l : okf ks l -> bool_decide (str "step" ∈ map str ks) = false ->
  over step_type_field (field "step" (stringToOJ (str n)) ++ l) [] = SOk (str n).
Proof.
  intros H Hn. cbn [field app over]. unfold step_type_field at 1. keys.
  cbn [parseString stringToOJ sbind]. by eapply other_fields.
Qed.
Lemma name_quotable st : quotable (str (StepTypeName st)).
Proof. apply plain_quotable. destruct st as [| | | |? ? t ?]; try done. cbn. by destruct (t_type t). Qed.

Lemma tx_type_step ty m n : over step_type_field m [] = SOk (str n) ->
  n = match ty with
      | ScCall => "scCall" | ScDeploy => "scDeploy" | ScQuery => "scQuery"
      | TxTransfer => "transfer" | ValidatorReward => "validatorReward"
      end%string ->
  processScenarioStep files keccak (JMap m) = parseTxStep files keccak ty m.
Proof.
  intros H ->. unfold processScenarioStep. cbn [as_map sbind]. rewrite H. cbn [sbind].
  destruct ty; keys; reflexivity.
Qed.

Lemma step_back s : good_step files keccak s -> kept_step s ->
  exists j s', stepToOJ s = SOk j /\ wj j /\
    processScenarioStep files keccak j = SOk s' /\ p_step s' = p_step s.
Proof.
  destruct s as [c path|c accounts previous current hashes mocks|c xs|c|ident c t expected];
    cbn [good_step kept_step].
  - intros [G1 G2] _. unfold stepToOJ. cbn [StepTypeName].
    assert (okf ["comment"; "path"]%string (field_if (given c) "comment" (stringToOJ c) ++
      field "path" (stringToOJ path))) as Ho.
    { right_nested. apply okf_if; [intros _; by constructor|]. apply okf_must; [by constructor|apply okf_nil]. }
    eexists _, _. split_and!; [reflexivity|..].
    + eapply (okf_wj ("step" :: _)%string); [|apply okf_must; [|exact Ho]]; [by vm_compute|].
      constructor. by apply plain_quotable.
    + unfold processScenarioStep. cbn [as_map sbind]. rewrite (step_type _ _ _ Ho) by by vm_compute.
      cbn [sbind]. keys. rewrite (over_must _ _ _ _ _ ([], [])) by (unfold external_field; by keys).
      right_nested.
      match goal with |- context [over ?F (field_if ?b ?k ?v ++ ?r) ?acc] =>
        rewrite (over_step F b k v r acc (fun bb => ((if bb then c else []), []))) end;
        [|intros _; unfold external_field; by keys|done].
      rewrite (over_must _ _ _ _ _ ((if given c then c else []), path)) by (unfold external_field; by keys).
      reflexivity.
    + cbn [fst snd]. by rewrite drop_text.
  - intros (G1 & G2 & G3 & G4 & G5 & G6) [K1 K2]. unfold stepToOJ. cbn [StepTypeName].
    destruct (accounts_back _ G2 K1) as (Wa & accounts' & A1 & A2).
    assert (forall o k, (forall b, o = Some b -> good_block files keccak b) ->
      exists b, block_field_of k o = field_if b k (match o with Some x => blockInfoToOJ x | None => JStr [] end) /\
        (b = true -> wj (match o with Some x => blockInfoToOJ x | None => JStr [] end)) /\
        exists o', (b = true -> exists x, o' = Some x /\ processBlockInfo files keccak
            (match o with Some x => blockInfoToOJ x | None => JStr [] end) = SOk x) /\
          (b = false -> o' = None) /\ p_block <$> o' = p_block <$> o) as Hblock.
    { intros o k Ho. destruct o as [b|].
      - destruct (block_back b (Ho b eq_refl)) as (W & b' & B1 & B2). exists true.
        split_and!; [done|done|]. exists (Some b'). split_and!; [eauto|done|]. cbn. by rewrite B2.
      - exists false. split_and!; [done|done|]. exists None. split_and!; done. }
    destruct (Hblock previous "previousBlockInfo"%string G3) as (bp & P1 & P2 & previous' & P3 & P4 & P5).
    destruct (Hblock current "currentBlockInfo"%string G4) as (bc & C1 & C2 & current' & C3 & C4 & C5).
    clear Hblock. rewrite P1, C1.
    destruct (list_back bytesFromStringToOJ (processStringAsByteArray files keccak) hashes) as [N5 W5].
    { eapply Forall_impl; [exact G5|]. intros x Hx. by apply bytes_back. }
    destruct (list_back newAddressMockToOJ (processNewAddressMock files keccak) mocks) as [N6 W6].
    { apply Forall_forall. intros x Hx. rewrite Forall_forall in G6, K2.
      by destruct (mock_back x (G6 x Hx) (K2 x Hx)). }
    match goal with |- context [SOk (JMap (field "step" _ ++ ?l))] =>
      assert (okf ["comment"; "accounts"; "newAddresses"; "previousBlockInfo"; "currentBlockInfo";
                   "blockHashes"]%string l) as Ho end.
    { right_nested. apply okf_if; [intros _; by constructor|]. apply okf_if; [by intros _|].
      apply okf_if; [by intros _|]. apply okf_if; [done|]. apply okf_if; [done|].
      apply okf_if; [by intros _|]. apply okf_nil. }
    eexists _, _. split_and!; [reflexivity|..].
    + eapply (okf_wj ("step" :: _)%string); [|apply okf_must; [|exact Ho]]; [by vm_compute|].
      constructor. by apply plain_quotable.
    + unfold processScenarioStep. cbn [as_map sbind]. rewrite (step_type _ _ _ Ho) by by vm_compute.
      cbn [sbind]. keys.
      match goal with |- context [over ?F (field ?k ?v ++ ?r) ?acc] => rewrite (over_must F k v r acc acc) end;
        [|unfold set_field; by keys].
      right_nested.
      match goal with |- context [over ?F (field_if ?b ?k ?v ++ ?r) ?acc] =>
        rewrite (over_step F b k v r acc (fun bb => ((if bb then c else [], []), (None, None), ([], [])))) end;
        [|intros _; unfold set_field; by keys|done].
      match goal with |- context [over ?F (field_if ?b ?k ?v ++ ?r) ((?x, _), _, _)] =>
        rewrite (over_step F b k v r _ (fun bb => ((x, if bb then accounts' else []), (None, None), ([], [])))) end;
        [|intros _; unfold set_field; keys; by rewrite A1|done].
      match goal with |- context [over ?F (field_if ?b ?k ?v ++ ?r) (?x, _, _)] =>
        rewrite (over_step F b k v r _ (fun bb => (x, (None, None), ([], if bb then mocks else [])))) end;
        [|intros _; unfold set_field, processNewAddressMocks; keys; by rewrite N6|done].
      match goal with |- context [over ?F (field_if ?b ?k ?v ++ ?r) (?x, _, ?y)] =>
        rewrite (over_step F b k v r _ (fun bb => (x, (if bb then previous' else None, None), y))) end;
        [|intros Hb; unfold set_field; keys; destruct (P3 Hb) as (z & -> & Z); by rewrite Z|done].
      match goal with |- context [over ?F (field_if ?b ?k ?v ++ ?r) (?x, (?p, _), ?y)] =>
        rewrite (over_step F b k v r _ (fun bb => (x, (p, if bb then current' else None), y))) end;
        [|intros Hb; unfold set_field; keys; destruct (C3 Hb) as (z & -> & Z); by rewrite Z|done].
      match goal with |- context [over ?F (field_if ?b ?k ?v ++ ?r) (?x, ?p, (_, ?y))] =>
        rewrite (over_step F b k v r _ (fun bb => (x, p, (if bb then hashes else [], y)))) end;
        [|intros Hb; unfold set_field, parseByteArrayList, blockHashesToOJ; keys; by rewrite N5|done].
      reflexivity.
    + cbn [p_step]. rewrite drop_text. f_equal.
      * destruct accounts; [done|exact A2].
      * destruct bp; [done|]. by rewrite P4 in P5.
      * destruct bc; [done|]. by rewrite C4 in C5.
      * by destruct hashes.
      * by destruct mocks.
  - intros [G1 G2] (x & -> & K). unfold stepToOJ. cbn [StepTypeName].
    destruct (check_accounts_back x (G2 x eq_refl) K) as (j & xs' & J1 & J2 & J3 & J4).
    rewrite J1. cbn [sbind].
    assert (okf ["comment"; "accounts"]%string (field_if (given c) "comment" (stringToOJ c) ++
      field "accounts" j)) as Ho.
    { right_nested. apply okf_if; [intros _; by constructor|]. apply okf_must; [done|apply okf_nil]. }
    eexists _, _. split_and!; [reflexivity|..].
    + eapply (okf_wj ("step" :: _)%string); [|apply okf_must; [|exact Ho]]; [by vm_compute|].
      constructor. by apply plain_quotable.
    + unfold processScenarioStep. cbn [as_map sbind]. rewrite (step_type _ _ _ Ho) by by vm_compute.
      cbn [sbind]. keys. rewrite (over_must _ _ _ _ _ ([], None)) by (unfold check_field; by keys).
      right_nested.
      match goal with |- context [over ?F (field_if ?b ?k ?v ++ ?r) ?acc] =>
        rewrite (over_step F b k v r acc (fun bb => ((if bb then c else []), None))) end;
        [|intros _; unfold check_field; by keys|done].
      rewrite (over_must _ _ _ _ _ ((if given c then c else []), Some xs')) by
        (unfold check_field; keys; by rewrite J3).
      reflexivity.
    + cbn [fst snd p_step fmap option_fmap option_map]. by rewrite drop_text, J4.
  - intros G1 _. unfold stepToOJ. cbn [StepTypeName].
    assert (okf ["comment"]%string (field_if (given c) "comment" (stringToOJ c))) as Ho.
    { rewrite <- (app_nil_r (field_if _ _ _)). apply okf_if; [intros _; by constructor|apply okf_nil]. }
    eexists _, _. split_and!; [reflexivity|..].
    + eapply (okf_wj ("step" :: _)%string); [|apply okf_must; [|exact Ho]]; [by vm_compute|].
      constructor. by apply plain_quotable.
    + unfold processScenarioStep. cbn [as_map sbind]. rewrite (step_type _ _ _ Ho) by by vm_compute.
      cbn [sbind]. keys. rewrite (over_must _ _ _ _ _ []) by (unfold dump_field; by keys).
      rewrite <- (app_nil_r (field_if _ _ _)).
      match goal with |- context [over ?F (field_if ?b ?k ?v ++ ?r) ?acc] =>
        rewrite (over_step F b k v r acc (fun bb => (if bb then c else []))) end;
        [|intros _; unfold dump_field; by keys|done].
      reflexivity.
    + by rewrite drop_text.
  - intros (G1 & G2 & G3 & G4) [K1 K2]. unfold stepToOJ.
    destruct (tx_back _ t G3 K1) as (Wt & t' & T1 & T2).
    assert (t_type t' = t_type t) as Tt. { by apply (f_equal t_type) in T2. }
    set (name := field "step" (stringToOJ (str (StepTypeName (TxStep ident c t expected))))).
    assert (exists fx, match expected with
      | Some r => if IsSmartContractTx (t_type t)
                  then sbind (resultToOJ r) (fun v => SOk (field "expect" v)) else SOk []
      | None => SOk [] end = SOk fx /\ okf ["expect"]%string fx /\ exists expected',
        p_result <$> expected' = p_result <$> expected /\
        forall i d, over (tx_step_field files keccak (t_type t)) fx ((i, d), (Some t', None)) =
          SOk ((i, d), (Some t', expected'))) as (fx & X1 & X2 & expected' & X3 & X4).
    { destruct expected as [r|].
      - destruct (G4 r eq_refl) as [Gr ->]. destruct (result_back r Gr (K2 r eq_refl)) as (j & r' & R1 & R2 & R3 & R4).
        rewrite R1. cbn [sbind]. eexists. split; [reflexivity|]. rewrite <- (app_nil_r (field _ _)).
        split; [apply okf_must; [done|apply okf_nil]|]. exists (Some r'). split; [cbn; by rewrite R4|].
        intros i d. erewrite over_must; [reflexivity|]. unfold tx_step_field. keys.
        rewrite Tt. destruct (G4 r eq_refl) as [_ ->]. by rewrite R3.
      - exists []. split; [done|]. split; [apply okf_skip, okf_nil|]. exists None. split; done. }
    rewrite X1. cbn [sbind].
    assert (okf ["txId"; "comment"; "tx"; "expect"]%string
      (field_if (given ident) "txId" (stringToOJ ident) ++ field_if (given c) "comment" (stringToOJ c) ++
       field "tx" (transactionToScenarioOJ t) ++ fx)) as Ho.
    { apply okf_if; [intros _; by constructor|]. apply okf_if; [intros _; by constructor|].
      apply okf_must; done. }
    eexists _, _. split_and!; [reflexivity|..].
    + eapply (okf_wj ("step" :: _)%string); [|apply okf_must; [|exact Ho]]; [by vm_compute|].
      constructor. apply name_quotable.
    + rewrite (tx_type_step (t_type t) _ (StepTypeName (TxStep ident c t expected)));
        [|apply (step_type _ _ _ Ho); by vm_compute|by cbn; destruct (t_type t)].
      unfold parseTxStep, name.
      match goal with |- context [over ?F (field ?k ?v ++ ?r) ?acc] => rewrite (over_must F k v r acc acc) end;
        [|unfold tx_step_field; by keys].
      match goal with |- context [over ?F (field_if ?b ?k ?v ++ ?r) ?acc] =>
        rewrite (over_step F b k v r acc (fun bb => ((if bb then ident else [], []), (None, None)))) end;
        [|intros _; unfold tx_step_field; by keys|done].
      match goal with |- context [over ?F (field_if ?b ?k ?v ++ ?r) ((?x, _), _)] =>
        rewrite (over_step F b k v r _ (fun bb => ((x, if bb then c else []), (None, None)))) end;
        [|intros _; unfold tx_step_field; by keys|done].
      match goal with |- context [over ?F (field ?k ?v ++ ?r) (?x, _)] =>
        rewrite (over_must F k v r _ (x, (Some t', None))) end;
        [|unfold tx_step_field; keys; destruct (given ident), (given c); by rewrite T1].
      rewrite X4. reflexivity.
    + cbn [p_step]. by rewrite !drop_text, T2, X3.
Qed.

(** * The scenario and its text *)

Lemma gas_back g : parseGasSchedule (gasScheduleToOJ g) = SOk g /\ wj (gasScheduleToOJ g).
Proof. destruct g; (split; [by vm_compute|constructor; by apply plain_quotable]). Qed.

Ltac s_acc := cbn [set_s_name set_s_comment set_s_check_gas set_s_gas set_s_steps s_name s_comment
  s_check_gas s_gas s_steps].
Ltac s_go := unfold scenario_field; keys; s_acc.
Lemma scenario_back s : good_scenario files keccak s -> kept s ->
  exists j s', ScenarioToOrderedJSON s = SOk j /\ wj j /\ ~ is_bool j /\
    processScenario files keccak j = SOk s' /\ p_scenario s' = p_scenario s.
Proof.
  intros (G1 & G2 & G3) K. unfold ScenarioToOrderedJSON. rewrite Forall_forall in G3.
  unfold kept in K. rewrite Forall_forall in K.
  destruct (each_back stepToOJ (processScenarioStep files keccak) wj (fun s s' => p_step s' = p_step s)
    (s_steps s)) as (js & steps & J1 & J2 & J3 & J4).
  { intros x Hx. apply step_back; [by apply G3|by apply K]. }
  destruct (gas_back (s_gas s)) as [N4 W4].
  rewrite J1. cbn [sbind]. eexists _, _. split_and!; [reflexivity|..].
  - eapply (okf_wj ["name"; "comment"; "checkGas"; "gasSchedule"; "steps"]%string); [by vm_compute|].
    right_nested. apply okf_if; [intros _; by constructor|]. apply okf_if; [intros _; by constructor|].
    apply okf_if; [intros _; by constructor|]. apply okf_must; [done|].
    apply okf_must; [by constructor|apply okf_nil].
  - by intros [].
  - unfold processScenario. cbn [as_map sbind]. right_nested.
    seg set_s_name s_name (s_name s) with (s_acc) via (s_go; done).
    seg set_s_comment s_comment (s_comment s) with (s_acc) via (s_go; done).
    seg set_s_check_gas s_check_gas false with (s_acc) via (s_go; done).
    must set_s_gas (s_gas s) with (s_acc) via (s_go; by rewrite N4).
    must set_s_steps steps with (s_acc) via
      (s_go; unfold processScenarioStepList; cbn [as_list sbind]; by rewrite J3).
    reflexivity.
  - unfold p_scenario. s_acc. rewrite !drop_text. f_equal; [by destruct (s_check_gas s)|].
    by apply Forall2_map_eq.
Qed.

Theorem rewritten text s : ParseScenarioFile files keccak text = SOk s -> kept s ->
  exists text' s', ScenarioToJSONString s = SOk text' /\
    ParseScenarioFile files keccak text' = SOk s' /\ p_scenario s' = p_scenario s.
Proof.
  unfold ParseScenarioFile. intros H K.
  destruct (ParseOrderedJSON text) as [[v|]|] eqn:E; try discriminate.
  apply parsed_writable in E. pose proof (scenario_good _ _ _ _ E H) as Hg.
  destruct (scenario_back s Hg K) as (j & s' & J1 & J2 & J3 & J4 & J5).
  unfold ScenarioToJSONString. rewrite J1. cbn [sbind]. eexists _, s'. split_and!; [reflexivity| |done].
  assert (ParseOrderedJSON (JSONString j ++ [cNewline]) = JOk (Some j)) as ->; [|done].
  apply lax_accepted. exists [], (JSONString j), [cNewline].
  split_and!; [done|constructor|by apply print_lax| |].
  - constructor; [|constructor]. unfold blank. auto.
  - destruct j; try done.
Qed.
End Back.
