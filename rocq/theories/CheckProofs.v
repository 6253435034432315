(** Proofs about the check-state step and the check of results. *)
From Verif Require Import WorldModel WorldSpec MandosProofs CodecProofs.
From Coq Require Import ZifyBool ZifyNat ZifyN.
Local Open Scope Z_scope.

(** * Conditions *)
Lemma checkBytes_ok c b : checkBytes c b = true <-> allows_bytes c b.
Proof.
  unfold checkBytes, allows_bytes. rewrite orb_true_iff, bool_decide_eq_true. tauto.
Qed.
Lemma checkUint_ok c n : checkUint64 c n = true <-> allows_number c n.
Proof. unfold checkUint64, allows_number. rewrite orb_true_iff, Z.eqb_eq. tauto. Qed.
Lemma checkBig_ok c z : checkBigInt c z = SOk true <-> allows_amount c z.
Proof.
  unfold checkBigInt, allows_amount. destruct (cz_star c); [tauto|].
  destruct (cz_value c) as [v|].
  - split; [intros [= H]; right; f_equal; lia|intros [H|[= ->]]; [discriminate|]].
    rewrite Z.eqb_refl. reflexivity.
  - split; [discriminate|intros [H|H]; discriminate].
Qed.
Lemma unspec_or_ok c b : unspec_or c b = true <-> allows_bytes_if_given c b.
Proof.
  unfold unspec_or, allows_bytes_if_given. rewrite orb_true_iff, checkBytes_ok. tauto.
Qed.
Lemma unspec_num_ok c n : (cu_unspec c || checkUint64 c n) = true <-> allows_number_if_given c n.
Proof. unfold allows_number_if_given. rewrite orb_true_iff, checkUint_ok. tauto. Qed.

Lemma sand_ok r k : sand r k = SOk tt <-> r = SOk true /\ k = SOk tt.
Proof.
  unfold sand. destruct r as [[]| |]; cbn; split; try tauto; try discriminate; intros [H _]; discriminate.
Qed.
Lemma sok_true b : @SOk bool b = SOk true <-> b = true.
Proof. split; [intros [= ->]; reflexivity|intros ->; reflexivity]. Qed.

Lemma sforall_ok {A} (f : A -> sres bool) l :
  sforall f l = SOk true <-> forall x, x ∈ l -> f x = SOk true.
Proof.
  induction l as [|x l IH]; cbn.
  - split; [intros _ y Hy; inversion Hy|reflexivity].
  - destruct (f x) as [b| |] eqn:Hf; cbn.
    + destruct (sforall f l) as [c| |] eqn:Hl; cbn.
      * rewrite sok_true, andb_true_iff. split.
        -- intros [-> ->] y Hy. apply elem_of_cons in Hy as [->|Hy]; [exact Hf|].
           apply (proj1 IH eq_refl). exact Hy.
        -- intros H. split.
           ++ pose proof (H x (elem_of_list_here _ _)) as H1. rewrite Hf in H1. congruence.
           ++ assert (HH : SOk c = SOk true) by (apply (proj2 IH); intros y Hy; apply H; right; exact Hy).
              congruence.
      * split; [discriminate|]. intros H. exfalso.
        assert (HH : @SErr bool = SOk true) by (apply (proj2 IH); intros y Hy; apply H; right; exact Hy).
        discriminate.
      * split; [discriminate|]. intros H. exfalso.
        assert (HH : @SPanic bool = SOk true) by (apply (proj2 IH); intros y Hy; apply H; right; exact Hy).
        discriminate.
    + split; [discriminate|]. intros H. specialize (H x (elem_of_list_here _ _)). congruence.
    + split; [discriminate|]. intros H. specialize (H x (elem_of_list_here _ _)). congruence.
Qed.

(** Two passes over the keys of two maps. *)
Lemma two_maps {K} `{Countable K} {A B} (m : gmap K A) (m' : gmap K B) (f : K -> sres bool) :
  (forall k, m !! k = None -> m' !! k = None -> f k = SOk true) ->
  (sbind (sforall f (map fst (map_to_list m))) (fun a =>
   sbind (sforall f (map fst (map_to_list m'))) (fun b => SOk (a && b))) = SOk true
   <-> forall k, f k = SOk true).
Proof.
  intros Hn.
  assert (Hin : forall {C} (q : gmap K C) k, k ∈ map fst (map_to_list q) <-> q !! k <> None).
  { intros C q k. rewrite elem_of_list_fmap. split.
    - intros ([k' c] & -> & Hc). apply elem_of_map_to_list in Hc. cbn. rewrite Hc. discriminate.
    - intros Hk. destruct (q !! k) as [c|] eqn:Hc; [|congruence].
      exists (k, c). split; [reflexivity|]. apply elem_of_map_to_list. exact Hc. }
  pose proof (sforall_ok f (map fst (map_to_list m))) as H1.
  pose proof (sforall_ok f (map fst (map_to_list m'))) as H2.
  assert (Hboth : (sforall f (map fst (map_to_list m)) = SOk true /\
                   sforall f (map fst (map_to_list m')) = SOk true) <-> forall k, f k = SOk true).
  { rewrite H1, H2. split.
    - intros [Ha Hb] k. destruct (m !! k) eqn:E1; [apply Ha, Hin; congruence|].
      destruct (m' !! k) eqn:E2; [apply Hb, Hin; congruence|]. apply Hn; assumption.
    - intros Ha. split; intros; apply Ha. }
  rewrite <- Hboth.
  destruct (sforall f (map fst (map_to_list m))) as [a| |]; cbn.
  - destruct (sforall f (map fst (map_to_list m'))) as [b| |]; cbn.
    + rewrite !sok_true, andb_true_iff. tauto.
    + split; [discriminate|intros [_ ?]; discriminate].
    + split; [discriminate|intros [_ ?]; discriminate].
  - split; [discriminate|intros [? _]; discriminate].
  - split; [discriminate|intros [? _]; discriminate].
Qed.

(** * Maps made from lists: the last one counts *)
Lemma last_map_gen {K} `{Countable K} {A B} (key : A -> K) (val : A -> B) l (m0 : gmap K B) k :
  (forall y, fold_left (fun m d => <[key d := val d]> m) l m0 !! k = Some y <->
     (exists d, last_with key l k d /\ val d = y) \/ (none_with key l k /\ m0 !! k = Some y)) /\
  (fold_left (fun m d => <[key d := val d]> m) l m0 !! k = None <->
     none_with key l k /\ m0 !! k = None).
Proof.
  revert m0. induction l as [|d l IH]; intros m0; cbn.
  - split.
    + intros y. split.
      * intros Hy. right. split; [intros z Hz; inversion Hz|exact Hy].
      * intros [(d & (b & t & Hd & _) & _)|[_ Hy]]; [|exact Hy]. destruct b; discriminate.
    + split; [intros Hy; split; [intros z Hz; inversion Hz|exact Hy]|intros [_ Hy]; exact Hy].
  - specialize (IH (<[key d := val d]> m0)) as [IH1 IH2].
    assert (Hlast : forall e, last_with key l k e -> last_with key (d :: l) k e).
    { intros e (b & t & -> & He & Ht). exists (d :: b), t. auto. }
    assert (Hinv : forall e, last_with key (d :: l) k e ->
              last_with key l k e \/ (e = d /\ key d = k /\ none_with key l k)).
    { intros e (b & t & Hl & He & Ht). destruct b as [|b0 b]; cbn in Hl; injection Hl as -> ->.
      - right. repeat split; assumption.
      - left. exists b, t. auto. }
    assert (Hnone : none_with key (d :: l) k <-> key d <> k /\ none_with key l k).
    { unfold none_with. split.
      - intros Hz. split; [apply Hz; left|intros y Hy; apply Hz; right; exact Hy].
      - intros [Hd Hz] y Hy. apply elem_of_cons in Hy as [->|Hy]; [exact Hd|apply Hz, Hy]. }
    destruct (decide (key d = k)) as [Hk|Hk].
    + subst k. split.
      * intros y. rewrite IH1, lookup_insert. split.
        -- intros [(e & He & Hv)|[Hz [= <-]]].
           ++ left. exists e. split; [apply Hlast, He|exact Hv].
           ++ left. exists d. split; [|reflexivity]. exists [], l. auto.
        -- intros [(e & He & Hv)|[Hz _]].
           ++ apply Hinv in He as [He|(-> & _ & Hz)].
              ** left. eauto.
              ** right. rewrite Hv. auto.
           ++ apply Hnone in Hz as [Hz _]. congruence.
      * rewrite IH2, lookup_insert, Hnone. split; [intros [_ ?]; discriminate|intros [[? _] _]; congruence].
    + split.
      * intros y. rewrite IH1, lookup_insert_ne by exact Hk. rewrite Hnone. split.
        -- intros [(e & He & Hv)|[Hz Hy]]; [left; eauto|right; auto].
        -- intros [(e & He & Hv)|[[_ Hz] Hy]]; [|right; auto].
           apply Hinv in He as [He|(-> & ? & _)]; [left; eauto|congruence].
      * rewrite IH2, lookup_insert_ne by exact Hk. rewrite Hnone. tauto.
Qed.
Lemma last_map_some {K} `{Countable K} {A B} (key : A -> K) (val : A -> B) l k y :
  fold_left (fun m d => <[key d := val d]> m) l (∅ : gmap K B) !! k = Some y <->
  exists d, last_with key l k d /\ val d = y.
Proof.
  rewrite (proj1 (last_map_gen key val l ∅ k)). rewrite lookup_empty.
  split; [intros [?|[_ ?]]; [assumption|discriminate]|tauto].
Qed.
Lemma last_map_none {K} `{Countable K} {A B} (key : A -> K) (val : A -> B) l k :
  fold_left (fun m d => <[key d := val d]> m) l (∅ : gmap K B) !! k = None <-> none_with key l k.
Proof. rewrite (proj2 (last_map_gen key val l ∅ k)). rewrite lookup_empty. tauto. Qed.

(** * Storage *)
Lemma stored_value a k v : stored a k v <-> StorageValue a k = v.
Proof.
  unfold stored, StorageValue. destruct (wa_storage a !! k) as [u|]; cbn.
  - split; [intros [[= ->]|[? _]]; [reflexivity|discriminate]|intros ->; auto].
  - split; [intros [?|[_ ->]]; [discriminate|reflexivity]|intros <-; auto].
Qed.

Lemma storage_ok x a : checkAccountStorage x a = true <-> storage_as_declared x a.
Proof.
  unfold checkAccountStorage, storage_as_declared. destruct (x_ignore_storage x); [tauto|].
  set (E := fold_left _ _ _).
  assert (HE1 : forall k c, E !! k = Some c <->
     exists d, last_with (fun d : jbytes * cbytes => jb_value (fst d)) (x_storage x) k d /\ snd d = c).
  { intros k c. exact (last_map_some (fun d : jbytes * cbytes => jb_value (fst d)) snd (x_storage x) k c). }
  assert (HE2 : forall k, E !! k = None <->
     none_with (fun d : jbytes * cbytes => jb_value (fst d)) (x_storage x) k).
  { intros k. exact (last_map_none (fun d : jbytes * cbytes => jb_value (fst d)) snd (x_storage x) k). }
  clearbody E.
  assert (Hin : forall {C} (q : gmap bytes C) k, k ∈ map fst (map_to_list q) <-> q !! k <> None).
  { intros C q k. rewrite elem_of_list_fmap. split.
    - intros ([k' c] & -> & Hc). apply elem_of_map_to_list in Hc. cbn. rewrite Hc. discriminate.
    - intros Hk. destruct (q !! k) as [c|] eqn:Hc; [|congruence].
      exists (k, c). split; [reflexivity|]. apply elem_of_map_to_list. exact Hc. }
  assert (Hone : forall k, storage_key_ok x E a k = true <->
    (~ reserved k ->
      (forall d, last_with (fun d : jbytes * cbytes => jb_value (fst d)) (x_storage x) k d ->
         allows_bytes (snd d) (StorageValue a k)) /\
      (none_with (fun d : jbytes * cbytes => jb_value (fst d)) (x_storage x) k ->
         x_more_storage x = true \/ StorageValue a k = []))).
  { intros k. unfold storage_key_ok, after. destruct (strip ProtectedPrefix k) as [r|] eqn:Hs.
    - apply strip_some in Hs. split; [|reflexivity]. intros _ Hr. exfalso. apply Hr. exists r. exact Hs.
    - assert (Hr : ~ reserved k).
      { intros [r Hr]. rewrite Hr in Hs. change (str "ELROND") with ProtectedPrefix in Hs.
        rewrite strip_app in Hs. discriminate. }
      destruct (E !! k) as [c|] eqn:Hk.
      + rewrite checkBytes_ok. apply HE1 in Hk as (d & Hd & <-). split.
        * intros Ha _. split.
          -- intros e He. assert (HH : E !! k = Some (snd e)) by (apply HE1; eauto).
             assert (HH2 : E !! k = Some (snd d)) by (apply HE1; eauto). congruence.
          -- intros Hz. apply HE2 in Hz. assert (HH2 : E !! k = Some (snd d)) by (apply HE1; eauto). congruence.
        * intros Ha. apply (proj1 (Ha Hr)). exact Hd.
      + rewrite checkBytes_ok. split.
        * intros Ha _. split.
          -- intros e He. assert (HH : E !! k = Some (snd e)) by (apply HE1; eauto). congruence.
          -- intros _. unfold allows_bytes in Ha. destruct (x_more_storage x); [auto|].
             right. destruct Ha as [Ha|Ha]; [discriminate|]. symmetry. exact Ha.
        * intros Ha. apply HE2 in Hk. destruct (proj2 (Ha Hr) Hk) as [Hm|Hm].
          -- rewrite Hm. left. reflexivity.
          -- destruct (x_more_storage x); [left; reflexivity|]. right. symmetry. exact Hm. }
  rewrite andb_true_iff, !forallb_forall. split.
  - intros [H1 H2]. right. intros k v Hr Hv. apply stored_value in Hv as <-. apply Hone; [|exact Hr].
    destruct (E !! k) as [c|] eqn:Hk.
    + apply H1. apply elem_of_list_In, Hin. congruence.
    + destruct (wa_storage a !! k) as [u|] eqn:Hu.
      * apply H2. apply elem_of_list_In, Hin. congruence.
      * unfold storage_key_ok. destruct (after ProtectedPrefix k); [reflexivity|]. rewrite Hk.
        apply checkBytes_ok. unfold StorageValue. rewrite Hu. destruct (x_more_storage x); [left|right]; reflexivity.
  - intros [H|H]; [discriminate|]. split; intros k _; apply Hone; intros Hr; apply (H k); [exact Hr|apply stored_value; reflexivity|exact Hr|apply stored_value; reflexivity].
Qed.

(** * Tokens *)
Lemma nonce_bytes_iff n b : nonce_bytes n b <-> 0 <= n /\ b = be_encode n.
Proof.
  unfold nonce_bytes. rewrite <- be_decode_value. split.
  - intros [<- Hh]. split; [apply be_decode_bound|]. symmetry. apply be_encode_decode.
    destruct b as [|x b]; [exact I|]. cbn in Hh |- *. intros Hz. apply Hh. f_equal.
    destruct x; vm_compute in Hz; try discriminate. reflexivity.
  - intros [Hn ->]. split; [rewrite be_decode_encode; lia|].
    pose proof (be_encode_lead n) as Hl. destruct (be_encode n) as [|x b]; [discriminate|].
    cbn in Hl |- *. intros [= ->]. apply Hl. reflexivity.
Qed.
Lemma be_encode_0 : be_encode 0 = [].
Proof. reflexivity. Qed.

Section Tok.
Context (W : wenv) (HW : codec_ok W).

(** What one key of the storage says about a token instance. *)
Definition inst_of (a : waccount) (name k : bytes) : list (token * token_meta) :=
  match strip ESDTTokenKeyPrefix k with
  | Some _ =>
      match loadMockESDTDataInstance a k with
      | SOk (n, (t, m)) =>
          if bool_decide (n = name)
          then match tk_value t with Some v => if 0 <? v then [(t, m)] else [] | None => [] end
          else []
      | _ => []
      end
  | None => []
  end.
Definition entry_ok (a : waccount) (k : bytes) : bool :=
  match strip ESDTTokenKeyPrefix k with
  | Some _ =>
      match loadMockESDTDataInstance a k with
      | SOk (n, (t, m)) => match tk_value t with Some _ => true | None => false end
      | _ => false
      end
  | None =>
  match strip ESDTNonceKeyPrefix k with
  | Some _ => true
  | None =>
  match strip ESDTRoleKeyPrefix k with
  | Some name => match GetTokenRoles a name with SOk _ => true | _ => false end
  | None => true
  end end end.
Definition last_step (name : bytes) (acc : Z) (kv : bytes * bytes) : Z :=
  if bool_decide (fst kv = ESDTNonceKeyPrefix ++ name) then u64 (be_decode (snd kv)) else acc.
Definition role_step (a : waccount) (name : bytes) (acc : list bytes) (kv : bytes * bytes) : list bytes :=
  if bool_decide (fst kv = ESDTRoleKeyPrefix ++ name)
  then match GetTokenRoles a name with SOk r => r | _ => [] end else acc.

Lemma prefixes_apart k r :
  (strip ESDTTokenKeyPrefix k = Some r ->
     (forall n, k <> ESDTNonceKeyPrefix ++ n) /\ (forall n, k <> ESDTRoleKeyPrefix ++ n)) /\
  (strip ESDTNonceKeyPrefix k = Some r ->
     strip ESDTTokenKeyPrefix k = None /\ (forall n, k <> ESDTRoleKeyPrefix ++ n)) /\
  (strip ESDTRoleKeyPrefix k = Some r ->
     strip ESDTTokenKeyPrefix k = None /\ strip ESDTNonceKeyPrefix k = None).
Proof.
  repeat split; intros; rewrite strip_some in H; subst k; cbn; discriminate || reflexivity.
Qed.

Lemma entry_spec a k v m name :
  if entry_ok a k then
    exists m', esdt_entry a k v m = SOk m' /\
      let E := getOrCreateMockESDTData m name in
      let E' := getOrCreateMockESDTData m' name in
      me_instances E' = me_instances E ++ inst_of a name k /\
      me_last E' = last_step name (me_last E) (k, v) /\
      me_roles E' = role_step a name (me_roles E) (k, v)
  else forall m', esdt_entry a k v m <> SOk m'.
Proof.
  unfold entry_ok, esdt_entry, inst_of, last_step, role_step, after, getOrCreateMockESDTData. cbn [fst snd].
  destruct (strip ESDTTokenKeyPrefix k) as [r|] eqn:H1.
  - destruct (proj1 (prefixes_apart k r) H1) as [Hn Hr].
    rewrite (bool_decide_eq_false_2 (k = ESDTNonceKeyPrefix ++ name)) by apply Hn.
    rewrite (bool_decide_eq_false_2 (k = ESDTRoleKeyPrefix ++ name)) by apply Hr.
    destruct (loadMockESDTDataInstance a k) as [[n [t tm]]| |]; cbn; [|discriminate|discriminate].
    destruct (tk_value t) as [z|]; [|discriminate].
    destruct (0 <? z).
    + eexists. split; [reflexivity|]. destruct (bool_decide_reflect (n = name)) as [->|Hne].
      * rewrite lookup_insert. cbn. auto.
      * rewrite lookup_insert_ne by exact Hne. rewrite app_nil_r. auto.
    + eexists. split; [reflexivity|]. destruct (bool_decide (n = name)); rewrite app_nil_r; auto.
  - destruct (strip ESDTNonceKeyPrefix k) as [r|] eqn:H2.
    + destruct (proj1 (proj2 (prefixes_apart k r)) H2) as [_ Hr].
      rewrite (bool_decide_eq_false_2 (k = ESDTRoleKeyPrefix ++ name)) by apply Hr.
      apply strip_some in H2. subst k. eexists. split; [reflexivity|].
      destruct (bool_decide_reflect (ESDTNonceKeyPrefix ++ r = ESDTNonceKeyPrefix ++ name)) as [He|Hne].
      * apply app_inv_head in He. subst r. rewrite lookup_insert. cbn. rewrite app_nil_r. auto.
      * rewrite lookup_insert_ne by congruence. rewrite app_nil_r. auto.
    + assert (Hn : k <> ESDTNonceKeyPrefix ++ name).
      { intros ->. rewrite strip_app in H2. discriminate. }
      rewrite (bool_decide_eq_false_2 (k = ESDTNonceKeyPrefix ++ name)) by apply Hn.
      destruct (strip ESDTRoleKeyPrefix k) as [r|] eqn:H3.
      * apply strip_some in H3. subst k. destruct (GetTokenRoles a r) as [rs| |] eqn:Hg; cbn [sbind]; [|discriminate|discriminate].
        eexists. split; [reflexivity|].
        destruct (bool_decide_reflect (ESDTRoleKeyPrefix ++ r = ESDTRoleKeyPrefix ++ name)) as [He|Hne].
        -- apply app_inv_head in He. subst r. rewrite lookup_insert, Hg. cbn. rewrite app_nil_r. auto.
        -- rewrite lookup_insert_ne by congruence. rewrite app_nil_r. auto.
      * rewrite bool_decide_eq_false_2 by (intros ->; rewrite strip_app in H3; discriminate).
        eexists. split; [reflexivity|]. rewrite app_nil_r. auto.
Qed.

Lemma entries_spec a l : forall m,
  if forallb (fun kv => entry_ok a (fst kv)) l then
    exists m', esdt_entries a l m = SOk m' /\ forall name,
      let E := getOrCreateMockESDTData m name in
      let E' := getOrCreateMockESDTData m' name in
      me_instances E' = me_instances E ++ flat_map (fun kv => inst_of a name (fst kv)) l /\
      me_last E' = fold_left (last_step name) l (me_last E) /\
      me_roles E' = fold_left (role_step a name) l (me_roles E)
  else forall m', esdt_entries a l m <> SOk m'.
Proof.
  induction l as [|[k v] l IH]; intros m; cbn [forallb fst].
  - exists m. split; [reflexivity|]. intros name. cbn. rewrite app_nil_r. auto.
  - pose proof (entry_spec a k v m) as Hk. cbn [esdt_entries].
    destruct (entry_ok a k); cbn [andb].
    + destruct (Hk []) as (m1 & Hm1 & _).
      rewrite Hm1. cbn [sbind]. specialize (IH m1).
      destruct (forallb _ l).
      * destruct IH as (m' & Hm' & IH). exists m'. split; [exact Hm'|]. intros name.
        destruct (Hk name) as (m1' & Hm1' & K1 & K2 & K3). rewrite Hm1 in Hm1'. injection Hm1' as <-.
        destruct (IH name) as (I1 & I2 & I3). cbn zeta in *. cbn [flat_map fold_left fst].
        rewrite I1, I2, I3, K1, K2, K3, app_assoc. auto.
      * exact IH.
    + intros m'. specialize (Hk []). cbn beta iota in Hk.
      destruct (esdt_entry a k v m) as [m1| |] eqn:He; cbn; [|discriminate|discriminate].
      exfalso. exact (Hk m1 eq_refl).
Qed.

(** The last step of a fold over a list without repeated keys. *)
Lemma fold_last a l name acc : NoDup (map fst l) ->
  (forall kv, kv ∈ l -> wa_storage a !! fst kv = Some (snd kv)) ->
  fold_left (last_step name) l acc =
  match list_find (fun kv : bytes * bytes => fst kv = ESDTNonceKeyPrefix ++ name) l with
  | Some (_, kv) => u64 (be_decode (snd kv))
  | None => acc
  end.
Proof.
  intros Hd Ha. revert acc. induction l as [|[k v] l IH]; intros acc; [reflexivity|].
  cbn in Hd. apply NoDup_cons in Hd as [Hk Hd].
  assert (Ha' : forall kv, kv ∈ l -> wa_storage a !! fst kv = Some (snd kv)) by (intros kv Hkv; apply Ha; right; exact Hkv).
  specialize (IH Hd Ha').
  cbn [fold_left]. rewrite IH. cbn [list_find fst]. unfold last_step at 1. cbn [fst snd].
  destruct (decide (k = ESDTNonceKeyPrefix ++ name)) as [He|Hne].
  - rewrite bool_decide_eq_true_2 by exact He.
    replace (list_find _ l) with (@None (nat * (bytes * bytes))); [reflexivity|].
    symmetry. apply list_find_None. apply Forall_forall. intros [k' v'] Hin Hk'. cbn in Hk'. subst k'.
    apply Hk. apply elem_of_list_fmap. exists (k, v'). split; [reflexivity|]. rewrite He. exact Hin.
  - rewrite bool_decide_eq_false_2 by exact Hne.
    destruct (list_find _ l) as [[i kv]|]; reflexivity.
Qed.
Lemma fold_roles a l name acc :
  fold_left (role_step a name) l acc =
  if bool_decide (ESDTRoleKeyPrefix ++ name ∈ map fst l)
  then match GetTokenRoles a name with SOk r => r | _ => [] end else acc.
Proof.
  revert acc. induction l as [|[k v] l IH]; intros acc; [reflexivity|].
  cbn [fold_left map fst]. rewrite IH. unfold role_step. cbn [fst snd].
  destruct (bool_decide_reflect (ESDTRoleKeyPrefix ++ name ∈ map fst l)) as [Hi|Hi].
  - rewrite bool_decide_eq_true_2 by (right; exact Hi). reflexivity.
  - destruct (bool_decide_reflect (k = ESDTRoleKeyPrefix ++ name)) as [->|Hk].
    + rewrite bool_decide_eq_true_2 by left. reflexivity.
    + rewrite bool_decide_eq_false_2; [reflexivity|].
      intros [H|H]%elem_of_cons; [congruence|contradiction].
Qed.

Definition the_last (a : waccount) (name : bytes) : Z :=
  u64 (be_decode (StorageValue a (ESDTNonceKeyPrefix ++ name))).
Definition the_roles (a : waccount) (name : bytes) : list bytes :=
  match GetTokenRoles a name with SOk r => r | _ => [] end.
Definition the_insts (a : waccount) (name : bytes) : list (token * token_meta) :=
  flat_map (fun kv => inst_of a name (fst kv)) (map_to_list (wa_storage a)).
Definition all_ok (a : waccount) : bool :=
  forallb (fun kv => entry_ok a (fst kv)) (map_to_list (wa_storage a)).

Lemma full_spec a :
  if all_ok a then
    exists m, GetFullMockESDTData a = SOk m /\ forall name,
      let E := default (mkMockEsdt [] 0 []) (m !! name) in
      me_instances E = the_insts a name /\ me_last E = the_last a name /\ me_roles E = the_roles a name
  else forall m, GetFullMockESDTData a <> SOk m.
Proof.
  unfold all_ok, GetFullMockESDTData. pose proof (entries_spec a (map_to_list (wa_storage a)) ∅) as H.
  destruct (forallb _ _); [|exact H]. destruct H as (m & Hm & H). exists m. split; [exact Hm|].
  intros name. destruct (H name) as (H1 & H2 & H3). cbn zeta in *. unfold getOrCreateMockESDTData in *.
  rewrite !lookup_empty in *. cbn [default me_instances me_last me_roles] in H1, H2, H3. cbn [app] in H1.
  assert (Hst : forall kv, kv ∈ map_to_list (wa_storage a) -> wa_storage a !! fst kv = Some (snd kv)).
  { intros [k v] Hkv. apply elem_of_map_to_list in Hkv. exact Hkv. }
  rewrite (fold_last a) in H2; [|apply NoDup_fst_map_to_list|exact Hst].
  rewrite fold_roles in H3.
  split; [exact H1|]. split.
  - unfold default, id in *. rewrite H2. unfold the_last, StorageValue.
    destruct (list_find _ _) as [[i [k v]]|] eqn:Hf.
    + apply list_find_Some in Hf as (Hf & Hk & _). cbn [fst snd] in Hk |- *. subst k.
      apply elem_of_list_lookup_2, elem_of_map_to_list in Hf. rewrite Hf. reflexivity.
    + apply list_find_None in Hf. rewrite Forall_forall in Hf.
      destruct (wa_storage a !! (ESDTNonceKeyPrefix ++ name)) as [u|] eqn:Hu; [|reflexivity].
      apply elem_of_map_to_list in Hu. exfalso. exact (Hf _ Hu eq_refl).
  - unfold default, id in *. rewrite H3. destruct (bool_decide_reflect (ESDTRoleKeyPrefix ++ name ∈ map fst (map_to_list (wa_storage a)))) as [Hi|Hi]; [reflexivity|].
    unfold the_roles, GetTokenRoles, MakeTokenRolesKey, StorageValue.
    destruct (wa_storage a !! (ESDTRoleKeyPrefix ++ name)) as [u|] eqn:Hu; [|reflexivity].
    exfalso. apply Hi. apply elem_of_list_fmap. exists (ESDTRoleKeyPrefix ++ name, u). split; [reflexivity|].
    apply elem_of_map_to_list. exact Hu.
Qed.

(** A token instance as loaded. *)
Lemma get_data a key :
  GetTokenData a key =
  match StorageValue a key with
  | [] => SOk (mkTok 0 (Some 0) []
                 (Some (mkTokMeta 0 (drop (length ESDTTokenKeyPrefix) key) [] 0 [] [] [])))
  | raw => match we_unmarshal W raw with Some t => SOk t | None => SErr end
  end.
Proof. reflexivity. Qed.

Lemma load_spec a rest n t m :
  loadMockESDTDataInstance a (ESDTTokenKeyPrefix ++ rest) = SOk (n, (t, m)) <->
  exists t', GetTokenData a (ESDTTokenKeyPrefix ++ rest) = SOk t' /\ t' = t /\
    ((forall m', tk_meta t = Some m' -> tm_nonce m' = 0) /\ n = rest /\ m = mkTokMeta 0 rest [] 0 [] [] [] \/
     tk_meta t = Some m /\ tm_nonce m <> 0 /\ rest = n ++ be_encode (tm_nonce m)).
Proof.
  unfold loadMockESDTDataInstance. destruct (GetTokenData _ _) as [t'| |]; cbn [sbind].
  2, 3: split; [discriminate|intros (? & ? & _); discriminate].
  replace (drop (length ESDTTokenKeyPrefix) (ESDTTokenKeyPrefix ++ rest)) with rest by (symmetry; apply drop_app).
  destruct (tk_meta t') as [m'|] eqn:Hm.
  2: { split.
       - intros [= <- <- <-]. exists t'. split; [reflexivity|]. split; [reflexivity|]. left. rewrite Hm. split; [discriminate|auto].
       - intros (t0 & [= <-] & <- & [(_ & -> & ->)|(Hx & _)]); [reflexivity|congruence]. }
  destruct (tm_nonce m' =? 0) eqn:Hz.
  { split.
    - intros [= <- <- <-]. exists t'. split; [reflexivity|]. split; [reflexivity|]. left. rewrite Hm.
      split; [intros ? [= <-]; lia|auto].
    - intros (t0 & [= <-] & <- & [(_ & -> & ->)|(Hx & Hne & _)]); [reflexivity|].
      rewrite Hm in Hx. injection Hx as ->. lia. }
  set (nb := be_encode (tm_nonce m')) in *.
  destruct (Z.of_nat (length rest) - Z.of_nat (length nb) <? 0) eqn:Hneg.
  { split; [discriminate|]. intros (t0 & [= <-] & <- & [(Hx & _)|(Hx & Hne & He)]).
    - specialize (Hx m' Hm). lia.
    - rewrite Hm in Hx. injection Hx as ->. fold nb in He. rewrite He, app_length in Hneg. lia. }
  set (q := Z.to_nat (Z.of_nat (length rest) - Z.of_nat (length nb))).
  destruct (bool_decide_reflect (nb = drop q rest)) as [He|He].
  - split.
    + intros [= <- <- <-]. exists t'. split; [reflexivity|]. split; [reflexivity|]. right.
      split; [exact Hm|]. split; [lia|]. fold nb. rewrite He. symmetry. apply take_drop.
    + intros (t0 & [= <-] & <- & [(Hx & _)|(Hx & Hne & Hr)]).
      * specialize (Hx m' Hm). lia.
      * rewrite Hm in Hx. injection Hx as <-. fold nb in Hr. repeat f_equal.
        assert (Hq : q = length n) by (unfold q; rewrite Hr, app_length; lia).
        rewrite Hq, Hr. apply take_app.
  - split; [discriminate|]. intros (t0 & [= <-] & <- & [(Hx & _)|(Hx & Hne & Hr)]).
    + specialize (Hx m' Hm). lia.
    + rewrite Hm in Hx. injection Hx as <-. fold nb in Hr. exfalso. apply He.
      assert (Hq : q = length n) by (unfold q; rewrite Hr, app_length; lia).
      rewrite Hq, Hr, drop_app. reflexivity.
Qed.

Lemma insts_spec a name nonce v m :
  holds W a name nonce v m <->
  exists t, (t, m) ∈ the_insts a name /\ tk_value t = Some v /\ tm_nonce m = nonce.
Proof.
  unfold the_insts. setoid_rewrite elem_of_list_In. setoid_rewrite in_flat_map. split.
  - intros (raw & t & nb & Hnb & Hs & Hraw & Hu & Hv & Hpos & Hm).
    apply nonce_bytes_iff in Hnb as [Hn0 ->].
    assert (Hg : GetTokenData a (ESDTTokenKeyPrefix ++ name ++ be_encode nonce) = SOk t).
    { rewrite get_data. unfold StorageValue. change ESDTTokenKeyPrefix with (str "ELRONDesdt") at 1.
      rewrite Hs. cbn [default id]. destruct raw; [congruence|]. rewrite Hu. reflexivity. }
    assert (Hmn : tm_nonce m = nonce).
    { destruct (nonce =? 0) eqn:Hz; [destruct Hm as [_ ->]; cbn; lia|apply Hm]. }
    assert (Hl : loadMockESDTDataInstance a (ESDTTokenKeyPrefix ++ name ++ be_encode nonce) = SOk (name, (t, m))).
    { apply load_spec. exists t. split; [exact Hg|]. split; [reflexivity|].
      destruct (nonce =? 0) eqn:Hz.
      - assert (nonce = 0) by lia. subst nonce. rewrite H, be_encode_0, app_nil_r. left. destruct Hm as [Hm ->]. auto.
      - right. rewrite Hmn. split; [apply Hm|]. split; [lia|reflexivity]. }
    exists t. split; [|auto].
    exists (ESDTTokenKeyPrefix ++ name ++ be_encode nonce, raw). split.
    + apply elem_of_list_In, elem_of_map_to_list. exact Hs.
    + cbn [fst]. unfold inst_of. rewrite strip_app, Hl, bool_decide_eq_true_2, Hv by reflexivity.
      replace (0 <? v) with true by lia. left. reflexivity.
  - intros (t & ([k raw] & Hin & Hi) & Hv & Hn). apply elem_of_list_In, elem_of_map_to_list in Hin.
    cbn [fst] in Hi. unfold inst_of in Hi.
    destruct (strip ESDTTokenKeyPrefix k) as [rest|] eqn:Hk; [|destruct Hi].
    apply strip_some in Hk. subst k.
    destruct (loadMockESDTDataInstance a (ESDTTokenKeyPrefix ++ rest)) as [[n [t' m']]| |] eqn:Hl; [|destruct Hi|destruct Hi].
    destruct (bool_decide_reflect (n = name)) as [->|]; [|destruct Hi].
    destruct (tk_value t') as [v'|] eqn:Hv'; [|destruct Hi].
    destruct (0 <? v') eqn:Hpos; [|destruct Hi]. destruct Hi as [[= -> ->]|[]].
    rewrite Hv in Hv'. injection Hv' as <-.
    apply load_spec in Hl as (t' & Hg & -> & Hl).
    rewrite get_data in Hg. unfold StorageValue in Hg. rewrite Hin in Hg. cbn [default id] in Hg.
    assert (Hraw : raw <> []).
    { intros ->. injection Hg as <-. cbn in Hv. injection Hv as <-. discriminate. }
    assert (Hu : we_unmarshal W raw = Some t).
    { destruct raw as [|b raw]; [congruence|]. destruct (we_unmarshal W (b :: raw)); [congruence|discriminate]. }
    destruct Hl as [(Hz & -> & ->)|(Hm & Hne & ->)].
    + cbn in Hn. subst nonce. exists raw, t, []. split; [split; [reflexivity|discriminate]|].
      rewrite app_nil_r. repeat (split; [assumption || lia|]). cbn. auto.
    + exists raw, t, (be_encode (tm_nonce m)).
      pose proof (HW raw t m Hu Hm) as Hrange.
      split; [apply nonce_bytes_iff; split; [lia|congruence]|].
      repeat (split; [assumption || lia|]).
      replace (nonce =? 0) with false by lia. auto.
Qed.

Lemma holds_unique a name nonce v m v' m' :
  holds W a name nonce v m -> holds W a name nonce v' m' -> v = v' /\ m = m'.
Proof.
  intros (raw & t & nb & Hnb & Hs & Hraw & Hu & Hv & Hpos & Hm)
         (raw' & t' & nb' & Hnb' & Hs' & Hraw' & Hu' & Hv' & Hpos' & Hm').
  apply nonce_bytes_iff in Hnb as [_ ->]. apply nonce_bytes_iff in Hnb' as [_ ->].
  rewrite Hs in Hs'. injection Hs' as <-. rewrite Hu in Hu'. injection Hu' as <-.
  split; [congruence|]. destruct (nonce =? 0); [destruct Hm as [_ ->], Hm' as [_ ->]; reflexivity|].
  destruct Hm as [Hm _], Hm' as [Hm' _]. congruence.
Qed.

Lemma readable_spec a : all_ok a = true <-> tokens_readable W a.
Proof.
  unfold all_ok. rewrite forallb_forall. split.
  - intros H. split.
    + intros rest raw Hs Hraw.
      assert (Hin : (ESDTTokenKeyPrefix ++ rest, raw) ∈ map_to_list (wa_storage a)) by (apply elem_of_map_to_list; exact Hs).
      apply elem_of_list_In in Hin. specialize (H _ Hin). cbn [fst] in H. unfold entry_ok in H. rewrite strip_app in H.
      destruct (loadMockESDTDataInstance a (ESDTTokenKeyPrefix ++ rest)) as [[n [t m]]| |] eqn:Hl; [|discriminate|discriminate].
      apply load_spec in Hl as (t' & Hg & -> & Hl).
      rewrite get_data in Hg. unfold StorageValue in Hg. change ESDTTokenKeyPrefix with (str "ELRONDesdt") in Hg at 1. rewrite Hs in Hg. cbn [default id] in Hg.
      exists t. split.
      { destruct raw as [|b raw]; [congruence|]. destruct (we_unmarshal W (b :: raw)); [congruence|discriminate]. }
      split; [destruct (tk_value t); discriminate|].
      assert (Hu : we_unmarshal W raw = Some t).
      { destruct raw as [|b raw]; [congruence|]. destruct (we_unmarshal W (b :: raw)); [congruence|discriminate]. }
      intros m' Hm' Hne. destruct Hl as [(Hz & _)|(Hm & _ & ->)]; [specialize (Hz m' Hm'); contradiction|].
      rewrite Hm in Hm'. injection Hm' as <-. exists n, (be_encode (tm_nonce m)). split; [reflexivity|].
      apply nonce_bytes_iff. split; [apply (HW raw t m Hu Hm)|reflexivity].
    + intros name raw Hs Hraw.
      assert (Hin : (ESDTRoleKeyPrefix ++ name, raw) ∈ map_to_list (wa_storage a)) by (apply elem_of_map_to_list; exact Hs).
      apply elem_of_list_In in Hin. specialize (H _ Hin). cbn [fst] in H. unfold entry_ok in H.
      destruct (proj2 (proj2 (prefixes_apart (ESDTRoleKeyPrefix ++ name) name)) (strip_app _ _)) as [E1 E2].
      rewrite E1, E2, strip_app in H. unfold GetTokenRoles, MakeTokenRolesKey, StorageValue in H.
      change ESDTRoleKeyPrefix with (str "ELRONDroleesdt") in H. rewrite Hs in H. cbn [default id] in H.
      destruct raw as [|b raw]; [congruence|]. destruct (we_unmarshal_roles W (b :: raw)); discriminate.
  - intros [H1 H2] [k raw] Hin. apply elem_of_list_In, elem_of_map_to_list in Hin. cbn [fst]. unfold entry_ok.
    destruct (strip ESDTTokenKeyPrefix k) as [rest|] eqn:E1.
    + apply strip_some in E1. subst k.
      destruct raw as [|b raw].
      * assert (Hl : loadMockESDTDataInstance a (ESDTTokenKeyPrefix ++ rest) =
                 SOk (rest, (mkTok 0 (Some 0) [] (Some (mkTokMeta 0 rest [] 0 [] [] [])), mkTokMeta 0 rest [] 0 [] [] []))).
        { apply load_spec. eexists. split.
          - rewrite get_data. unfold StorageValue. rewrite Hin. cbn [default id]. rewrite drop_app. reflexivity.
          - split; [reflexivity|]. left. cbn. split; [intros ? [= <-]; reflexivity|auto]. }
        rewrite Hl. reflexivity.
      * destruct (H1 rest (b :: raw) Hin ltac:(discriminate)) as (t & Hu & Hv & Hm).
        assert (Hg : GetTokenData a (ESDTTokenKeyPrefix ++ rest) = SOk t).
        { rewrite get_data. unfold StorageValue. rewrite Hin. cbn [default id]. rewrite Hu. reflexivity. }
        assert (Hl : exists n m, loadMockESDTDataInstance a (ESDTTokenKeyPrefix ++ rest) = SOk (n, (t, m))).
        { destruct (tk_meta t) as [m|] eqn:Ht.
          - destruct (decide (tm_nonce m = 0)) as [Hz|Hz].
            + exists rest, (mkTokMeta 0 rest [] 0 [] [] []). apply load_spec. exists t. split; [exact Hg|]. split; [reflexivity|].
              left. split; [intros m' Hm'; congruence|auto].
            + destruct (Hm m eq_refl Hz) as (name & nb & -> & Hnb). apply nonce_bytes_iff in Hnb as [_ ->].
              exists name, m. apply load_spec. exists t. split; [exact Hg|]. split; [reflexivity|]. right. auto.
          - exists rest, (mkTokMeta 0 rest [] 0 [] [] []). apply load_spec. exists t. split; [exact Hg|]. split; [reflexivity|].
            left. split; [intros m' Hm'; congruence|auto]. }
        destruct Hl as (n & m & ->). destruct (tk_value t); [reflexivity|congruence].
    + destruct (strip ESDTNonceKeyPrefix k); [reflexivity|].
      destruct (strip ESDTRoleKeyPrefix k) as [name|] eqn:E3; [|reflexivity].
      apply strip_some in E3. subst k. unfold GetTokenRoles, MakeTokenRolesKey, StorageValue. rewrite Hin. cbn [default id].
      destruct raw as [|b raw]; [reflexivity|]. specialize (H2 name (b :: raw) Hin ltac:(discriminate)).
      destruct (we_unmarshal_roles W (b :: raw)); [reflexivity|congruence].
Qed.

Lemma the_last_spec a name n : last_nonce_of a name n <-> n = the_last a name.
Proof.
  unfold last_nonce_of, the_last. split.
  - intros (raw & Hs & ->). apply stored_value in Hs. change (str "ELRONDnonce") with ESDTNonceKeyPrefix in Hs.
    rewrite Hs, be_decode_value. reflexivity.
  - intros ->. exists (StorageValue a (ESDTNonceKeyPrefix ++ name)). split; [apply stored_value; reflexivity|].
    rewrite be_decode_value. reflexivity.
Qed.
Lemma the_roles_spec a name roles : tokens_readable W a -> roles_of W a name roles <-> roles = the_roles a name.
Proof.
  intros [_ Hr]. unfold roles_of, the_roles, GetTokenRoles, MakeTokenRolesKey.
  assert (Hst : forall raw, stored a (str "ELRONDroleesdt" ++ name) raw <-> StorageValue a (ESDTRoleKeyPrefix ++ name) = raw).
  { intros raw. apply stored_value. }
  setoid_rewrite Hst.
  destruct (StorageValue a (ESDTRoleKeyPrefix ++ name)) as [|b raw] eqn:Hv.
  - split.
    + intros (raw & <- & [[_ ->]|[H _]]); [reflexivity|congruence].
    + intros ->. exists []. auto.
  - assert (Hne : we_unmarshal_roles W (b :: raw) <> None).
    { apply (Hr name); [|discriminate]. unfold StorageValue in Hv. change (str "ELRONDroleesdt") with ESDTRoleKeyPrefix.
      destruct (wa_storage a !! (ESDTRoleKeyPrefix ++ name)); cbn in Hv; [congruence|discriminate]. }
    destruct (we_unmarshal_roles W (b :: raw)) as [r|] eqn:Hu; [|congruence]. split.
    + intros (raw' & <- & [[? _]|[_ H]]); [discriminate|]. congruence.
    + intros ->. exists (b :: raw). split; [reflexivity|]. right. split; [discriminate|exact Hu].
Qed.

(** One instance. *)
Definition uri_of (m : token_meta) : bytes := match tm_uris m with [u] => u | _ => [] end.
Lemma uri_ok x m :
  ((length (tm_uris m) <=? 1)%nat = true /\ unspec_or (xi_uri x) (uri_of m) = true) <->
  exists u, the_uri m u /\ allows_bytes_if_given (xi_uri x) u.
Proof.
  rewrite unspec_or_ok. unfold the_uri, uri_of. destruct (tm_uris m) as [|u [|u' l]]; cbn.
  - split; [intros [_ H]; exists []; auto|intros (u & [[_ ->]|Hq] & Hw); [auto|discriminate]].
  - split; [intros [_ H]; exists u; auto|intros (u' & [[Hq _]|[= ->]] & Hw); [discriminate|auto]].
  - split; [intros [Hq _]; discriminate|intros (u0 & [[Hq _]|Hq] & Hw); discriminate].
Qed.
Lemma instance_ok_some x t m name nonce v : tk_value t = Some v ->
  instance_ok (Some x) (Some (t, m)) name nonce = SOk true <-> instance_fits x v m.
Proof.
  intros Hv. unfold instance_ok. cbn [default id]. rewrite Hv.
  pose proof (checkBig_ok (xi_balance x) v) as Hb. unfold instance_fits. rewrite <- Hb.
  rewrite <- !unspec_or_ok, <- unspec_num_ok, <- uri_ok. fold (uri_of m).
  destruct (checkBigInt (xi_balance x) v) as [b| |]; cbn [sbind].
  - rewrite !sok_true, !andb_true_iff. tauto.
  - split; [discriminate|intros [? _]; discriminate].
  - split; [discriminate|intros [? _]; discriminate].
Qed.
Lemma instance_ok_absent x name nonce :
  instance_ok (Some x) None name nonce = SOk true <-> instance_fits x 0 (nothing_held name nonce).
Proof.
  rewrite <- (instance_ok_some x (mkTok 0 (Some 0) [] None) (nothing_held name nonce) name nonce 0 eq_refl).
  reflexivity.
Qed.
Lemma instance_ok_unexpected t m name nonce v : tk_value t = Some v -> 0 < v ->
  instance_ok None (Some (t, m)) name nonce <> SOk true.
Proof.
  intros Hv Hpos. unfold instance_ok. cbn [default id]. rewrite Hv. unfold checkBigInt. cbn [missing_expectation xi_balance cz_star cz_value].
  replace (0 =? v) with false by lia. cbn. discriminate.
Qed.

Lemma insts_pos a name t m : (t, m) ∈ the_insts a name -> exists v, tk_value t = Some v /\ 0 < v.
Proof.
  unfold the_insts. rewrite elem_of_list_In, in_flat_map. intros ([k raw] & _ & Hi). cbn [fst] in Hi. unfold inst_of in Hi.
  destruct (strip _ k); [|destruct Hi]. destruct (loadMockESDTDataInstance a k) as [[n [t' m']]| |]; [|destruct Hi|destruct Hi].
  destruct (bool_decide _); [|destruct Hi]. destruct (tk_value t') as [v|] eqn:Hv; [|destruct Hi].
  destruct (0 <? v) eqn:Hp; [|destruct Hi]. destruct Hi as [[= -> ->]|[]]. exists v. split; [exact Hv|lia].
Qed.

Lemma instances_ok a name want :
  checkTokenInstances name want (the_insts a name) = SOk true <->
  (forall nonce i, last_with (fun i => cu_value (xi_nonce i)) want nonce i ->
     (forall v m, holds W a name nonce v m -> instance_fits i v m) /\
     ((forall v m, ~ holds W a name nonce v m) -> instance_fits i 0 (nothing_held name nonce))) /\
  (forall nonce v m, none_with (fun i => cu_value (xi_nonce i)) want nonce -> ~ holds W a name nonce v m).
Proof.
  unfold checkTokenInstances.
  set (E := fold_left _ want _). set (A := fold_left _ (the_insts a name) _).
  assert (HE1 : forall n i, E !! n = Some i <-> last_with (fun i => cu_value (xi_nonce i)) want n i).
  { intros n i. unfold E. rewrite (last_map_some (fun i => cu_value (xi_nonce i)) (fun i => i) want n i).
    split; [intros (d & Hd & <-); exact Hd|eauto]. }
  assert (HE2 : forall n, E !! n = None <-> none_with (fun i => cu_value (xi_nonce i)) want n).
  { intros n. exact (last_map_none (fun i => cu_value (xi_nonce i)) (fun i => i) want n). }
  assert (HA1 : forall n t m, A !! n = Some (t, m) -> exists v, tk_value t = Some v /\ 0 < v /\ holds W a name n v m).
  { intros n t m H. unfold A in H.
    apply (last_map_some (fun i : token * token_meta => tm_nonce (snd i)) (fun i => i)) in H as (d & (b & l & Hl & Hd & _) & ->).
    assert (Hin : (t, m) ∈ the_insts a name) by (rewrite Hl; apply elem_of_app; right; left).
    destruct (insts_pos a name t m Hin) as (v & Hv & Hp). exists v. split; [exact Hv|]. split; [exact Hp|].
    apply insts_spec. exists t. auto. }
  assert (HA2 : forall n, A !! n = None <-> forall v m, ~ holds W a name n v m).
  { intros n. unfold A. rewrite (last_map_none (fun i : token * token_meta => tm_nonce (snd i)) (fun i => i)). split.
    - intros Hn v m Hh. apply insts_spec in Hh as (t & Hin & _ & Hm). exact (Hn _ Hin Hm).
    - intros Hn [t m] Hin Hm. destruct (insts_pos a name t m Hin) as (v & Hv & _).
      apply (Hn v m). apply insts_spec. exists t. auto. }
  clearbody E A. rewrite two_maps.
  2: { intros k He Ha. rewrite He, Ha. reflexivity. }
  split.
  - intros H. split.
    + intros nonce i Hi. apply HE1 in Hi. specialize (H nonce). rewrite Hi in H. split.
      * intros v m Hh. destruct (A !! nonce) as [[t m']|] eqn:Ha.
        -- destruct (HA1 nonce t m' Ha) as (v' & Hv' & _ & Hh'). destruct (holds_unique _ _ _ _ _ _ _ Hh Hh') as [<- <-].
           apply (instance_ok_some i t m name nonce v Hv'). exact H.
        -- exfalso. exact (proj1 (HA2 nonce) Ha v m Hh).
      * intros Hn. apply HA2 in Hn. rewrite Hn in H. apply instance_ok_absent. exact H.
    + intros nonce v m Hn Hh. apply HE2 in Hn. specialize (H nonce). rewrite Hn in H.
      destruct (A !! nonce) as [[t m']|] eqn:Ha.
      * destruct (HA1 nonce t m' Ha) as (v' & Hv' & Hp & _). exact (instance_ok_unexpected t m' name nonce v' Hv' Hp H).
      * exact (proj1 (HA2 nonce) Ha v m Hh).
  - intros [H1 H2] nonce. destruct (E !! nonce) as [i|] eqn:He.
    + apply HE1 in He. destruct (H1 nonce i He) as [Ha Hb]. destruct (A !! nonce) as [[t m]|] eqn:Hx.
      * destruct (HA1 nonce t m Hx) as (v & Hv & _ & Hh). apply (instance_ok_some i t m name nonce v Hv), Ha, Hh.
      * apply instance_ok_absent, Hb, HA2, Hx.
    + destruct (A !! nonce) as [[t m]|] eqn:Hx; [|reflexivity].
      destruct (HA1 nonce t m Hx) as (v & _ & _ & Hh). exfalso. apply HE2 in He. exact (H2 nonce v m He Hh).
Qed.

Lemma roles_ok want have : checkTokenRoles want have = true <-> forall r, r ∈ have <-> r ∈ want.
Proof.
  unfold checkTokenRoles. rewrite andb_true_iff, !forallb_forall. setoid_rewrite bool_decide_eq_true.
  setoid_rewrite <- elem_of_list_In. split; [intros [H1 H2] r; split; auto|intros H; split; intros r Hr; apply H, Hr].
Qed.

Lemma token_ok a name x E : tokens_readable W a ->
  me_instances E = the_insts a name -> me_last E = the_last a name -> me_roles E = the_roles a name ->
  checkTokenState name x E = SOk true <-> token_fits W name x a.
Proof.
  intros Hr H1 H2 H3. unfold checkTokenState, token_fits. rewrite H1, H2, H3.
  pose proof (instances_ok a name (xe_instances x)) as Hi.
  pose proof (the_last_spec a name) as Hl. pose proof (the_roles_spec a name) as Hro.
  assert (Hl' : (forall n, last_nonce_of a name n -> allows_number (xe_last x) n) <-> checkUint64 (xe_last x) (the_last a name) = true).
  { rewrite checkUint_ok. split; [intros H; apply H, Hl; reflexivity|intros H n Hn; apply Hl in Hn as ->; exact H]. }
  assert (Hr' : (forall roles, roles_of W a name roles -> forall r, r ∈ roles <-> r ∈ xe_roles x) <->
                checkTokenRoles (xe_roles x) (the_roles a name) = true).
  { rewrite roles_ok. split; [intros H; apply H, Hro; [exact Hr|reflexivity]|].
    intros H roles Hx. apply (Hro roles Hr) in Hx as ->. exact H. }
  rewrite Hl', Hr'. transitivity (checkTokenInstances name (xe_instances x) (the_insts a name) = SOk true /\
    checkUint64 (xe_last x) (the_last a name) = true /\ checkTokenRoles (xe_roles x) (the_roles a name) = true); [|rewrite Hi; tauto].
  destruct (checkTokenInstances name (xe_instances x) (the_insts a name)) as [b| |]; cbn [sbind].
  - rewrite !sok_true, !andb_true_iff. tauto.
  - split; [discriminate|intros [? _]; discriminate].
  - split; [discriminate|intros [? _]; discriminate].
Qed.

Lemma token_unexpected a name : tokens_readable W a ->
  token_fits W name (mkCheckEsdt (mkJBytes name []) [] cuint_zero [] cuint_zero) a <->
  (forall nonce v m, ~ holds W a name nonce v m) /\
  (forall n, last_nonce_of a name n -> n = 0) /\
  (forall roles, roles_of W a name roles -> roles = []).
Proof.
  intros Hr. unfold token_fits. cbn [xe_instances xe_last xe_roles]. split.
  - intros (_ & H2 & H3 & H4). split; [|split].
    + intros nonce v m. apply H2. intros y Hy. inversion Hy.
    + intros n Hn. destruct (H3 n Hn) as [H|H]; [discriminate|]. cbn in H. lia.
    + intros roles Hro. specialize (H4 roles Hro). destruct roles as [|r rs]; [reflexivity|].
      exfalso. pose proof (proj1 (H4 r) (elem_of_list_here _ _)) as Hx. inversion Hx.
  - intros (H1 & H2 & H3). split; [|split; [|split]].
    + intros nonce i (b & l & Hl & _). destruct b; discriminate.
    + intros nonce v m _. apply H1.
    + intros n Hn. right. cbn. symmetry. apply H2, Hn.
    + intros roles Hro r. rewrite (H3 roles Hro). tauto.
Qed.

Lemma esdt_ok x a : checkAccountESDT x a = SOk true <-> tokens_as_declared W x a.
Proof.
  unfold checkAccountESDT, tokens_as_declared. destruct (x_ignore_esdt x); [tauto|].
  set (E := fold_left _ (x_esdt x) _).
  assert (HE1 : forall n i, E !! n = Some i <-> last_with (fun d => jb_value (xe_token d)) (x_esdt x) n i).
  { intros n i. unfold E. rewrite (last_map_some (fun d => jb_value (xe_token d)) (fun i => i) (x_esdt x) n i).
    split; [intros (d & Hd & <-); exact Hd|eauto]. }
  assert (HE2 : forall n, E !! n = None <-> none_with (fun d => jb_value (xe_token d)) (x_esdt x) n).
  { intros n. exact (last_map_none (fun d => jb_value (xe_token d)) (fun i => i) (x_esdt x) n). }
  clearbody E. pose proof (full_spec a) as Hf. pose proof (readable_spec a) as Hrd.
  destruct (all_ok a).
  - destruct Hf as (M & -> & HM). cbn [sbind].
    pose proof (proj1 Hrd eq_refl) as Hr.
    rewrite two_maps.
    2: { intros k He Ha. specialize (HM k). cbn zeta in HM. rewrite Ha in HM. cbn [default id] in HM. rewrite He, Ha. reflexivity. }
    assert (Hone : forall name,
      checkTokenState name (default (mkCheckEsdt (mkJBytes name []) [] cuint_zero [] cuint_zero) (E !! name))
        (default (mkMockEsdt [] 0 []) (M !! name)) = SOk true <->
      token_fits W name (default (mkCheckEsdt (mkJBytes name []) [] cuint_zero [] cuint_zero) (E !! name)) a).
    { intros name. destruct (HM name) as (H1 & H2 & H3). apply token_ok; assumption. }
    split.
    + intros H. right. split; [exact Hr|]. split.
      * intros name d Hd. apply HE1 in Hd. specialize (H name). apply Hone in H. rewrite Hd in H. exact H.
      * intros name Hn. apply HE2 in Hn. specialize (H name). apply Hone in H. rewrite Hn in H. apply token_unexpected; assumption.
    + intros [H|(_ & H1 & H2)]; [discriminate|]. intros name. apply Hone.
      destruct (E !! name) as [d|] eqn:He; cbn [default id].
      * apply H1, HE1, He.
      * apply token_unexpected; [exact Hr|]. apply H2, HE2, He.
  - split.
    + destruct (GetFullMockESDTData a) as [M| |]; cbn; [|discriminate|discriminate]. exfalso. exact (Hf M eq_refl).
    + intros [H|(Hr & _)]; [discriminate|]. apply Hrd in Hr. discriminate.
Qed.

Lemma account_ok accts x :
  checkAccount accts x = SOk tt <->
  exists a, accts !! jb_value (x_address x) = Some a /\ account_as_declared W x a.
Proof.
  unfold checkAccount. destruct (accts !! _) as [a|] eqn:Ha.
  2: { split; [discriminate|intros (a & ? & _); discriminate]. }
  rewrite !sand_ok, !sok_true, bool_decide_eq_true, checkUint_ok, checkBig_ok, !checkBytes_ok, unspec_or_ok, storage_ok, esdt_ok.
  unfold account_as_declared. split.
  - intros H. exists a. split; [reflexivity|]. tauto.
  - intros (a' & [= <-] & H). tauto.
Qed.

Lemma each_ok accts l :
  checkEach accts l = SOk tt <-> forall x, x ∈ l ->
    exists a, accts !! jb_value (x_address x) = Some a /\ account_as_declared W x a.
Proof.
  induction l as [|x l IH]; cbn.
  - split; [intros _ y Hy; inversion Hy|reflexivity].
  - pose proof (account_ok accts x) as Hx. destruct (checkAccount accts x) as [[]| |]; cbn [sbind].
    + rewrite IH. split.
      * intros H y Hy. apply elem_of_cons in Hy as [->|Hy]; [apply Hx; reflexivity|apply H, Hy].
      * intros H y Hy. apply H. right. exact Hy.
    + split; [discriminate|]. intros H. apply Hx. apply H. left.
    + split; [discriminate|]. intros H. apply Hx. apply H. left.
Qed.

Lemma accounts_ok xs w : checkAccounts xs w = SOk tt <-> world_as_declared W xs (mw_accts w).
Proof.
  unfold checkAccounts, world_as_declared. rewrite sand_ok, sok_true, orb_true_iff, each_ok, forallb_forall.
  assert (Hf : (forall addr, In addr (map fst (map_to_list (mw_accts w))) ->
                 match FindCheckAccount (xs_accounts xs) addr with Some _ => true | None => false end = true) <->
               (forall addr a, mw_accts w !! addr = Some a -> exists x, x ∈ xs_accounts xs /\ jb_value (x_address x) = addr)).
  { split.
    - intros H addr a Ha. specialize (H addr).
      assert (Hin : In addr (map fst (map_to_list (mw_accts w)))).
      { apply elem_of_list_In, elem_of_list_fmap. exists (addr, a). split; [reflexivity|]. apply elem_of_map_to_list, Ha. }
      specialize (H Hin). unfold FindCheckAccount in H. destruct (List.find _ _) as [x|] eqn:Hx; [|discriminate].
      apply find_some in Hx as [Hx1 Hx2]. apply bool_decide_eq_true in Hx2. exists x. split; [apply elem_of_list_In, Hx1|exact Hx2].
    - intros H addr Hin. apply elem_of_list_In, elem_of_list_fmap in Hin as ([k a] & -> & Hk). apply elem_of_map_to_list in Hk.
      destruct (H k a Hk) as (x & Hx & He). unfold FindCheckAccount. cbn [fst].
      destruct (List.find _ _) eqn:Hn; [reflexivity|]. apply elem_of_list_In in Hx.
      pose proof (find_none _ _ Hn x Hx) as Hz. cbn in Hz. rewrite bool_decide_eq_false in Hz. contradiction. }
  rewrite Hf. tauto.
Qed.

Lemma check_step comment xs w g :
  ExecuteStep g (CheckState comment (Some xs)) w = (w, checkAccounts xs w).
Proof. reflexivity. Qed.
End Tok.

(** * Results *)
Lemma list_ok want : forall have, check_list want have = true <-> Forall2 allows_bytes want have.
Proof.
  induction want as [|c want IH]; intros [|b have]; cbn.
  - split; [constructor|reflexivity].
  - split; [discriminate|intros H; inversion H].
  - split; [discriminate|intros H; inversion H].
  - rewrite andb_true_iff, checkBytes_ok, IH. split; [intros []; constructor; assumption|intros H; inversion H; auto].
Qed.
Lemma log_ok c e : check_log c e = true <-> log_as_expected c e.
Proof.
  unfold check_log, log_as_expected. rewrite !andb_true_iff, !checkBytes_ok, list_ok. tauto.
Qed.
Lemma logs_ok want : forall have, check_logs want have = true <-> Forall2 log_as_expected want have.
Proof.
  induction want as [|c want IH]; intros [|b have]; cbn.
  - split; [constructor|reflexivity].
  - split; [discriminate|intros H; inversion H].
  - split; [discriminate|intros H; inversion H].
  - rewrite andb_true_iff, log_ok, IH. split; [intros []; constructor; assumption|intros H; inversion H; auto].
Qed.

Lemma results_ok r checkGas o : checkTxResults r checkGas o = SOk tt <-> result_as_expected checkGas r o.
Proof.
  unfold checkTxResults, result_as_expected. rewrite !sand_ok, !sok_true, checkBig_ok, checkBytes_ok, list_ok.
  assert (Hr : match o_refund o with
        | Some z => checkBigInt (tr_refund r) z
        | None => if cz_star (tr_refund r) then SOk true else SPanic
        end = SOk true <->
     (cz_star (tr_refund r) = true \/ exists z, o_refund o = Some z /\ cz_value (tr_refund r) = Some z)).
  { destruct (o_refund o) as [z|].
    - rewrite checkBig_ok. unfold allows_amount. split.
      + intros [H|H]; [auto|right; eauto].
      + intros [H|(z' & [= <-] & H)]; auto.
    - destruct (cz_star (tr_refund r)); [tauto|]. split; [discriminate|intros [?|(z & ? & _)]; discriminate]. }
  assert (Hg : negb (checkGas && negb (cu_unspec (tr_gas r)) && negb (checkUint64 (tr_gas r) (o_gasrem o))) = true <->
     (checkGas = true -> allows_number_if_given (tr_gas r) (o_gasrem o))).
  { rewrite <- unspec_num_ok. destruct checkGas, (cu_unspec (tr_gas r)), (checkUint64 (tr_gas r) (o_gasrem o)); cbn; intuition. }
  assert (Hl : (if tr_logs_star r then SOk tt else sand (SOk (check_logs (tr_logs r) (o_logs o))) (SOk tt)) = SOk tt <->
     (tr_logs_star r = true \/ Forall2 log_as_expected (tr_logs r) (o_logs o))).
  { destruct (tr_logs_star r); [tauto|]. rewrite sand_ok, sok_true, logs_ok. split; [tauto|intros [?|?]; [discriminate|auto]]. }
  rewrite Hr, Hg, Hl. tauto.
Qed.
