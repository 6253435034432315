(** Tokens and accounts of a scenario file. *)
From Verif Require Import Base CodecSpec JsonModel JsonSpec MandosSpec.
From Verif Require Import ScenParseModel FileSpec ReadProofs FileProofs FileRecordProofs.
From stdpp Require Import list.
Local Open Scope Z_scope.

Section Accounts.
Context (files : bytes -> option bytes) (keccak : bytes -> bytes).

Lemma loaded_false m x : loaded m false x <-> (x = true <-> some_inst_key m).
Proof. unfold loaded. intuition congruence. Qed.
Lemma first_loaded {A} m x (first : A) others all : loaded m false x ->
  all = (if x then [first] else []) ++ others <-> first_then m first others all.
Proof.
  rewrite loaded_false. intros H. unfold first_then. destruct x; cbn [app].
  - assert (some_inst_key m) by by apply H. split; [intros ->; auto|]. by intros [[_ ->]|[? _]].
  - assert (~ some_inst_key m) by (intros Hs; apply H in Hs; done). split; [intros ->; auto|]. by intros [[? _]|[_ ->]].
Qed.
Lemma some_inst_dec m : some_inst_key m \/ ~ some_inst_key m.
Proof. destruct (decide (Exists (fun kv : bytes * json => fst kv ∈ map str inst_keys) m)); [left|right]; done. Qed.

Lemma token_iff kv d : wj (snd kv) ->
  esdt_entry_of files keccak kv = SOk d <-> token files keccak kv d.
Proof.
  intros Hv. destruct kv as [k v]. cbn [snd fst] in *. unfold esdt_entry_of, token. cbn [fst snd].
  rewrite sbind_iff. split.
  - intros (name & Hname & H). apply text_iff in Hname. unfold processESDTData in H. destruct v as [s|bb|l|m].
    + apply sbind_iff in H as (z & Hz & [= <-]). apply natural_iff in Hz. split; [exact Hname|].
      left. exists z. done.
    + discriminate.
    + discriminate.
    + unfold processESDTDataMap in H. apply sbind_iff in H as ([[d' first] ld] & H & [= <-]).
      apply (data_iff files keccak m (wj_keys m Hv) (wj_values m Hv)) in H. simpl in H.
      destruct H as (Ho & H1 & H2 & H3 & H4 & H5 & H6 & H7 & H8 & H9 & H10 & H11 & Ht & Hl).
      simpl. split; [by rewrite Ht|]. right. exists m, first, (ed_instances d').
      split; [done|]. split; [exact Ho|]. split; [by unfold inst_fields; split_and!|].
      split; [exact H8|]. split; [|split_and!; assumption].
      by apply (first_loaded m ld first _ _ Hl).
  - intros (Hname & H). exists (ed_token d). split; [by apply text_iff|].
    destruct H as [(z & Hz & H1 & H2 & H3 & H4)|(m & first & others & -> & Ho & Hi & H1 & H2 & H3 & H4 & H5)].
    + unfold processESDTData. destruct v as [s|bb|l|m]; try (destruct Hz as [Hz _]; discriminate Hz).
      apply sbind_iff. exists z. split; [by apply natural_iff|]. f_equal. destruct d; simpl in *. by subst.
    + cbn [processESDTData]. unfold processESDTDataMap. apply sbind_iff.
      destruct Hi as (I1 & I2 & I3 & I4 & I5 & I6 & I7).
      assert (exists ld, loaded m false ld) as [ld Hl].
      { destruct (some_inst_dec m) as [Hs|Hs]; [exists true|exists false]; apply loaded_false; intuition congruence. }
      exists (mkEsdtData (ed_token d) others (ed_last d) (ed_roles d) (ed_frozen d), first, ld). split.
      * apply (data_iff files keccak m (wj_keys m Hv) (wj_values m Hv)). simpl. split_and!; assumption || reflexivity.
      * f_equal. apply (first_loaded m ld first _ _ Hl) in H2. destruct d; simpl in *. by subst.
Qed.
Lemma token_check_iff kv d : wj (snd kv) ->
  sbind (bytes_of_text files keccak (fst kv)) (fun name => processCheckESDTData files keccak name (snd kv)) = SOk d
  <-> token_check files keccak kv d.
Proof.
  intros Hv. destruct kv as [k v]. cbn [snd fst] in *. unfold token_check. cbn [fst snd].
  rewrite sbind_iff. split.
  - intros (name & Hname & H). apply text_iff in Hname. unfold processCheckESDTData in H. destruct v as [s|bb|l|m].
    + apply sbind_iff in H as (z & Hz & [= <-]). apply natural_check_iff in Hz. split; [exact Hname|].
      left. exists s, z. done.
    + discriminate.
    + discriminate.
    + unfold processCheckESDTDataMap in H. apply sbind_iff in H as ([[d' first] ld] & H & [= <-]).
      apply (check_data_iff files keccak m (wj_keys m Hv) (wj_values m Hv)) in H. simpl in H.
      destruct H as (Ho & H1 & H2 & H3 & H4 & H5 & H6 & H7 & H8 & H9 & H10 & H11 & Ht & Hl).
      simpl. split; [by rewrite Ht|]. right. exists m, first, (xe_instances d').
      split; [done|]. split; [exact Ho|]. split; [by unfold check_inst_fields; split_and!|].
      split; [exact H8|]. split; [|split_and!; assumption].
      by apply (first_loaded m ld first _ _ Hl).
  - intros (Hname & H). exists (xe_token d). split; [by apply text_iff|].
    destruct H as [(s & z & -> & Hz & H1 & H2 & H3 & H4)|(m & first & others & -> & Ho & Hi & H1 & H2 & H3 & H4 & H5)].
    + cbn [processCheckESDTData].
      apply sbind_iff. exists z. split; [by apply natural_check_iff|]. f_equal. destruct d; simpl in *. by subst.
    + cbn [processCheckESDTData]. unfold processCheckESDTDataMap. apply sbind_iff.
      destruct Hi as (I1 & I2 & I3 & I4 & I5 & I6 & I7).
      assert (exists ld, loaded m false ld) as [ld Hl].
      { destruct (some_inst_dec m) as [Hs|Hs]; [exists true|exists false]; apply loaded_false; intuition congruence. }
      exists (mkCheckEsdt (xe_token d) others (xe_last d) (xe_roles d) (xe_frozen d), first, ld). split.
      * apply (check_data_iff files keccak m (wj_keys m Hv) (wj_values m Hv)). simpl. split_and!; assumption || reflexivity.
      * f_equal. apply (first_loaded m ld first _ _ Hl) in H2. destruct d; simpl in *. by subst.
Qed.
Lemma storage_iff kv x : wj (snd kv) ->
  storage_entry_of files keccak kv = SOk x <-> storage_entry files keccak kv x.
Proof.
  intros Hv. unfold storage_entry_of, storage_entry. rewrite sbind_iff. destruct x as [k t]; cbn [fst snd]. split.
  - intros (k' & Hk & H). apply sbind_iff in H as (t' & Ht & [= <- <-]). split; [by apply text_iff|by apply tree_iff].
  - intros [Hk Ht]. exists k. split; [by apply text_iff|]. apply sbind_iff. exists t. split; [by apply tree_iff|done].
Qed.

(** * Accounts *)

Definition appended {A} (R : bytes * json -> A -> Prop) (v : json) (d x : list A) : Prop :=
  exists l, map_of R v l /\ x = d ++ l.
(*ACCOUNT*)
Lemma account_field_iff k v b b' : wj v -> account_field files keccak k v b = SOk b' <->
  (k = str "comment" /\ exists y, text v y /\ b' = set_a_comment y b) \/
  (k = str "shard" /\ exists y, word files keccak v y /\ b' = set_a_shard y b) \/
  (k = str "nonce" /\ exists y, word files keccak v y /\ b' = set_a_nonce y b) \/
  (k = str "balance" /\ exists y, natural files keccak v y /\ b' = set_a_balance y b) \/
  (k = str "esdt" /\ exists y, (appended (token files keccak)) v (a_esdt b) y /\ b' = set_a_esdt y b) \/
  (k = str "username" /\ exists y, plain_bytes files keccak v y /\ b' = set_a_username y b) \/
  (k = str "storage" /\ exists y, (appended (storage_entry files keccak)) v (a_storage b) y /\ b' = set_a_storage y b) \/
  (k = str "code" /\ exists y, plain_bytes files keccak v y /\ b' = set_a_code y b) \/
  (k = str "owner" /\ exists y, plain_bytes files keccak v y /\ b' = set_a_owner y b) \/
  (k = str "asyncCallData" /\ exists y, text v y /\ b' = set_a_async y b).
Proof.
  intros Hv. one_field account_field.
  - apply sbind_iff in Hf as (m & Hm & Hf). apply sbind_iff in Hf as (l & Hl & Hf). injection Hf as <-.
    apply as_map_iff in Hm. subst v.
    assert (appended (token files keccak) (JMap m) (a_esdt b) (a_esdt b ++ l)).
    { exists l. split; [|done]. apply (map_iff (esdt_entry_of files keccak)); [done|apply token_iff|]. exact Hl. }
    pick.
  - apply sbind_iff in Hf as (m & Hm & Hf). apply sbind_iff in Hf as (l & Hl & Hf). injection Hf as <-.
    apply as_map_iff in Hm. subst v.
    assert (appended (storage_entry files keccak) (JMap m) (a_storage b) (a_storage b ++ l)).
    { exists l. split; [|done]. apply (map_iff (storage_entry_of files keccak)); [done|apply storage_iff|]. exact Hl. }
    pick.
  - destruct Hy as (l & Hl & ->). apply (map_iff (esdt_entry_of files keccak)) in Hl; [|done|apply token_iff].
    apply sbind_iff in Hl as (m & Hm & Hl). rewrite Hm. cbn [sbind]. by rewrite Hl.
  - destruct Hy as (l & Hl & ->). apply (map_iff (storage_entry_of files keccak)) in Hl; [|done|apply storage_iff].
    apply sbind_iff in Hl as (m & Hm & Hl). rewrite Hm. cbn [sbind]. by rewrite Hl.
Qed.
Lemma account_iff : forall m, NoDup (map fst m) -> Forall (fun kv => wj (snd kv)) m -> forall b x,
  over (account_field files keccak) m b = SOk x <->
  only m ["comment"; "shard"; "nonce"; "balance"; "esdt"; "username"; "storage"; "code"; "owner"; "asyncCallData"]%string /\
  at_gen m "comment" (fun v _ => text v) (a_comment b) (a_comment x) /\
  at_gen m "shard" (fun v _ => word files keccak v) (a_shard b) (a_shard x) /\
  at_gen m "nonce" (fun v _ => word files keccak v) (a_nonce b) (a_nonce x) /\
  at_gen m "balance" (fun v _ => natural files keccak v) (a_balance b) (a_balance x) /\
  at_gen m "esdt" (appended (token files keccak)) (a_esdt b) (a_esdt x) /\
  at_gen m "username" (fun v _ => plain_bytes files keccak v) (a_username b) (a_username x) /\
  at_gen m "storage" (appended (storage_entry files keccak)) (a_storage b) (a_storage x) /\
  at_gen m "code" (fun v _ => plain_bytes files keccak v) (a_code b) (a_code x) /\
  at_gen m "owner" (fun v _ => plain_bytes files keccak v) (a_owner b) (a_owner x) /\
  at_gen m "asyncCallData" (fun v _ => text v) (a_async b) (a_async x) /\
  a_address x = a_address b.
Proof. fields account_field_iff. Qed.

Lemma at_appended {A} m k (R : bytes * json -> A -> Prop) x :
  at_gen m k (appended R) [] x <-> at_key m k (map_of R) [] x.
Proof.
  apply at_from. intros v _. unfold appended. split.
  - by intros (l & Hl & ->).
  - intros H. by exists x.
Qed.
Lemma account_said_iff kv a : wj (snd kv) ->
  account_entry files keccak kv = SOk a <-> account_said files keccak kv a.
Proof.
  intros Hv. unfold account_entry, account_said, processAccount. rewrite sbind_iff. split.
  - intros (b & Hb & H). apply sbind_iff in H as (x & Hx & [= <-]). apply sbind_iff in Hb as (m & Hm & Hb).
    apply as_map_iff in Hm. rewrite Hm in Hv.
    apply (account_iff m (wj_keys m Hv) (wj_values m Hv)) in Hb. simpl in Hb. rewrite !at_appended in Hb.
    split; [by apply key_address_iff|]. exists m. split; [done|]. simpl. destruct_and! Hb. split_and!; assumption.
  - intros (Hk & m & Hm & H). rewrite Hm in Hv.
    exists (set_a_address (mkJBytes [] []) a). split.
    + apply sbind_iff. exists m. split; [by apply as_map_iff|].
      apply (account_iff m (wj_keys m Hv) (wj_values m Hv)). simpl. rewrite !at_appended.
      destruct_and! H. split_and!; assumption || reflexivity.
    + apply sbind_iff. exists (a_address a). split; [by apply key_address_iff|]. by destruct a.
Qed.
Lemma account_map_iff v l : wj v ->
  processAccountMap files keccak v = SOk l <-> map_of (account_said files keccak) v l.
Proof. intros Hv. apply map_iff; [done|]. apply account_said_iff. Qed.

(** * Accounts to be checked *)

Lemma plus_cons k v r more : k <> str "+" -> has_plus ((k, v) :: r) more <-> has_plus r more.
Proof.
  intros H. unfold has_plus, given. assert ((exists w, (str "+", w) ∈ (k, v) :: r) <-> (exists w, (str "+", w) ∈ r)) as ->; [|done].
  split; intros [w Hw]; exists w; [|by constructor]. apply elem_of_cons in Hw as [[=]|Hw]; [by subst|done].
Qed.
Lemma plus_here v r more : has_plus ((str "+", v) :: r) more <-> more = true.
Proof. unfold has_plus, given. split; [|intros ->; split; [intros _; exists v; constructor|done]]. intros H. apply H. exists v. constructor. Qed.
Lemma plus_nil more : has_plus [] more <-> more = false.
Proof.
  unfold has_plus, given. split.
  - intros H. destruct more; [|done]. destruct (proj1 H eq_refl) as [w Hw]. by apply elem_of_nil in Hw.
  - intros ->. split; [done|]. intros [w Hw]. by apply elem_of_nil in Hw.
Qed.
Lemma plus_dec m : exists more, has_plus m more.
Proof.
  induction m as [|[k v] r [more IH]]; [exists false; by apply plus_nil|].
  destruct (decide (k = str "+")) as [->|Hk]; [exists true; by apply plus_here|exists more; by apply plus_cons].
Qed.
Lemma plus_det m b b' : has_plus m b -> has_plus m b' -> b = b'.
Proof. unfold has_plus. intros H H'. apply eq_true_iff_eq. tauto. Qed.
Lemma key_plus k : key_is k "+" = bool_decide (k = str "+").
Proof. reflexivity. Qed.

(** The loop over a map in which "+" may stand: [put] adds what was read, [seen]
    notes the "+". *)
Lemma plus_loop {A B} (F : bytes -> json -> A -> sres A) (R : bytes * json -> B -> Prop)
    (put : list B -> bool -> A -> A) :
  (forall a, put [] false a = a) ->
  (forall l1 l2 m1 m2 a, put l2 m2 (put l1 m1 a) = put (l1 ++ l2) (m1 || m2) a) ->
  (forall v a, F (str "+") v a = SOk (put [] true a)) ->
  (forall k v a x, wj v -> k <> str "+" -> F k v a = SOk x <-> exists y, R (k, v) y /\ x = put [y] false a) ->
  forall m, NoDup (map fst m) -> Forall (fun kv => wj (snd kv)) m -> forall a x,
  over F m a = SOk x <-> exists more l, has_plus m more /\ Forall2 R (no_plus m) l /\ x = put l more a.
Proof.
  intros H0 Hp Hplus HF m. induction m as [|[k v] r IH]; intros Hn Hw a x.
  - cbn [over]. split.
    + intros [= <-]. exists false, []. split; [by apply plus_nil|]. split; [constructor|]. by rewrite H0.
    + intros (more & l & Hm & Hl & ->). apply plus_nil in Hm. subst more. inversion Hl; subst. by rewrite H0.
  - cbn [map fst] in Hn. apply NoDup_cons in Hn as [Hk Hn]. apply Forall_cons in Hw as [Hv Hw]. cbn [snd] in Hv.
    rewrite over_cons. unfold no_plus. rewrite filter_cons. cbn [fst].
    destruct (decide (k = str "+")) as [->|Hne].
    + rewrite decide_False by tauto. fold (no_plus r). split.
      * intros (a' & Ha & H). rewrite Hplus in Ha. injection Ha as <-. apply (IH Hn Hw) in H as (more & l & Hm & Hl & ->).
        exists true, l. split; [by apply plus_here|]. split; [done|]. by rewrite Hp.
      * intros (more & l & Hm & Hl & ->). apply plus_here in Hm. subst more. rewrite Hplus. eexists. split; [done|].
        apply (IH Hn Hw). destruct (plus_dec r) as [b Hb]. exists b, l. split; [done|]. split; [done|]. by rewrite Hp.
    + rewrite decide_True by done. fold (no_plus r). split.
      * intros (a' & Ha & H). apply (HF k v a a' Hv Hne) in Ha as (y & Hy & ->).
        apply (IH Hn Hw) in H as (more & l & Hm & Hl & ->). exists more, (y :: l).
        split; [by apply plus_cons|]. split; [by constructor|]. by rewrite Hp.
      * intros (more & l & Hm & Hl & ->). apply plus_cons in Hm; [|done]. inversion Hl as [|? y ? l' Hy Hl']; subst.
        exists (put [y] false a). split; [apply HF; [done|done|by exists y]|].
        apply (IH Hn Hw). exists more, l'. split; [done|]. split; [done|]. by rewrite Hp.
Qed.

Definition put_esdt (l : list check_esdt) (more : bool) (a : check_account) : check_account :=
  set_x_more_esdt (x_more_esdt a || more) (set_x_esdt (x_esdt a ++ l) a).
Definition put_storage (l : list (jbytes * cbytes)) (more : bool) (a : check_account) : check_account :=
  set_x_more_storage (x_more_storage a || more) (set_x_storage (x_storage a ++ l) a).
Lemma check_esdt_loop m a x : wj (JMap m) ->
  over (check_esdt_entry files keccak) m a = SOk x <->
  exists more l, has_plus m more /\ Forall2 (token_check files keccak) (no_plus m) l /\ x = put_esdt l more a.
Proof.
  intros Hw. apply plus_loop; [| | | |by apply wj_keys|by apply wj_values].
  - intros []. unfold put_esdt; simpl. by rewrite orb_false_r, app_nil_r.
  - intros l1 l2 m1 m2 []. unfold put_esdt; simpl. by rewrite orb_assoc, app_assoc.
  - intros v []. unfold check_esdt_entry, put_esdt. keys. simpl. by rewrite orb_true_r, app_nil_r.
  - intros k v b y Hv Hk. unfold check_esdt_entry. rewrite key_plus, bool_decide_false by done. split.
    + intros H. apply sbind_iff in H as (name & Hn & H). apply sbind_iff in H as (d & Hd & [= <-]).
      exists d. split.
      * apply token_check_iff; [done|]. apply sbind_iff. by exists name.
      * unfold put_esdt. destruct b; simpl. by rewrite orb_false_r.
    + intros (d & Hd & ->). apply token_check_iff in Hd; [|done]. apply sbind_iff in Hd as (name & Hn & Hd).
      cbn [fst snd] in *. rewrite Hn. cbn [sbind]. rewrite Hd. cbn [sbind]. unfold put_esdt. destruct b; simpl.
      by rewrite orb_false_r.
Qed.
Lemma check_storage_loop m a x : wj (JMap m) ->
  over (check_storage_entry files keccak) m a = SOk x <->
  exists more l, has_plus m more /\ Forall2 (storage_check files keccak) (no_plus m) l /\ x = put_storage l more a.
Proof.
  intros Hw. apply plus_loop; [| | | |by apply wj_keys|by apply wj_values].
  - intros []. unfold put_storage; simpl. by rewrite orb_false_r, app_nil_r.
  - intros l1 l2 m1 m2 []. unfold put_storage; simpl. by rewrite orb_assoc, app_assoc.
  - intros v []. unfold check_storage_entry, put_storage. keys. simpl. by rewrite orb_true_r, app_nil_r.
  - intros k v b y Hv Hk. unfold check_storage_entry, storage_check. rewrite key_plus, bool_decide_false by done. split.
    + intros H. apply sbind_iff in H as (name & Hn & H). apply sbind_iff in H as (d & Hd & [= <-]).
      exists (name, d). split.
      * cbn [fst snd]. split; [by apply text_iff|by apply bytes_check_iff].
      * unfold put_storage. destruct b; simpl. by rewrite orb_false_r.
    + intros ((name & d) & [Hn Hd] & ->). cbn [fst snd] in *. apply text_iff in Hn. apply bytes_check_iff in Hd; [|done].
      rewrite Hn. cbn [sbind]. rewrite Hd. cbn [sbind]. unfold put_storage. destruct b; simpl.
      by rewrite orb_false_r.
Qed.

(** A checked map, with what stood there before. *)
Definition map_appended {A} (R : bytes * json -> A -> Prop) (v : json) (d x : bool * bool * list A) : Prop :=
  (v = star /\ x = (true, snd (fst d), snd d)) \/
  (exists m more l, v = JMap m /\ x = (false, snd (fst d) || more, snd d ++ l) /\ has_plus m more /\ Forall2 R (no_plus m) l).
Lemma at_map_appended {A} m k (R : bytes * json -> A -> Prop) x :
  at_gen m k (map_appended R) (false, false, []) x <-> at_key m k (map_check R) (false, false, []) x.
Proof.
  apply at_from. intros v _. unfold map_appended, map_check. simpl. reflexivity.
Qed.
Definition get_esdt (a : check_account) := (x_ignore_esdt a, x_more_esdt a, x_esdt a).
Definition get_storage (a : check_account) := (x_ignore_storage a, x_more_storage a, x_storage a).
Definition set_all_esdt (y : bool * bool * list check_esdt) (a : check_account) : check_account :=
  set_x_ignore_esdt (fst (fst y)) (set_x_more_esdt (snd (fst y)) (set_x_esdt (snd y) a)).
Definition set_all_storage (y : bool * bool * list (jbytes * cbytes)) (a : check_account) : check_account :=
  set_x_ignore_storage (fst (fst y)) (set_x_more_storage (snd (fst y)) (set_x_storage (snd y) a)).
Lemma check_account_field_iff k v b b' : wj v -> check_account_field files keccak k v b = SOk b' <->
  (k = str "comment" /\ exists y, text v y /\ b' = set_x_comment y b) \/
  (k = str "nonce" /\ exists y, word_check files keccak v y /\ b' = set_x_nonce y b) \/
  (k = str "balance" /\ exists y, big_check (natural files keccak) v y /\ b' = set_x_balance y b) \/
  (k = str "esdt" /\ exists y, (map_appended (token_check files keccak)) v (get_esdt b) y /\ b' = set_all_esdt y b) \/
  (k = str "username" /\ exists y, bytes_check files keccak v y /\ b' = set_x_username y b) \/
  (k = str "storage" /\ exists y, (map_appended (storage_check files keccak)) v (get_storage b) y /\ b' = set_all_storage y b) \/
  (k = str "code" /\ exists y, bytes_check files keccak v y /\ b' = set_x_code y b) \/
  (k = str "owner" /\ exists y, bytes_check files keccak v y /\ b' = set_x_owner y b) \/
  (k = str "asyncCallData" /\ exists y, bytes_check files keccak v y /\ b' = set_x_async y b).
Proof.
  intros Hv. one_field check_account_field.
  - destruct (IsStar v) eqn:S.
    + apply star_iff in S. subst v. injection Hf as <-.
      assert (map_appended (token_check files keccak) star (get_esdt b) (true, x_more_esdt b, x_esdt b)) by (by left).
      replace (set_x_ignore_esdt true b) with (set_all_esdt (true, x_more_esdt b, x_esdt b) b) by (by destruct b).
      pick.
    + apply sbind_iff in Hf as (m & Hm & Hf). apply as_map_iff in Hm. subst v.
      apply check_esdt_loop in Hf; [|done]. destruct Hf as (more & l & Hp & Hl & ->).
      assert (map_appended (token_check files keccak) (JMap m) (get_esdt b) (false, x_more_esdt b || more, x_esdt b ++ l)).
      { right. exists m, more, l. done. }
      replace (put_esdt l more (set_x_ignore_esdt false b)) with
        (set_all_esdt (false, x_more_esdt b || more, x_esdt b ++ l) b) by (by destruct b).
      pick.
  - destruct (IsStar v) eqn:S.
    + apply star_iff in S. subst v. injection Hf as <-.
      assert (map_appended (storage_check files keccak) star (get_storage b) (true, x_more_storage b, x_storage b)) by (by left).
      replace (set_x_ignore_storage true b) with (set_all_storage (true, x_more_storage b, x_storage b) b) by (by destruct b).
      pick.
    + apply sbind_iff in Hf as (m & Hm & Hf). apply as_map_iff in Hm. subst v.
      apply check_storage_loop in Hf; [|done]. destruct Hf as (more & l & Hp & Hl & ->).
      assert (map_appended (storage_check files keccak) (JMap m) (get_storage b) (false, x_more_storage b || more, x_storage b ++ l)).
      { right. exists m, more, l. done. }
      replace (put_storage l more (set_x_ignore_storage false b)) with
        (set_all_storage (false, x_more_storage b || more, x_storage b ++ l) b) by (by destruct b).
      pick.
  - destruct Hy as [(-> & ->)|(m & more & l & -> & -> & Hp & Hl)].
    + f_equal; by destruct b.
    + assert (IsStar (JMap m) = false) as -> by done. cbn [as_map sbind]. apply check_esdt_loop; [done|].
      exists more, l. split; [done|]. split; [done|]. by destruct b.
  - destruct Hy as [(-> & ->)|(m & more & l & -> & -> & Hp & Hl)].
    + f_equal; by destruct b.
    + assert (IsStar (JMap m) = false) as -> by done. cbn [as_map sbind]. apply check_storage_loop; [done|].
      exists more, l. split; [done|]. split; [done|]. by destruct b.
Qed.
Lemma check_account_iff : forall m, NoDup (map fst m) -> Forall (fun kv => wj (snd kv)) m -> forall b x,
  over (check_account_field files keccak) m b = SOk x <->
  only m ["comment"; "nonce"; "balance"; "esdt"; "username"; "storage"; "code"; "owner"; "asyncCallData"]%string /\
  at_gen m "comment" (fun v _ => text v) (x_comment b) (x_comment x) /\
  at_gen m "nonce" (fun v _ => word_check files keccak v) (x_nonce b) (x_nonce x) /\
  at_gen m "balance" (fun v _ => big_check (natural files keccak) v) (x_balance b) (x_balance x) /\
  at_gen m "esdt" (map_appended (token_check files keccak)) (get_esdt b) (get_esdt x) /\
  at_gen m "username" (fun v _ => bytes_check files keccak v) (x_username b) (x_username x) /\
  at_gen m "storage" (map_appended (storage_check files keccak)) (get_storage b) (get_storage x) /\
  at_gen m "code" (fun v _ => bytes_check files keccak v) (x_code b) (x_code x) /\
  at_gen m "owner" (fun v _ => bytes_check files keccak v) (x_owner b) (x_owner x) /\
  at_gen m "asyncCallData" (fun v _ => bytes_check files keccak v) (x_async b) (x_async x) /\
  x_address x = x_address b.
Proof. unfold get_esdt, get_storage. fields check_account_field_iff. Qed.

End Accounts.
