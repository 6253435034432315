(** What the writer of scenarios writes is read again: values and tokens. *)
From Verif Require Import Base JsonModel JsonSpec JsonProofs JsonPrintProofs.
From Verif Require Import ScenParseModel ScenWriteModel RewriteSpec ReadProofs.
From stdpp Require Import list.
Local Open Scope Z_scope.

(** * Fields *)

Lemma over_step {A} (F : bytes -> json -> A -> sres A) b k v rest acc (g : bool -> A) :
  (b = true -> F (str k) v acc = SOk (g true)) -> g false = acc ->
  over F (field_if b k v ++ rest) acc = over F rest (g b).
Proof. intros H H0. destruct b; cbn [field_if field app over]; [by rewrite H|by rewrite H0]. Qed.
Lemma over_must {A} (F : bytes -> json -> A -> sres A) k v rest acc acc' :
  F (str k) v acc = SOk acc' -> over F (field k v ++ rest) acc = over F rest acc'.
Proof. intros H. cbn [field app over]. by rewrite H. Qed.

Definition okf (ks : list string) (l : list (bytes * json)) : Prop :=
  sublist (map fst l) (map str ks) /\ Forall (fun kv => wj (snd kv)) l.
Lemma okf_nil : okf [] [].
Proof. split; constructor. Qed.
Lemma okf_must k v ks l : wj v -> okf ks l -> okf (k :: ks) (field k v ++ l).
Proof. intros Hv [H1 H2]. split; cbn; by constructor. Qed.
Lemma okf_if b k v ks l : (b = true -> wj v) -> okf ks l -> okf (k :: ks) (field_if b k v ++ l).
Proof.
  intros Hv H. destruct b; [apply okf_must; auto|]. destruct H as [H1 H2]. cbn.
  split; [by constructor|done].
Qed.
Lemma okf_skip k ks l : okf ks l -> okf (k :: ks) l.
Proof. intros [H1 H2]. split; [by constructor|done]. Qed.
Definition plain (s : bytes) : bool :=
  forallb (fun c => negb (is c cQuote) && negb (is c cBackslash)) s.
Lemma sublist_distinct {A} (l k : list A) : sublist l k -> NoDup k -> NoDup l.
Proof.
  induction 1 as [|x l k H IH|x l k H IH]; intros Hn; [done|..]; apply NoDup_cons in Hn as [Hx Hn];
    [|auto]. constructor; [|auto]. intros Hin. apply Hx.
  eapply elem_of_submseteq; [exact Hin|by apply sublist_submseteq].
Qed.
Lemma okf_wj ks l :
  bool_decide (NoDup (map str ks)) && forallb plain (map str ks) = true -> okf ks l -> wj (JMap l).
Proof.
  intros [Hn Hq]%andb_true_iff [H1 H2]. apply bool_decide_eq_true in Hn. constructor.
  - rewrite Forall_forall in H2 |- *. intros kv Hkv. split; [|by apply H2].
    apply plain_quotable. rewrite forallb_forall in Hq. apply Hq. apply elem_of_list_In.
    eapply elem_of_submseteq; [|exact (sublist_submseteq _ _ H1)].
    apply elem_of_list_In, in_map, elem_of_list_In. exact Hkv.
  - by eapply sublist_distinct.
Qed.

Lemma okf_app ks1 ks2 l1 l2 : okf ks1 l1 -> okf ks2 l2 -> okf (ks1 ++ ks2) (l1 ++ l2).
Proof.
  intros [H1 H2] [H3 H4]. split; [|by apply Forall_app]. rewrite !map_app. by apply sublist_app.
Qed.

Lemma put_new m k v : k ∉ map fst m -> Put m k v = m ++ [(k, v)].
Proof.
  unfold Put. intros H. destruct (existsb _ m) eqn:E; [|done].
  apply existsb_exists in E as ([k' v'] & Hin & E). cbn in E. apply bool_decide_eq_true in E as ->.
  destruct H. apply elem_of_list_In. apply (in_map fst) in Hin. exact Hin.
Qed.
Lemma fold_put {A} (key : A -> bytes) (val : A -> json) l : forall m,
  NoDup (map fst m ++ map key l) ->
  fold_left (fun m x => Put m (key x) (val x)) l m = m ++ map (fun x => (key x, val x)) l.
Proof.
  induction l as [|x l IH]; intros m H; cbn [fold_left map]; [by rewrite app_nil_r|].
  cbn [map] in H. rewrite put_new.
  - rewrite IH; [by rewrite <- app_assoc|]. rewrite map_app, <- app_assoc. exact H.
  - intros Hin. apply NoDup_app in H as (_ & H & _). apply (H _ Hin). by constructor.
Qed.
Lemma put_each_ok {A} (f : A -> sres (bytes * json)) l kvs : forall m,
  each f l = SOk kvs -> NoDup (map fst m ++ map fst kvs) -> put_each f l m = SOk (m ++ kvs).
Proof.
  revert kvs. induction l as [|x l IH]; intros kvs m H Hn; cbn [each put_each] in *.
  - injection H as <-. by rewrite app_nil_r.
  - apply sbind_ok in H as (kv & Hkv & H). apply sbind_ok in H as (r & Hr & H). injection H as <-.
    rewrite Hkv. cbn [sbind map] in *. rewrite put_new.
    + rewrite (IH r); [by destruct kv; rewrite <- app_assoc|done|].
      rewrite map_app, <- app_assoc. exact Hn.
    + intros Hin. apply NoDup_app in Hn as (_ & Hn & _). apply (Hn _ Hin). by constructor.
Qed.

Lemma each_back {A B C} (w : A -> sres B) (f : B -> sres C) (P : B -> Prop) (R : A -> C -> Prop) l :
  (forall x, x ∈ l -> exists j y, w x = SOk j /\ P j /\ f j = SOk y /\ R x y) ->
  exists js ys, each w l = SOk js /\ Forall P js /\ each f js = SOk ys /\ Forall2 R l ys.
Proof.
  induction l as [|x l IH]; intros H; [exists [], []; repeat constructor|].
  destruct (H x) as (j & y & H1 & H2 & H3 & H4); [constructor|].
  destruct IH as (js & ys & H5 & H6 & H7 & H8); [intros z Hz; apply H; by constructor|].
  exists (j :: js), (y :: ys). cbn [each]. rewrite H1, H5, H3, H7. split_and!; try done; by constructor.
Qed.
Lemma each_pure {A B} (g : A -> B) l : each (fun x => SOk (g x)) l = SOk (map g l).
Proof. induction l as [|x l IH]; cbn [each map sbind]; [done|]. by rewrite IH. Qed.
Lemma each_back_pure {A B C} (w : A -> B) (f : B -> sres C) (P : B -> Prop) (R : A -> C -> Prop) l :
  (forall x, x ∈ l -> P (w x) /\ exists y, f (w x) = SOk y /\ R x y) ->
  Forall P (map w l) /\ exists ys, each f (map w l) = SOk ys /\ Forall2 R l ys.
Proof.
  intros H. destruct (each_back (fun x => SOk (w x)) f P R l) as (js & ys & H1 & H2 & H3 & H4).
  { intros x Hx. destruct (H x Hx) as (? & y & ? & ?). eauto 6. }
  rewrite each_pure in H1. injection H1 as <-. eauto.
Qed.
Lemma Forall2_map_eq {A B C} (p : A -> C) (q : B -> C) l r :
  Forall2 (fun x y => q y = p x) l r -> map q r = map p l.
Proof. induction 1 as [|x y l r H _ IH]; cbn [map]; [done|]. by f_equal. Qed.

Ltac keys :=
  repeat match goal with
  | |- context [key_is (str ?a) ?b] =>
      let r := eval vm_compute in (key_is (str a) b) in
      change (key_is (str a) b) with r
  end; cbv beta iota.
Ltac right_nested :=
  rewrite <- (app_nil_r (_ ++ _)); repeat rewrite <- app_assoc.

Tactic Notation "seg" constr(set) constr(proj) constr(x) "with" tactic1(rd) "via" tactic1(prove) :=
  match goal with
  | |- context [over ?F (field_if ?b ?k ?v ++ ?r) ?acc] =>
      rewrite (over_step F b k v r acc (fun bb => set (if bb then x else proj acc) acc));
      [cbv beta; rd | intros Hb'; prove |
       cbv beta iota; generalize acc; let y := fresh in intros y; destruct y; reflexivity]
  end.
Tactic Notation "must" constr(set) constr(x) "with" tactic1(rd) "via" tactic1(prove) :=
  match goal with
  | |- context [over ?F (field ?k ?v ++ ?r) ?acc] =>
      rewrite (over_must F k v r acc (set x acc));
      [rd | prove]
  end.

Section Back.
Context (files : bytes -> option bytes) (keccak : bytes -> bytes).
Notation bytes_of_text := (bytes_of_text files keccak).
Notation parseAccountAddress := (parseAccountAddress files keccak).
Notation processSubTreeAsByteArray := (processSubTreeAsByteArray files keccak).
Notation processBigInt := (processBigInt files keccak).
Notation processUint64 := (processUint64 files keccak).
Notation parseCheckBytes := (parseCheckBytes files keccak).
Notation processCheckBigInt := (processCheckBigInt files keccak).
Notation processCheckUint64 := (processCheckUint64 files keccak).
Notation good_bytes := (good_bytes files keccak).
Notation good_tree := (good_tree files keccak).
Notation good_big := (good_big files keccak).
Notation good_big0 := (good_big0 files keccak).
Notation good_uint := (good_uint files keccak).
Notation good_cbytes := (good_cbytes files keccak).
Notation good_cbytes0 := (good_cbytes0 files keccak).
Notation read_cbytes := (read_cbytes files keccak).
Notation good_cbig := (good_cbig files keccak).
Notation good_cuint := (good_cuint files keccak).
Notation read_cuint := (read_cuint files keccak).
Notation good_address := (good_address files keccak).
Notation read_address := (read_address files keccak).

(** * Values *)

Lemma bytes_zero b : good_bytes b -> jb_orig b = [] -> b = mkJBytes [] [].
Proof. intros [H _] Ho. rewrite Ho, text_nil in H. by injection H as <-. Qed.
Lemma bytes_text b : good_bytes b -> bytesFromStringToString b = jb_orig b.
Proof.
  intros H. unfold bytesFromStringToString. destruct (jb_orig b) eqn:E; [|done].
  by rewrite (bytes_zero _ H E).
Qed.
Lemma bytes_oj b : good_bytes b -> bytesFromStringToOJ b = JStr (jb_orig b).
Proof. intros H. unfold bytesFromStringToOJ. by rewrite bytes_text. Qed.
Lemma bytes_back b : good_bytes b ->
  processStringAsByteArray files keccak (bytesFromStringToOJ b) = SOk b /\ wj (bytesFromStringToOJ b).
Proof. intros H. rewrite bytes_oj by done. destruct H. split; [done|by constructor]. Qed.
Lemma address_bytes b : read_address b -> good_bytes b /\ jb_orig b <> [].
Proof.
  intros [H Hq]. unfold ScenParseModel.parseAccountAddress in H. destruct (jb_orig b) eqn:E; [done|].
  apply sbind_ok in H as (x & Hx & H). destruct (_ =? _)%nat; [|discriminate]. injection H as ->.
  split; [|done]. split; rewrite E; done.
Qed.
Lemma address_back b : read_address b ->
  address_field files keccak (bytesFromStringToOJ b) = SOk b /\ wj (bytesFromStringToOJ b).
Proof.
  intros H. destruct (address_bytes _ H) as [Hg _]. rewrite bytes_oj by done. destruct H.
  split; [done|by constructor].
Qed.
Lemma address_read b : good_address b -> jb_orig b <> [] -> read_address b.
Proof. by intros [->|H]. Qed.
Lemma tree_value t : good_tree t -> jt_orig t = JStr [] -> jt_value t = [].
Proof. intros [H _] E. rewrite E in H. injection H as H. by rewrite <- H. Qed.
Lemma tree_oj t : good_tree t -> bytesFromTreeToOJ t = jt_orig t.
Proof.
  intros H. unfold bytesFromTreeToOJ. destruct (jt_orig t) as [s| | |] eqn:E; try done.
  destruct s; [|done]. by rewrite (tree_value _ H E).
Qed.
Lemma tree_back t : good_tree t ->
  processSubTreeAsByteArray (bytesFromTreeToOJ t) = SOk t /\ wj (bytesFromTreeToOJ t).
Proof. intros H. by rewrite tree_oj. Qed.
Lemma big_back z : good_big z -> processBigInt (bigIntToOJ z) UnsignedBytes = SOk z /\ wj (bigIntToOJ z).
Proof. intros [H Hq]. split; [done|by constructor]. Qed.
Lemma big0_back z : good_big0 z -> jz_value z <> None \/ jz_orig z <> [] -> good_big z.
Proof. intros [->|H]; [|done]. cbn. intros [?|?]; done. Qed.
Lemma uint_back u : good_uint u -> processUint64 (uint64ToOJ u) = SOk u /\ wj (uint64ToOJ u).
Proof. intros [H Hq]. split; [done|by constructor]. Qed.
Lemma uint_zero u : good_uint u -> ju_orig u = [] -> u = mkJUint 0 [].
Proof. intros [H _] E. rewrite E in H. injection H as H. by subst. Qed.
Lemma cuint_back c : read_cuint c -> processCheckUint64 (checkUint64ToOJ c) = SOk c /\ wj (checkUint64ToOJ c).
Proof. intros [H Hq]. split; [done|by constructor]. Qed.
Lemma cuint_read c : good_cuint c -> cu_unspec c = false -> read_cuint c.
Proof. by intros [->|H]. Qed.
Lemma cuint_unspec c : good_cuint c -> cu_unspec c = true -> c = JSONCheckUint64Unspecified.
Proof.
  intros [->|[H _]] E; [done|]. unfold ScenParseModel.processCheckUint64 in H.
  destruct (IsStar _); [by injection H as <-|]. apply sbind_ok in H as (j & _ & H).
  by injection H as <-.
Qed.
Lemma read_cuint_spec c : read_cuint c -> cu_unspec c = false.
Proof.
  intros [H _]. unfold ScenParseModel.processCheckUint64 in H.
  destruct (IsStar _); [by injection H as <-|]. apply sbind_ok in H as (j & _ & H).
  by injection H as <-.
Qed.
Lemma read_cuint_zero c : read_cuint c -> cu_orig c = [] -> c = cuint_zero.
Proof. intros [H _] E. rewrite E in H. injection H as H. by subst. Qed.
Lemma cbig_back f c : good_cbig f c -> cz_unspec c = false ->
  processCheckBigInt (checkBigIntToOJ c) f = SOk c /\ wj (checkBigIntToOJ c).
Proof. intros [->|[H Hq]] E; [done|]. split; [done|by constructor]. Qed.
Lemma cbig_unspec f c : good_cbig f c -> cz_unspec c = true -> c = JSONCheckBigIntUnspecified.
Proof.
  intros [->|[H _]] E; [done|]. unfold ScenParseModel.processCheckBigInt in H.
  destruct (IsStar _); [by injection H as <-|]. apply sbind_ok in H as (j & _ & H).
  by injection H as <-.
Qed.
(** A condition as it is written. *)
Definition cb_json (c : cbytes) : json := match cb_orig c with Some v => v | None => JStr [] end.
Lemma cbytes_back c : read_cbytes c ->
  checkBytesToOJ c = SOk (cb_json c) /\ parseCheckBytes (cb_json c) = SOk c /\ wj (cb_json c).
Proof.
  intros (v & Hv & Hp & Hw). unfold checkBytesToOJ, cb_json. rewrite Hv. split; [|done].
  destruct v as [[|]| | |]; try done. cbn in Hp. injection Hp as <-. done.
Qed.
Lemma cbytes_read c : good_cbytes c -> cb_unspec c = false -> read_cbytes c.
Proof. by intros [->|H]. Qed.
Lemma read_cbytes_spec c : read_cbytes c -> cb_unspec c = false.
Proof.
  intros (v & _ & H & _). unfold ScenParseModel.parseCheckBytes in H.
  destruct (IsStar _); [by injection H as <-|]. apply sbind_ok in H as (j & _ & H).
  by injection H as <-.
Qed.
Lemma cbytes_unspec c : good_cbytes c -> cb_unspec c = true -> c = JSONCheckBytesUnspecified.
Proof. intros [->|H] E; [done|]. by rewrite read_cbytes_spec in E. Qed.
Lemma cbytes_if b k c : (b = true -> read_cbytes c) ->
  check_bytes_if b k c = SOk (field_if b k (cb_json c)).
Proof.
  intros H. unfold check_bytes_if. destruct b; [|done].
  destruct (cbytes_back c) as [-> _]; auto.
Qed.

(** A dropped value is the default one. *)
Lemma drop_uint u : good_uint u -> p_uint (if given (ju_orig u) then u else mkJUint 0 []) = p_uint u.
Proof. intros H. destruct (ju_orig u) eqn:E; [|done]. by rewrite (uint_zero _ H E). Qed.
Lemma drop_bytes b : good_bytes b -> p_bytes (if given (jb_orig b) then b else mkJBytes [] []) = p_bytes b.
Proof. intros H. destruct (jb_orig b) eqn:E; [|done]. by rewrite (bytes_zero _ H E). Qed.
Lemma drop_bytes_value b : p_bytes (if given (jb_value b) then b else mkJBytes [] []) = p_bytes b.
Proof. destruct b as [[|] o]; done. Qed.
Lemma drop_tree t : p_tree (if given (jt_value t) then t else jtree_zero) = p_tree t.
Proof. destruct t as [[|] o]; done. Qed.
Lemma drop_text s : (if given s then s else []) = s.
Proof. by destruct s. Qed.
Lemma drop_cuint c : read_cuint c -> p_cuint (if given (cu_orig c) then c else cuint_zero) = p_cuint c.
Proof. intros H. destruct (cu_orig c) eqn:E; [|done]. by rewrite (read_cuint_zero _ H E). Qed.
Lemma spec_cuint c : good_cuint c ->
  (if negb (cu_unspec c) then c else JSONCheckUint64Unspecified) = c.
Proof. intros H. destruct (cu_unspec c) eqn:E; [|done]. by rewrite (cuint_unspec _ H E). Qed.
Lemma spec_cbig f c : good_cbig f c ->
  (if negb (cz_unspec c) then c else JSONCheckBigIntUnspecified) = c.
Proof. intros H. destruct (cz_unspec c) eqn:E; [|done]. by rewrite (cbig_unspec _ _ H E). Qed.
Lemma spec_cbytes c : good_cbytes c ->
  (if negb (cb_unspec c) then c else JSONCheckBytesUnspecified) = c.
Proof. intros H. destruct (cb_unspec c) eqn:E; [|done]. by rewrite (cbytes_unspec _ H E). Qed.

Lemma given_true s : given s = true -> s <> [].
Proof. by destruct s. Qed.

(** * Tokens *)

Ltac inst_acc := cbn [set_ei_nonce set_ei_balance set_ei_creator set_ei_royalties set_ei_hash set_ei_uri
         set_ei_attributes ei_nonce ei_balance ei_creator ei_royalties ei_hash ei_uri ei_attributes].

Ltac inst_go := unfold instance_field, tryProcessESDTInstanceField; keys.

Lemma inst_back i : good_inst files keccak i -> jz_orig (ei_balance i) <> [] ->
  exists i', over (instance_field files keccak) (instance_fields i) esdt_inst_zero = SOk i' /\
    p_inst i' = p_inst i /\ instance_fields i <> [] /\
    okf ["nonce"; "balance"; "creator"; "royalties"; "hash"; "uri"; "attributes"]%string (instance_fields i).
Proof.
  intros (G1 & G2 & [G3 G3'] & [G4 G4'] & G5 & G6 & G7) Hb. apply big0_back in G2; [|auto].
  destruct (uint_back _ G1) as [N1 W1]. destruct (big_back _ G2) as [N2 W2].
  destruct (bytes_back _ G3) as [N3 W3]. destruct (uint_back _ G4) as [N4 W4].
  destruct (bytes_back _ G5) as [N5 W5]. destruct (tree_back _ G6) as [N6 W6].
  destruct (bytes_back _ G7) as [N7 W7].
  eexists. split_and!.
  - unfold instance_fields. right_nested. unfold esdt_inst_zero.
    seg set_ei_nonce ei_nonce (ei_nonce i) with (inst_acc) via (inst_go; by rewrite N1).
    seg set_ei_balance ei_balance (ei_balance i) with (inst_acc) via (inst_go; by rewrite N2).
    seg set_ei_creator ei_creator (ei_creator i) with (inst_acc) via (inst_go; rewrite N3; cbn [sbind];
      apply given_true in Hb'; destruct G3' as [E3| ->]; [by rewrite E3 in Hb'|done]).
    seg set_ei_royalties ei_royalties (ei_royalties i) with (inst_acc) via (inst_go; rewrite N4; cbn [sbind];
      destruct (Z.ltb_spec 10000 (ju_value (ei_royalties i))); [lia|done]).
    seg set_ei_hash ei_hash (ei_hash i) with (inst_acc) via (inst_go; by rewrite N5).
    seg set_ei_uri ei_uri (ei_uri i) with (inst_acc) via (inst_go; by rewrite N6).
    seg set_ei_attributes ei_attributes (ei_attributes i) with (inst_acc) via (inst_go; by rewrite N7).
    reflexivity.
  - unfold p_inst. inst_acc. f_equal; try apply drop_bytes; try apply drop_uint; auto using drop_tree.
    by destruct (jz_orig (ei_balance i)).
  - unfold instance_fields. destruct (jz_orig (ei_balance i)); [done|].
    by destruct (given (ju_orig (ei_nonce i))).
  - unfold instance_fields. right_nested. repeat apply okf_if; auto using okf_nil.
Qed.

Lemma esdt_loop l : forall first first' d b,
  over (instance_field files keccak) l first = SOk first' ->
  over (esdt_field files keccak) l (d, first, b) = SOk (d, first', b || some_of l).
Proof.
  induction l as [|[k v] l IH]; intros first first' d b H; cbn [over] in *.
  - injection H as <-. cbn. by rewrite orb_false_r.
  - apply sbind_ok in H as (x & Hx & H). unfold instance_field in Hx. unfold esdt_field at 1.
    destruct (tryProcessESDTInstanceField _ _ _ _ _) as [r|]; [|discriminate]. rewrite Hx. cbn [sbind].
    rewrite (IH _ _ _ _ H). cbn. by destruct b.
Qed.
Lemma text_list l : Forall quotable l -> processStringList (JList (map JStr l)) = SOk l /\ wj (JList (map JStr l)).
Proof.
  intros H. unfold processStringList. cbn [as_list sbind]. split.
  - induction l as [|x l IH]; [done|]. apply Forall_cons in H as [_ H]. cbn [map each parseString sbind].
    by rewrite IH.
  - constructor. rewrite Forall_map. eapply Forall_impl; [exact H|]. intros x Hx. by constructor.
Qed.

Lemma drop_roles (l : list bytes) : (if negb (bool_decide (l = [])) then l else []) = l.
Proof. by case_bool_decide; subst. Qed.

Definition token_tail (d : esdt_data) : list (bytes * json) :=
  field_if (given (ju_orig (ed_last d))) "lastNonce" (uint64ToOJ (ed_last d)) ++
  roles_field (ed_roles d) ++
  field_if (given (ju_orig (ed_frozen d))) "frozen" (uint64ToOJ (ed_frozen d)).
Ltac token_acc := cbn [set_ed_instances set_ed_last set_ed_roles set_ed_frozen ed_token ed_instances
  ed_last ed_roles ed_frozen].
Lemma token_tail_back d name insts first b : good_data files keccak d ->
  exists d', over (esdt_field files keccak) (token_tail d)
               (mkEsdtData name insts juint_zero [] juint_zero, first, b) = SOk (d', first, b) /\
    p_data d' = mkEsdtData (p_bytes name) (map p_inst insts) (p_uint (ed_last d)) (ed_roles d)
                  (p_uint (ed_frozen d)) /\
    ed_token d' = name /\ ed_instances d' = insts /\
    okf ["lastNonce"; "roles"; "frozen"]%string (token_tail d).
Proof.
  intros (G1 & G2 & G3 & G4 & G5). destruct (uint_back _ G3) as [N3 W3].
  destruct (uint_back _ G5) as [N5 W5]. destruct (text_list _ G4) as [N4 W4].
  eexists. split_and!.
  - unfold token_tail, roles_field. right_nested.
    match goal with |- over ?F (field_if ?b0 ?k ?v ++ ?r) ?acc = _ =>
      rewrite (over_step F b0 k v r acc (fun bb =>
        (mkEsdtData name insts (if bb then ed_last d else juint_zero) [] juint_zero, first, b))) end;
      [|intros _; unfold esdt_field, tryProcessESDTInstanceField; keys; by rewrite N3|done].
    match goal with |- over ?F (field_if ?b0 ?k ?v ++ ?r) (mkEsdtData _ _ ?x _ _, _, _) = _ =>
      rewrite (over_step F b0 k v r _ (fun bb =>
        (mkEsdtData name insts x (if bb then ed_roles d else []) juint_zero, first, b))) end;
      [|intros _; unfold esdt_field, tryProcessESDTInstanceField; keys; by rewrite N4|done].
    match goal with |- over ?F (field_if ?b0 ?k ?v ++ ?r) (mkEsdtData _ _ ?x ?y _, _, _) = _ =>
      rewrite (over_step F b0 k v r _ (fun bb =>
        (mkEsdtData name insts x y (if bb then ed_frozen d else juint_zero), first, b))) end;
      [|intros _; unfold esdt_field, tryProcessESDTInstanceField; keys; by rewrite N5|done].
    reflexivity.
  - unfold p_data. token_acc. rewrite drop_roles. f_equal; by apply drop_uint.
  - reflexivity.
  - reflexivity.
  - unfold token_tail, roles_field. right_nested. repeat apply okf_if; auto using okf_nil.
Qed.

Lemma insts_back l :
  Forall (good_inst files keccak) l -> Forall (fun i => jz_orig (ei_balance i) <> []) l ->
  wj (JList (map (fun i => JMap (instance_fields i)) l)) /\
  exists l', processESDTInstances files keccak (JList (map (fun i => JMap (instance_fields i)) l)) = SOk l' /\
    map p_inst l' = map p_inst l.
Proof.
  intros Hg Hb. destruct (each_back_pure (fun i => JMap (instance_fields i))
    (processESDTInstance files keccak) wj (fun i i' => p_inst i' = p_inst i) l) as (Hw & l' & Hl & H2).
  - intros i Hi. rewrite Forall_forall in Hg, Hb.
    destruct (inst_back i) as (i' & H1 & H2 & _ & H3); [by apply Hg|by apply Hb|]. split.
    + eapply okf_wj; [|exact H3]. by vm_compute.
    + exists i'. split; [exact H1|exact H2].
  - split; [by constructor|]. exists l'. split; [exact Hl|]. by apply Forall2_map_eq.
Qed.

Lemma token_back d : good_data files keccak d -> kept_token d ->
  wj (esdtItemToOJ d) /\
  exists d', processESDTData files keccak (ed_token d) (esdtItemToOJ d) = SOk d' /\ p_data d' = p_data d.
Proof.
  intros Hg [Hs Hl]. pose proof Hg as (G1 & G2 & G3 & G4 & G5). unfold esdtItemToOJ.
  destruct (isCompactESDT d) as [i|] eqn:E.
  - unfold isCompactESDT in E. destruct (ed_instances d) as [|i0 [|]] eqn:Ei; try done.
    destruct (ed_roles d) eqn:Er; [|done].
    destruct (given (ju_orig (ei_nonce i0))) eqn:En; [done|].
    destruct (given (ju_orig (ed_frozen d))) eqn:Ef; [done|]. injection E as <-.
    assert (ju_orig (ei_nonce i0) = []) as En' by by destruct (ju_orig (ei_nonce i0)).
    assert (ju_orig (ed_frozen d) = []) as Ef' by by destruct (ju_orig (ed_frozen d)).
    destruct Hs as [Hlast Hrest]; [exists i0; auto|]. apply Forall_cons in Hrest as [Hrest _].
    destruct Hrest as (H1 & H2 & H3 & H4 & H5 & H6).
    apply Forall_cons in G2 as [(I1 & I2 & I3 & I4 & I5 & I6 & I7) _].
    apply big0_back in I2; [|auto]. destruct (big_back _ I2) as [N W]. split; [exact W|].
    eexists. split.
    + unfold processESDTData, bigIntToOJ in *. rewrite N. reflexivity.
    + unfold p_data. token_acc. rewrite Ei, Er. cbn [map]. unfold p_inst. inst_acc.
      unfold p_uint, p_bytes, p_tree. rewrite Hlast, H2, H3, H4, H5, H6.
      rewrite (uint_zero _ I1 En'), (uint_zero _ G5 Ef'). reflexivity.
  - assert (~ short d) as Hns.
    { intros (i & H1 & H2 & H3 & H4). unfold isCompactESDT in E. by rewrite H1, H2, H3, H4 in E. }
    specialize (Hl Hns).
    assert ((exists i, ed_instances d = [i]) \/
      match ed_instances d with
      | [i] => instance_fields i
      | l => field "instances" (JList (map (fun i => JMap (instance_fields i)) l))
      end = field "instances" (JList (map (fun i => JMap (instance_fields i)) (ed_instances d))))
      as [[i Hi]|Hi].
    { destruct (ed_instances d) as [|i [|]]; eauto. }
    + rewrite Hi in Hl, G2 |- *. apply Forall_cons in Hl as [Hb _]. apply Forall_cons in G2 as [Gi _].
      destruct (inst_back i Gi Hb) as (i' & H1 & H2 & H3 & H4).
      destruct (token_tail_back d (ed_token d) [] i' true Hg) as (d' & T1 & T2 & T3 & T4 & T5).
      split.
      * pose proof (okf_app _ _ _ _ H4 T5) as Ho. eapply okf_wj; [|exact Ho]. by vm_compute.
      * exists (set_ed_instances [i'] d'). split.
        -- unfold processESDTData, processESDTDataMap. change (_ ++ _ ++ _ ++ _) with (instance_fields i ++ token_tail d).
           rewrite over_app, (esdt_loop _ _ _ _ _ H1). destruct (instance_fields i); [done|].
           cbn [orb some_of sbind]. rewrite T1. cbn [sbind]. by rewrite T4.
        -- transitivity (set_ed_instances [p_inst i'] (p_data d')); [reflexivity|].
           rewrite T2, H2. unfold p_data. rewrite Hi. reflexivity.
    + rewrite Hi. destruct (insts_back _ G2 Hl) as (W & l' & L1 & L2).
      destruct (token_tail_back d (ed_token d) l' esdt_inst_zero false Hg) as (d' & T1 & T2 & T3 & T4 & T5).
      split.
      * pose proof (okf_must "instances" _ _ _ W T5) as Ho. eapply okf_wj; [|exact Ho]. by vm_compute.
      * exists d'. split.
        -- unfold processESDTData, processESDTDataMap. change (_ ++ _ ++ _ ++ _) with
             (field "instances" (JList (map (fun i => JMap (instance_fields i)) (ed_instances d))) ++ token_tail d).
           rewrite (over_must _ _ _ _ _ (mkEsdtData (ed_token d) l' juint_zero [] juint_zero, esdt_inst_zero, false)).
           ++ rewrite T1. cbn [sbind app]. f_equal. destruct d'. cbn in *. by subst.
           ++ unfold esdt_field, tryProcessESDTInstanceField. keys. by rewrite L1.
        -- rewrite T2, L2. done.
Qed.

(** * Conditions on tokens *)

Ltac cinst_acc := cbn [set_xi_nonce set_xi_balance set_xi_creator set_xi_royalties set_xi_hash set_xi_uri
         set_xi_attributes xi_nonce xi_balance xi_creator xi_royalties xi_hash xi_uri xi_attributes].
Ltac cinst_go := unfold check_instance_field, tryProcessCheckESDTInstanceField; keys.

Definition told (c : cbytes) : bool := negb (cb_unspec c) && given (cb_value c).
Definition told_number (c : cuint) : bool := negb (cu_unspec c) && given (cu_orig c).

Lemma told_read c : good_cbytes0 c -> told c = true -> read_cbytes c.
Proof. intros [->|[->|H]] E; done. Qed.
Lemma told_meta n c : kept_meta n c ->
  p_meta n (if told c then c else JSONCheckBytesUnspecified) = p_meta n c.
Proof.
  unfold kept_meta, told, p_meta. intros H. destruct (cb_unspec c) eqn:E; cbn [negb andb orb].
  - done.
  - destruct (cb_value c) eqn:Ev; cbn [given]; [|by rewrite E, Ev].
    cbn [cb_unspec JSONCheckBytesUnspecified orb]. destruct (cb_star c); [done|].
    destruct H as [->|[H|H]]; done.
Qed.
Lemma told_number_meta n c : good_cuint c -> (cu_orig c = [] -> n = 0 \/ cu_unspec c = true) ->
  p_meta_number n (if told_number c then c else JSONCheckUint64Unspecified) = p_meta_number n c.
Proof.
  unfold told_number, p_meta_number. intros Hg H. destruct (cu_unspec c) eqn:E; cbn [negb andb orb]; [done|].
  destruct (cu_orig c) eqn:Eo; cbn [given]; [|by rewrite E].
  apply cuint_read in Hg; [|done]. rewrite (read_cuint_zero _ Hg Eo).
  destruct H as [->|H]; done.
Qed.
Lemma cuint_number c : good_cuint c ->
  cu_value (if given (cu_orig c) then c else JSONCheckUint64Unspecified) = cu_value c.
Proof.
  intros [->|H]; [done|]. destruct (cu_orig c) eqn:E; [|done]. by rewrite (read_cuint_zero _ H E).
Qed.
Lemma cuint_given c : good_cuint c -> given (cu_orig c) = true -> read_cuint c.
Proof. by intros [->|H]. Qed.
Lemma cbig_given f c : good_cbig f c -> given (cz_orig c) = true -> cz_unspec c = false.
Proof.
  intros H E. destruct (cz_unspec c) eqn:Eu; [|done]. by rewrite (cbig_unspec _ _ H Eu) in E.
Qed.
Lemma cbig_number c : good_cbig UnsignedBytes c ->
  mkCBig (cz_value (if given (cz_orig c) then c else JSONCheckBigIntUnspecified))
         (cz_star (if given (cz_orig c) then c else JSONCheckBigIntUnspecified)) [] false =
  mkCBig (cz_value c) (cz_star c) [] false.
Proof.
  intros [->|[H _]]; [done|]. destruct (cz_orig c) eqn:E; [|done]. injection H as <-. done.
Qed.

Lemma check_inst_back i : good_check_inst files keccak i -> kept_check_inst i ->
  exists l i', check_instance_fields i = SOk l /\
    over (check_instance_field files keccak) l NewCheckESDTInstance = SOk i' /\
    p_check_inst i' = p_check_inst i /\
    (cu_orig (xi_nonce i) <> [] \/ cz_orig (xi_balance i) <> [] -> l <> []) /\
    okf ["nonce"; "balance"; "creator"; "royalties"; "hash"; "uri"; "attributes"]%string l.
Proof.
  intros (G1 & G2 & G3 & [G4 G4'] & G5 & G6 & G7) (K1 & K2 & K3 & K4 & K5 & K6).
  unfold check_instance_fields.
  rewrite (cbytes_if _ _ _ (told_read _ G3)), (cbytes_if _ _ _ (told_read _ G5)),
    (cbytes_if _ _ _ (told_read _ G7)). cbn [sbind].
  rewrite K5. cbn [given]. rewrite andb_false_r. cbn [check_bytes_if sbind].
  fold (told (xi_creator i)) (told (xi_hash i)) (told (xi_attributes i)) (told_number (xi_royalties i)).
  eexists _, _. split_and!; [reflexivity|..].
  - right_nested. unfold NewCheckESDTInstance.
    seg set_xi_nonce xi_nonce (xi_nonce i) with (cinst_acc) via
      (cinst_go; destruct (cuint_back _ (cuint_given _ G1 Hb')) as [N _]; by rewrite N).
    seg set_xi_balance xi_balance (xi_balance i) with (cinst_acc) via
      (cinst_go; destruct (cbig_back _ _ G2 (cbig_given _ _ G2 Hb')) as [N _]; by rewrite N).
    seg set_xi_creator xi_creator (xi_creator i) with (cinst_acc) via
      (cinst_go; destruct (cbytes_back _ (told_read _ G3 Hb')) as (_ & N & _); by rewrite N).
    seg set_xi_royalties xi_royalties (xi_royalties i) with (cinst_acc) via
      (apply andb_true_iff in Hb' as [_ Hb']; cinst_go;
       destruct (cuint_back _ (cuint_given _ G4 Hb')) as [N _]; rewrite N; cbn [sbind];
       destruct (Z.ltb_spec 10000 (cu_value (xi_royalties i))); [lia|done]).
    seg set_xi_hash xi_hash (xi_hash i) with (cinst_acc) via
      (cinst_go; destruct (cbytes_back _ (told_read _ G5 Hb')) as (_ & N & _); by rewrite N).
    cbn [app].
    seg set_xi_attributes xi_attributes (xi_attributes i) with (cinst_acc) via
      (cinst_go; destruct (cbytes_back _ (told_read _ G7 Hb')) as (_ & N & _); by rewrite N).
    reflexivity.
  - unfold p_check_inst. cinst_acc. rewrite (cuint_number _ G1), (cbig_number _ G2).
    rewrite !told_meta, told_number_meta by done. f_equal.
    rewrite <- (told_meta _ (xi_uri i)) by done. unfold told. by rewrite K5, andb_false_r.
  - intros H. destruct H as [H|H].
    + by destruct (cu_orig (xi_nonce i)).
    + destruct (given (cu_orig (xi_nonce i))); [done|]. by destruct (cz_orig (xi_balance i)).
  - right_nested. apply okf_if; [|apply okf_if; [|apply okf_if; [|apply okf_if; [|apply okf_if;
      [|apply okf_skip, okf_if; [|apply okf_nil]]]]]].
    + intros Hb. by destruct (cuint_back _ (cuint_given _ G1 Hb)).
    + intros Hb. by destruct (cbig_back _ _ G2 (cbig_given _ _ G2 Hb)).
    + intros Hb. by destruct (cbytes_back _ (told_read _ G3 Hb)) as (_ & _ & ?).
    + intros [_ Hb]%andb_true_iff. by destruct (cuint_back _ (cuint_given _ G4 Hb)).
    + intros Hb. by destruct (cbytes_back _ (told_read _ G5 Hb)) as (_ & _ & ?).
    + intros Hb. by destruct (cbytes_back _ (told_read _ G7 Hb)) as (_ & _ & ?).
Qed.

Lemma check_esdt_loop l : forall first first' d b,
  over (check_instance_field files keccak) l first = SOk first' ->
  over (check_esdt_field files keccak) l (d, first, b) = SOk (d, first', b || some_of l).
Proof.
  induction l as [|[k v] l IH]; intros first first' d b H; cbn [over] in *.
  - injection H as <-. cbn. by rewrite orb_false_r.
  - apply sbind_ok in H as (x & Hx & H). unfold check_instance_field in Hx. unfold check_esdt_field at 1.
    destruct (tryProcessCheckESDTInstanceField _ _ _ _ _) as [r|]; [|discriminate]. rewrite Hx. cbn [sbind].
    rewrite (IH _ _ _ _ H). cbn. by destruct b.
Qed.
Definition check_token_tail (d : check_esdt) : list (bytes * json) :=
  field_if (given (cu_orig (xe_last d))) "lastNonce" (checkUint64ToOJ (xe_last d)) ++
  roles_field (xe_roles d) ++
  field_if (given (cu_orig (xe_frozen d))) "frozen" (checkUint64ToOJ (xe_frozen d)).
Ltac check_token_acc := cbn [set_xe_instances set_xe_last set_xe_roles set_xe_frozen xe_token xe_instances
  xe_last xe_roles xe_frozen].
Lemma check_token_tail_back d name insts first b : good_check_esdt files keccak d ->
  exists d', over (check_esdt_field files keccak) (check_token_tail d)
               (mkCheckEsdt name insts cuint_zero [] cuint_zero, first, b) = SOk (d', first, b) /\
    p_check_esdt d' = mkCheckEsdt (p_bytes name) (map p_check_inst insts) (p_cuint (xe_last d)) (xe_roles d)
                  (p_cuint (xe_frozen d)) /\
    xe_token d' = name /\ xe_instances d' = insts /\
    okf ["lastNonce"; "roles"; "frozen"]%string (check_token_tail d).
Proof.
  intros (G1 & G2 & G3 & G4 & G5). destruct (cuint_back _ G3) as [N3 W3].
  destruct (cuint_back _ G5) as [N5 W5]. destruct (text_list _ G4) as [N4 W4].
  eexists. split_and!.
  - unfold check_token_tail, roles_field. right_nested.
    match goal with |- over ?F (field_if ?b0 ?k ?v ++ ?r) ?acc = _ =>
      rewrite (over_step F b0 k v r acc (fun bb =>
        (mkCheckEsdt name insts (if bb then xe_last d else cuint_zero) [] cuint_zero, first, b))) end;
      [|intros _; unfold check_esdt_field, tryProcessCheckESDTInstanceField; keys; by rewrite N3|done].
    match goal with |- over ?F (field_if ?b0 ?k ?v ++ ?r) (mkCheckEsdt _ _ ?x _ _, _, _) = _ =>
      rewrite (over_step F b0 k v r _ (fun bb =>
        (mkCheckEsdt name insts x (if bb then xe_roles d else []) cuint_zero, first, b))) end;
      [|intros _; unfold check_esdt_field, tryProcessCheckESDTInstanceField; keys; by rewrite N4|done].
    match goal with |- over ?F (field_if ?b0 ?k ?v ++ ?r) (mkCheckEsdt _ _ ?x ?y _, _, _) = _ =>
      rewrite (over_step F b0 k v r _ (fun bb =>
        (mkCheckEsdt name insts x y (if bb then xe_frozen d else cuint_zero), first, b))) end;
      [|intros _; unfold check_esdt_field, tryProcessCheckESDTInstanceField; keys; by rewrite N5|done].
    reflexivity.
  - unfold p_check_esdt. check_token_acc. rewrite drop_roles. f_equal; by apply drop_cuint.
  - reflexivity.
  - reflexivity.
  - unfold check_token_tail, roles_field. right_nested. repeat apply okf_if; auto using okf_nil.
Qed.

Lemma check_insts_back l :
  Forall (good_check_inst files keccak) l -> Forall kept_check_inst l ->
  exists js l', each (fun i => sbind (check_instance_fields i) (fun m => SOk (JMap m))) l = SOk js /\
    wj (JList js) /\ processCheckESDTInstances files keccak (JList js) = SOk l' /\
    map p_check_inst l' = map p_check_inst l.
Proof.
  intros Hg Hk. destruct (each_back (fun i => sbind (check_instance_fields i) (fun m => SOk (JMap m)))
    (processCheckESDTInstance files keccak) wj (fun i i' => p_check_inst i' = p_check_inst i) l)
    as (js & l' & H1 & H2 & H3 & H4).
  - intros i Hi. rewrite Forall_forall in Hg, Hk.
    destruct (check_inst_back i) as (m & i' & H1 & H2 & H3 & _ & H4); [by apply Hg|by apply Hk|].
    exists (JMap m), i'. rewrite H1. split_and!; [done| |exact H2|exact H3].
    eapply okf_wj; [|exact H4]. by vm_compute.
  - exists js, l'. split_and!; [done|by constructor|exact H3|by apply Forall2_map_eq].
Qed.

Lemma check_token_back d : good_check_esdt files keccak d -> kept_check_token d ->
  exists j d', checkESDTItemToOJ d = SOk j /\ wj j /\
    processCheckESDTData files keccak (xe_token d) j = SOk d' /\ p_check_esdt d' = p_check_esdt d.
Proof.
  intros Hg [Hs Hl]. pose proof Hg as (G1 & G2 & G3 & G4 & G5). unfold checkESDTItemToOJ.
  destruct (isCompactCheckESDT d) as [i|] eqn:E.
  - unfold isCompactCheckESDT in E. destruct (xe_instances d) as [|i0 [|]] eqn:Ei; try done.
    destruct (xe_roles d) eqn:Er; [|done].
    destruct (given (cu_orig (xi_nonce i0))) eqn:En; [done|].
    destruct (given (cu_orig (xe_frozen d))) eqn:Ef; [done|]. injection E as <-.
    assert (cu_orig (xi_nonce i0) = []) as En' by by destruct (cu_orig (xi_nonce i0)).
    assert (cu_orig (xe_frozen d) = []) as Ef' by by destruct (cu_orig (xe_frozen d)).
    destruct Hs as (Hlast & Hstar & Hrest); [exists i0; auto|]. apply Forall_cons in Hrest as [Hrest _].
    destruct Hrest as (H2 & H3 & H4 & H5 & H6).
    apply Forall_cons in G2 as [(I1 & I2 & I3 & I4 & I5 & I6 & I7) _].
    assert (cu_value (xi_nonce i0) = 0) as Hn.
    { rewrite <- (cuint_number _ I1). by rewrite En. }
    assert (exists z, processCheckBigInt (checkBigIntToOJ (xi_balance i0)) UnsignedBytes = SOk z /\
      cz_value z = cz_value (xi_balance i0) /\ cz_star z = cz_star (xi_balance i0) /\
      wj (checkBigIntToOJ (xi_balance i0))) as (z & Z1 & Z2 & Z3 & Z4).
    { destruct I2 as [->|[I2 Iq]].
      - eexists. split; [reflexivity|]. split_and!; [done..|]. constructor. apply nil_quotable.
      - exists (xi_balance i0). split_and!; try done. by constructor. }
    eexists _, _. split_and!; [reflexivity|exact Z4| |].
    + unfold processCheckESDTData, checkBigIntToOJ in *. rewrite Z1. reflexivity.
    + unfold p_check_esdt. check_token_acc. rewrite Ei, Er. cbn [map]. unfold p_check_inst. cinst_acc.
      rewrite Hn, Z2, Z3. cbn [cu_value cuint_zero].
      assert (forall c, cb_value c = [] -> p_meta 0 cbytes_zero = p_meta 0 c) as Hm.
      { intros c Hc. unfold p_meta. rewrite Hc. by destruct (cb_unspec c || cb_star c). }
      assert (p_meta_number 0 cuint_zero = p_meta_number 0 (xi_royalties i0)) as Hr.
      { unfold p_meta_number. rewrite H3. by destruct (cu_unspec (xi_royalties i0) || cu_star (xi_royalties i0)). }
      rewrite <- (Hm _ H2), <- (Hm _ H4), <- (Hm _ H5), <- (Hm _ H6), <- Hr.
      rewrite (read_cuint_zero _ G5 Ef'). f_equal. unfold p_cuint.
      by rewrite Hlast, Hstar, (read_cuint_spec _ G3).
  - assert (~ short_check d) as Hns.
    { intros (i & H1 & H2 & H3 & H4). unfold isCompactCheckESDT in E. by rewrite H1, H2, H3, H4 in E. }
    destruct (Hl Hns) as [Hk Hone].
    assert ((exists i, xe_instances d = [i]) \/
      match xe_instances d with
      | [i] => check_instance_fields i
      | l => sbind (each (fun i => sbind (check_instance_fields i) (fun m => SOk (JMap m))) l)
               (fun x => SOk (field "instances" (JList x)))
      end = sbind (each (fun i => sbind (check_instance_fields i) (fun m => SOk (JMap m))) (xe_instances d))
               (fun x => SOk (field "instances" (JList x))))
      as [[i Hi]|Hi].
    { destruct (xe_instances d) as [|i [|]]; eauto. }
    + rewrite Hi in Hk, G2 |- *. specialize (Hone i Hi). apply Forall_cons in Hk as [Hk _].
      apply Forall_cons in G2 as [Gi _].
      destruct (check_inst_back i Gi Hk) as (l & i' & H1 & H2 & H3 & H4 & H5).
      destruct (check_token_tail_back d (xe_token d) [] i' true Hg) as (d' & T1 & T2 & T3 & T4 & T5).
      rewrite H1. cbn [sbind]. exists (JMap (l ++ check_token_tail d)), (set_xe_instances [i'] d').
      split_and!; [reflexivity|..].
      * pose proof (okf_app _ _ _ _ H5 T5) as Ho. eapply okf_wj; [|exact Ho]. by vm_compute.
      * unfold processCheckESDTData, processCheckESDTDataMap.
        rewrite over_app, (check_esdt_loop _ _ _ _ _ H2). specialize (H4 Hone). destruct l; [done|].
        cbn [orb some_of sbind]. rewrite T1. cbn [sbind]. by rewrite T4.
      * transitivity (set_xe_instances [p_check_inst i'] (p_check_esdt d')); [reflexivity|].
        rewrite T2, H3. unfold p_check_esdt. rewrite Hi. reflexivity.
    + rewrite Hi. destruct (check_insts_back _ G2 Hk) as (js & l' & L1 & W & L2 & L3).
      destruct (check_token_tail_back d (xe_token d) l' NewCheckESDTInstance false Hg) as (d' & T1 & T2 & T3 & T4 & T5).
      rewrite L1. cbn [sbind].
      exists (JMap (field "instances" (JList js) ++ check_token_tail d)), d'. split_and!; [reflexivity|..].
      * pose proof (okf_must "instances" _ _ _ W T5) as Ho. eapply okf_wj; [|exact Ho]. by vm_compute.
      * unfold processCheckESDTData, processCheckESDTDataMap.
        rewrite (over_must _ _ _ _ _ (mkCheckEsdt (xe_token d) l' cuint_zero [] cuint_zero, NewCheckESDTInstance, false)).
        -- rewrite T1. cbn [sbind app]. f_equal. destruct d'. cbn in *. by subst.
        -- unfold check_esdt_field, tryProcessCheckESDTInstanceField. keys. by rewrite L2.
      * rewrite T2, L3. done.
Qed.

End Back.
