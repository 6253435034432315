(** What the reader of scenarios returns: every value is what its text denotes,
    and the texts can be written. *)
From Verif Require Import Base JsonModel JsonSpec JsonProofs JsonPrintProofs.
From Verif Require Import ScenParseModel.
From stdpp Require Import list.
Local Open Scope Z_scope.

Notation wj := (writable quotable).

(** * Loops *)

Lemma sbind_ok {A B} (r : sres A) (k : A -> sres B) b :
  sbind r k = SOk b -> exists a, r = SOk a /\ k a = SOk b.
Proof. destruct r; cbn [sbind]; intros H; [eauto|discriminate H|discriminate H]. Qed.

Lemma over_app {A} f (l1 l2 : list (bytes * json)) (a : A) :
  over f (l1 ++ l2) a = sbind (over f l1 a) (over f l2).
Proof.
  revert a. induction l1 as [|[k v] l1 IH]; intros a; cbn [app over sbind]; [done|].
  destruct (f k v a) as [a'| |]; cbn [sbind]; [apply IH|done|done].
Qed.

Lemma over_seen {A} (f : bytes -> json -> A -> sres A) (P : list bytes -> A -> Prop) l :
  forall seen a a', NoDup (map fst l) ->
  (forall k, k ∈ seen -> k ∉ map fst l) ->
  (forall seen k v x x', (k, v) ∈ l -> k ∉ seen -> P seen x -> f k v x = SOk x' -> P (k :: seen) x') ->
  P seen a -> over f l a = SOk a' -> exists seen', P seen' a'.
Proof.
  induction l as [|[k v] l IH]; intros seen a a' Hn Hs Hf Hp H; cbn [over] in H.
  - injection H as <-. eauto.
  - apply sbind_ok in H as (x & Hx & H). cbn [map fst] in Hn, Hs. apply NoDup_cons in Hn as [Hk Hn].
    eapply (IH (k :: seen) x a' Hn); [| | |exact H].
    + intros k' Hk'. apply elem_of_cons in Hk' as [->|Hk']; [done|].
      intros Hin. apply (Hs k' Hk'). by constructor.
    + intros seen' k' v' y y' Hin. apply Hf. by constructor.
    + eapply Hf; [constructor| |exact Hp|exact Hx]. intros Hin. apply (Hs k Hin). constructor.
Qed.
Lemma over_inv {A} (f : bytes -> json -> A -> sres A) (P : A -> Prop) l :
  forall a a', (forall k v x x', (k, v) ∈ l -> P x -> f k v x = SOk x' -> P x') ->
  P a -> over f l a = SOk a' -> P a'.
Proof.
  induction l as [|[k v] l IH]; intros a a' Hf Hp H; cbn [over] in H.
  - by injection H as <-.
  - apply sbind_ok in H as (x & Hx & H). eapply IH; [| |exact H].
    + intros k' v' y y' Hin. apply Hf. by constructor.
    + eapply Hf; [constructor|exact Hp|exact Hx].
Qed.

Lemma each_ok {A B} (f : A -> sres B) l : forall r, each f l = SOk r ->
  Forall2 (fun x y => f x = SOk y) l r.
Proof.
  induction l as [|x l IH]; intros r H; cbn [each] in H; [injection H as <-; constructor|].
  apply sbind_ok in H as (y & Hy & H). apply sbind_ok in H as (ys & Hys & H). injection H as <-.
  constructor; auto.
Qed.
Lemma each_intro {A B} (f : A -> sres B) l r :
  Forall2 (fun x y => f x = SOk y) l r -> each f l = SOk r.
Proof. induction 1 as [|x y l r H _ IH]; cbn [each]; [done|]. by rewrite H, IH. Qed.

Lemma each_good {A B} (P : A -> Prop) (Q : B -> Prop) (f : A -> sres B) l r :
  (forall x y, P x -> f x = SOk y -> Q y) -> Forall P l -> each f l = SOk r -> Forall Q r.
Proof.
  intros Hf Hp H. apply each_ok in H. induction H as [|x y l r Hxy _ IH]; [constructor|].
  apply Forall_cons in Hp as [Hx Hp]. constructor; eauto.
Qed.

Lemma wj_map m : wj (JMap m) -> Forall (fun kv => quotable (fst kv) /\ wj (snd kv)) m /\ NoDup (map fst m).
Proof. inversion 1; subst; auto. Qed.
Lemma wj_in m k v : wj (JMap m) -> (k, v) ∈ m -> quotable k /\ wj v.
Proof. intros [H _]%wj_map Hin. rewrite Forall_forall in H. exact (H _ Hin). Qed.
Lemma wj_list l : wj (JList l) -> Forall wj l.
Proof. inversion 1; subst; auto. Qed.
Lemma wj_str s : wj (JStr s) -> quotable s.
Proof. inversion 1; subst; auto. Qed.

Lemma plain_quotable s :
  forallb (fun c => negb (is c cQuote) && negb (is c cBackslash)) s = true -> quotable s.
Proof.
  intros H. apply quotable_inside.
  assert (cQuote <> cBackslash) as Hp by discriminate. revert H Hp. generalize cQuote at 2 3.
  induction s as [|c s IH]; intros p H Hp; cbn [inside forallb] in *; [done|].
  apply andb_true_iff in H as [H1 H2]. apply andb_true_iff in H1 as [Hq Hb].
  destruct (is_spec c cQuote) as [->|Hcq]; [discriminate|].
  destruct (is_spec c cBackslash) as [->|Hcb]; [discriminate|].
  split; [done|]. by apply IH.
Qed.
Lemma nil_quotable : quotable [].
Proof. by apply plain_quotable. Qed.

Section Good.
Context (files : bytes -> option bytes) (keccak : bytes -> bytes).
Notation bytes_of_text := (bytes_of_text files keccak).
Notation parseAccountAddress := (parseAccountAddress files keccak).
Notation processSubTreeAsByteArray := (processSubTreeAsByteArray files keccak).
Notation processBigInt := (processBigInt files keccak).
Notation processUint64 := (processUint64 files keccak).
Notation parseCheckBytes := (parseCheckBytes files keccak).
Notation processCheckBigInt := (processCheckBigInt files keccak).
Notation processCheckUint64 := (processCheckUint64 files keccak).

(** * Values *)

Definition good_bytes (b : jbytes) : Prop :=
  bytes_of_text (jb_orig b) = SOk b /\ quotable (jb_orig b).
Definition good_address (b : jbytes) : Prop :=
  b = jbytes_zero \/ (parseAccountAddress (jb_orig b) = SOk b /\ quotable (jb_orig b)).
Definition good_tree (t : jtree) : Prop :=
  processSubTreeAsByteArray (jt_orig t) = SOk t /\ wj (jt_orig t).
Definition good_big (z : jbig) : Prop :=
  processBigInt (JStr (jz_orig z)) UnsignedBytes = SOk z /\ quotable (jz_orig z).
Definition good_big0 (z : jbig) : Prop := z = jbig_zero \/ good_big z.
Definition good_uint (u : juint) : Prop :=
  processUint64 (JStr (ju_orig u)) = SOk u /\ quotable (ju_orig u).
Definition read_cbytes (c : cbytes) : Prop :=
  exists v, cb_orig c = Some v /\ parseCheckBytes v = SOk c /\ wj v.
Definition good_cbytes (c : cbytes) : Prop := c = JSONCheckBytesUnspecified \/ read_cbytes c.
Definition good_cbytes0 (c : cbytes) : Prop := c = cbytes_zero \/ good_cbytes c.
Definition good_cbig (f : big_format) (c : cbig) : Prop :=
  c = JSONCheckBigIntUnspecified \/
  (processCheckBigInt (JStr (cz_orig c)) f = SOk c /\ quotable (cz_orig c)).
Definition read_cuint (c : cuint) : Prop :=
  processCheckUint64 (JStr (cu_orig c)) = SOk c /\ quotable (cu_orig c).
Definition good_cuint (c : cuint) : Prop := c = JSONCheckUint64Unspecified \/ read_cuint c.

Lemma text_nil : bytes_of_text [] = SOk (mkJBytes [] []).
Proof. reflexivity. Qed.

Lemma get_string v s : wj v -> parseString v = SOk s -> v = JStr s /\ quotable s.
Proof. destruct v; intros Hw H; try discriminate H. injection H as ->. split; [done|by apply wj_str]. Qed.
Lemma get_text s b : quotable s -> bytes_of_text s = SOk b -> good_bytes b.
Proof.
  intros Hq H. pose proof H as H0. unfold ScenParseModel.bytes_of_text in H.
  apply sbind_ok in H as (x & Hx & H). injection H as <-. split; [exact H0|exact Hq].
Qed.
Lemma get_text_orig s b : bytes_of_text s = SOk b -> jb_orig b = s.
Proof.
  unfold ScenParseModel.bytes_of_text. intros H. apply sbind_ok in H as (x & _ & H).
  by injection H as <-.
Qed.
Lemma get_bytes v b : wj v -> processStringAsByteArray files keccak v = SOk b -> good_bytes b.
Proof.
  intros Hw H. apply sbind_ok in H as (s & Hs & H). apply get_string in Hs as [-> Hq]; [|done].
  eapply get_text; eauto.
Qed.
Lemma get_key_address s b : quotable s -> parseAccountAddress s = SOk b ->
  jb_orig b = s /\ good_address b.
Proof.
  intros Hq H. pose proof H as H0. unfold ScenParseModel.parseAccountAddress in H.
  destruct s as [|c s]; [discriminate|]. apply sbind_ok in H as (x & Hx & H).
  destruct (length (jb_value x) =? 32)%nat; [|discriminate]. injection H as <-.
  apply get_text_orig in Hx. split; [done|]. right. rewrite Hx. auto.
Qed.
Lemma get_address v b : wj v -> address_field files keccak v = SOk b -> good_address b.
Proof.
  intros Hw H. apply sbind_ok in H as (s & Hs & H). apply get_string in Hs as [-> Hq]; [|done].
  by destruct (get_key_address _ _ Hq H).
Qed.
Lemma get_tree v t : wj v -> processSubTreeAsByteArray v = SOk t -> good_tree t.
Proof.
  intros Hw H. pose proof H as H0. unfold ScenParseModel.processSubTreeAsByteArray in H.
  apply sbind_ok in H as (x & Hx & H). injection H as <-. by split.
Qed.
Lemma get_big_orig v f z : processBigInt v f = SOk z -> v = JStr (jz_orig z) /\ jz_value z <> None.
Proof.
  unfold ScenParseModel.processBigInt. intros H. apply sbind_ok in H as (s & Hs & H).
  apply sbind_ok in H as (x & Hx & H). injection H as <-. destruct v; try discriminate Hs.
  by injection Hs as ->.
Qed.
Lemma get_big v z : wj v -> processBigInt v UnsignedBytes = SOk z -> good_big z.
Proof.
  intros Hw H. destruct (get_big_orig _ _ _ H) as [-> _]. split; [done|by apply wj_str].
Qed.
Lemma get_uint_orig v u : processUint64 v = SOk u -> v = JStr (ju_orig u).
Proof.
  unfold ScenParseModel.processUint64. intros H. apply sbind_ok in H as (z & Hz & H).
  apply get_big_orig in Hz as [-> _]. destruct (jz_value z); [|discriminate].
  destruct (_ <? _); [|discriminate]. by injection H as <-.
Qed.
Lemma get_uint v u : wj v -> processUint64 v = SOk u -> good_uint u.
Proof.
  intros Hw H. pose proof (get_uint_orig _ _ H) as ->. split; [done|by apply wj_str].
Qed.
Lemma star_inv v : IsStar v = true -> v = JStr (str "*").
Proof.
  destruct v; cbn [IsStar]; try discriminate. unfold key_is. intros H%bool_decide_eq_true. by subst.
Qed.
Lemma get_cbytes v c : wj v -> parseCheckBytes v = SOk c -> read_cbytes c.
Proof.
  intros Hw H. exists v. pose proof H as H0. unfold ScenParseModel.parseCheckBytes in H.
  destruct (IsStar v) eqn:Hs.
  - apply star_inv in Hs as ->. injection H as <-. auto.
  - apply sbind_ok in H as (t & Ht & H). injection H as <-. split; [|auto]. cbn [cb_orig].
    unfold ScenParseModel.processSubTreeAsByteArray in Ht. apply sbind_ok in Ht as (x & Hx & Ht).
    by injection Ht as <-.
Qed.
Lemma get_cbig v f c : wj v -> processCheckBigInt v f = SOk c -> good_cbig f c.
Proof.
  intros Hw H. right. pose proof H as H0. unfold ScenParseModel.processCheckBigInt in H.
  destruct (IsStar v) eqn:Hs.
  - apply star_inv in Hs as ->. injection H as <-. split; [done|by apply wj_str].
  - apply sbind_ok in H as (t & Ht & H). injection H as <-. cbn [cz_orig].
    apply get_big_orig in Ht as [-> _]. split; [done|by apply wj_str].
Qed.
Lemma get_cuint v c : wj v -> processCheckUint64 v = SOk c -> read_cuint c.
Proof.
  intros Hw H. pose proof H as H0. unfold ScenParseModel.processCheckUint64 in H.
  destruct (IsStar v) eqn:Hs.
  - apply star_inv in Hs as ->. injection H as <-. split; [done|by apply wj_str].
  - apply sbind_ok in H as (t & Ht & H). injection H as <-. cbn [cu_orig].
    apply get_uint_orig in Ht as ->. split; [done|by apply wj_str].
Qed.
Lemma get_list {A} (f : json -> sres A) (P : A -> Prop) v l :
  (forall v x, wj v -> f v = SOk x -> P x) -> wj v -> sbind (as_list v) (each f) = SOk l -> Forall P l.
Proof.
  intros Hf Hw H. apply sbind_ok in H as (r & Hr & H). destruct v; try discriminate Hr.
  injection Hr as ->. apply wj_list in Hw. exact (each_good _ _ _ _ _ Hf Hw H).
Qed.

Lemma zero_bytes : good_bytes (mkJBytes [] []).
Proof. split; [reflexivity|apply nil_quotable]. Qed.
Lemma zero_address : good_address jbytes_zero.
Proof. by left. Qed.
Lemma zero_tree : good_tree jtree_zero.
Proof. split; [reflexivity|constructor; apply nil_quotable]. Qed.
Lemma zero_big : good_big JSONBigIntZero.
Proof. split; [reflexivity|apply nil_quotable]. Qed.
Lemma zero_big0 : good_big0 jbig_zero.
Proof. by left. Qed.
Lemma zero_uint : good_uint (mkJUint 0 []).
Proof. split; [reflexivity|apply nil_quotable]. Qed.
Lemma zero_cuint : read_cuint cuint_zero.
Proof. split; [reflexivity|apply nil_quotable]. Qed.
Lemma zero_cbytes : good_cbytes0 cbytes_zero.
Proof. by left. Qed.
Lemma unspec_cbytes : good_cbytes JSONCheckBytesUnspecified.
Proof. by left. Qed.
Lemma unspec_cuint : good_cuint JSONCheckUint64Unspecified.
Proof. by left. Qed.
Lemma unspec_cbig f : good_cbig f JSONCheckBigIntUnspecified.
Proof. by left. Qed.

(** * Structures *)

Definition good_inst (i : esdt_inst) : Prop :=
  good_uint (ei_nonce i) /\ good_big0 (ei_balance i) /\
  (good_bytes (ei_creator i) /\ (ei_creator i = jbytes_zero \/ length (jb_value (ei_creator i)) = 32%nat)) /\
  (good_uint (ei_royalties i) /\ ju_value (ei_royalties i) <= 10000) /\
  good_bytes (ei_hash i) /\ good_tree (ei_uri i) /\ good_bytes (ei_attributes i).
Definition good_data (d : esdt_data) : Prop :=
  good_bytes (ed_token d) /\ Forall good_inst (ed_instances d) /\ good_uint (ed_last d) /\
  Forall quotable (ed_roles d) /\ good_uint (ed_frozen d).
Definition good_check_inst (i : check_inst) : Prop :=
  good_cuint (xi_nonce i) /\ good_cbig UnsignedBytes (xi_balance i) /\ good_cbytes0 (xi_creator i) /\
  (good_cuint (xi_royalties i) /\ cu_value (xi_royalties i) <= 10000) /\
  good_cbytes0 (xi_hash i) /\ good_cbytes0 (xi_uri i) /\ good_cbytes0 (xi_attributes i).
Definition good_check_esdt (d : check_esdt) : Prop :=
  good_bytes (xe_token d) /\ Forall good_check_inst (xe_instances d) /\ read_cuint (xe_last d) /\
  Forall quotable (xe_roles d) /\ read_cuint (xe_frozen d).
Definition good_account0 (a : account) : Prop :=
  good_uint (a_shard a) /\ quotable (a_comment a) /\ good_uint (a_nonce a) /\
  good_big (a_balance a) /\ good_bytes (a_username a) /\
  (Forall (fun kv => good_bytes (fst kv) /\ good_tree (snd kv)) (a_storage a) /\
   NoDup (map (fun kv => jb_orig (fst kv)) (a_storage a))) /\
  good_bytes (a_code a) /\ good_bytes (a_owner a) /\ quotable (a_async a) /\
  (Forall good_data (a_esdt a) /\ NoDup (map (fun d => jb_orig (ed_token d)) (a_esdt a))).
Definition read_address (b : jbytes) : Prop :=
  parseAccountAddress (jb_orig b) = SOk b /\ quotable (jb_orig b).
Definition good_account (a : account) : Prop := read_address (a_address a) /\ good_account0 a.
Definition good_accounts (l : list account) : Prop :=
  Forall good_account l /\ NoDup (map (fun a => jb_orig (a_address a)) l).

Lemma zero_bytes' : good_bytes jbytes_zero.
Proof. apply zero_bytes. Qed.
Lemma read_good_cuint c : read_cuint c -> good_cuint c.
Proof. by right. Qed.
Lemma read_good_cbytes c : read_cbytes c -> good_cbytes c.
Proof. by right. Qed.
Lemma read_good_cbytes0 c : read_cbytes c -> good_cbytes0 c.
Proof. right. by right. Qed.
Lemma good_big_big0 z : good_big z -> good_big0 z.
Proof. by right. Qed.
Lemma get_quotable v s : wj v -> parseString v = SOk s -> quotable s.
Proof. intros Hw H. by apply get_string in H as []. Qed.
Lemma get_strings v l : wj v -> processStringList v = SOk l -> Forall quotable l.
Proof. apply get_list, get_quotable. Qed.

Create HintDb good.
Hint Resolve zero_bytes zero_bytes' zero_address zero_tree zero_big zero_big0 zero_uint zero_cuint
  zero_cbytes unspec_cbytes unspec_cuint unspec_cbig nil_quotable get_quotable get_strings
  get_text get_bytes get_address get_tree get_big get_uint get_cbytes get_cbig get_cuint
  read_good_cuint read_good_cbytes read_good_cbytes0 good_big_big0 Forall_nil_2 : good.
Hint Extern 1 (good_uint juint_zero) => apply zero_uint : good.
Hint Extern 1 (good_uint JSONUint64Zero) => apply zero_uint : good.
Hint Extern 1 (good_cuint cuint_zero) => apply read_good_cuint, zero_cuint : good.
Hint Extern 1 (good_cbytes0 JSONCheckBytesUnspecified) => right; left : good.

Ltac branch H :=
  match type of H with
  | (if key_is ?k ?s then _ else _) = _ => destruct (key_is k s) eqn:?; [|branch H]
  | _ => idtac
  end.
Lemma try_good k v i r i' : wj v -> good_inst i ->
  tryProcessESDTInstanceField files keccak k v i = Some r -> r = SOk i' -> good_inst i'.
Proof.
  intros Hw (G1 & G2 & G3 & G4 & G5 & G6 & G7) H E. unfold tryProcessESDTInstanceField in H.
  branch H; try discriminate H; apply (inj Some) in H; subst r;
    apply sbind_ok in E as (x & Hx & E).
  3: destruct (Nat.eqb_spec (length (jb_value x)) 32); [|discriminate E].
  4: destruct (Z.ltb_spec 10000 (ju_value x)); [discriminate E|].
  all: injection E as <-; unfold good_inst;
    cbn [set_ei_nonce set_ei_balance set_ei_creator set_ei_royalties set_ei_hash set_ei_uri
         set_ei_attributes ei_nonce ei_balance ei_creator ei_royalties ei_hash ei_uri ei_attributes];
    split_and!; eauto with good; try tauto.
Qed.
Lemma instance_good v i : wj v -> processESDTInstance files keccak v = SOk i -> good_inst i.
Proof.
  intros Hw H. apply sbind_ok in H as (m & Hm & H). destruct v; try discriminate Hm.
  injection Hm as ->. revert H. apply over_inv.
  - intros k v x x' Hin Hx H. unfold instance_field in H.
    destruct (tryProcessESDTInstanceField _ _ _ _ _) eqn:E; [|discriminate].
    destruct (wj_in _ _ _ Hw Hin) as [_ Hv]. eapply try_good; eauto.
  - unfold good_inst. cbn. split_and!; eauto with good. lia.
Qed.
Lemma data_good name v d : good_bytes name -> wj v ->
  processESDTData files keccak name v = SOk d -> good_data d.
Proof.
  intros Hn Hw H. unfold processESDTData in H. destruct v as [| | |m]; try discriminate H; [|].
  - apply sbind_ok in H as (z & Hz & H). injection H as <-. unfold good_data. cbn.
    split_and!; eauto with good. constructor; [|constructor]. unfold good_inst. cbn.
    split_and!; eauto with good. lia.
  - apply sbind_ok in H as ([[d0 first] loaded] & Ho & H). injection H as <-.
    apply (over_inv _ (fun s : esdt_data * esdt_inst * bool =>
      good_data (fst (fst s)) /\ good_inst (snd (fst s)) /\ ed_token (fst (fst s)) = name)) in Ho.
    + destruct Ho as ((G1 & G2 & G3 & G4 & G5) & Gi & Hd). cbn [fst snd] in *.
      unfold good_data. cbn. split_and!; auto. apply Forall_app. split; [|done].
      destruct loaded; [by constructor|constructor].
    + intros k v [[x y] z] x' Hin ((G1 & G2 & G3 & G4 & G5) & Gi & Hd) H.
      cbn [fst snd] in *. destruct (wj_in _ _ _ Hw Hin) as [_ Hv]. unfold esdt_field in H.
      destruct (tryProcessESDTInstanceField _ _ _ _ _) eqn:E.
      * apply sbind_ok in H as (i & Hi & H). injection H as <-. cbn [fst snd].
        split_and!; [done..| |done]. eapply try_good; eauto.
      * branch H; try discriminate H; apply sbind_ok in H as (a & Ha & H); injection H as <-;
          cbn [fst snd]; (split; [|by split]); unfold good_data; cbn;
          split_and!; eauto with good.
        revert Ha. apply get_list; [apply instance_good|done].
    + cbn. split_and!; [unfold good_data; cbn; split_and!; eauto with good| |done].
      unfold good_inst. cbn. split_and!; eauto with good. lia.
Qed.

Lemma each_keys {B} (f : bytes * json -> sres B) (key : B -> bytes) l r :
  (forall kv b, f kv = SOk b -> key b = fst kv) -> each f l = SOk r -> map key r = map fst l.
Proof.
  intros Hk H. apply each_ok in H. induction H as [|x y l r Hxy _ IH]; [done|]. cbn [map].
  f_equal; eauto.
Qed.
Lemma each_map {B} (f : bytes * json -> sres B) (key : B -> bytes) (P : B -> Prop) m r :
  wj (JMap m) -> (forall k v b, quotable k -> wj v -> f (k, v) = SOk b -> P b /\ key b = k) ->
  each f m = SOk r -> Forall P r /\ NoDup (map key r).
Proof.
  intros [Hq Hn]%wj_map Hf H. apply each_ok in H.
  assert (Forall P r /\ map key r = map fst m) as [? ->]; [|done].
  clear Hn. induction H as [|[k v] y l r Hxy _ IH]; [done|].
  apply Forall_cons in Hq as [[Hk Hv] Hq]. cbn [fst snd] in *.
  destruct (Hf k v y Hk Hv Hxy) as [? ?]. destruct (IH Hq) as [? ?]. split; [by constructor|].
  cbn [map fst]. by f_equal.
Qed.

Lemma esdt_entries m l : wj (JMap m) -> each (esdt_entry_of files keccak) m = SOk l ->
  Forall good_data l /\ NoDup (map (fun d => jb_orig (ed_token d)) l).
Proof.
  intros Hw. apply each_map; [done|]. intros k v d Hk Hv H.
  apply sbind_ok in H as (name & Hname & H). cbn [fst snd] in *.
  pose proof (get_text_orig _ _ Hname) as Ho. pose proof (get_text _ _ Hk Hname) as Hg.
  split; [eapply data_good; eauto|]. rewrite <- Ho.
  destruct v as [| | |m']; try discriminate H; unfold processESDTData in H.
  - apply sbind_ok in H as (z & Hz & H). by injection H as <-.
  - apply sbind_ok in H as ([[d0 first] loaded] & Hov & H). injection H as <-.
    apply (over_inv _ (fun s : esdt_data * esdt_inst * bool => ed_token (fst (fst s)) = name)) in Hov.
    + cbn in *. by rewrite Hov.
    + intros k' v' [[x y] z] x' _ Hd H. cbn [fst snd] in *. unfold esdt_field in H.
      destruct (tryProcessESDTInstanceField _ _ _ _ _).
      * apply sbind_ok in H as (i & Hi & H). by injection H as <-.
      * branch H; try discriminate H; apply sbind_ok in H as (a & Ha & H); by injection H as <-.
    + done.
Qed.
Lemma storage_entries m l : wj (JMap m) -> each (storage_entry_of files keccak) m = SOk l ->
  Forall (fun kv => good_bytes (fst kv) /\ good_tree (snd kv)) l /\
  NoDup (map (fun kv => jb_orig (fst kv)) l).
Proof.
  intros Hw. apply each_map; [done|]. intros k v d Hk Hv H.
  apply sbind_ok in H as (name & Hname & H). apply sbind_ok in H as (t & Ht & H). injection H as <-.
  cbn [fst snd] in *. split_and!; [eapply get_text|eapply get_tree|eapply get_text_orig]; eauto.
Qed.

Lemma key_eq k s : key_is k s = true -> k = str s.
Proof. apply bool_decide_eq_true. Qed.

Ltac got := match goal with
  | H : as_map ?v = SOk _ |- _ => destruct v; try discriminate H; injection H as ->; got
  | _ => idtac end.

Lemma account_good v a : wj v -> processAccount files keccak v = SOk a -> good_account0 a.
Proof.
  intros Hw H. apply sbind_ok in H as (m & Hm & H). destruct v; try discriminate Hm.
  injection Hm as ->. apply (over_seen _ (fun seen a => good_account0 a /\
    (str "esdt" ∉ seen -> a_esdt a = []) /\ (str "storage" ∉ seen -> a_storage a = []))
    _ [] account_start) in H.
  - by destruct H as (? & ? & _).
  - by apply wj_map in Hw as [].
  - intros k Hk. by apply elem_of_nil in Hk.
  - clear a H. intros seen k v a a' Hin Hs (G & Ne & Ns) H.
    destruct G as (G1 & G2 & G3 & G4 & G5 & G6 & G7 & G8 & G9 & G10).
    destruct (wj_in _ _ _ Hw Hin) as [_ Hv]. unfold account_field in H.
    branch H; try discriminate H;
      match goal with E : key_is k _ = true |- _ => apply key_eq in E end;
      [..|]; subst k.
    5: { apply sbind_ok in H as (m' & Hm & H). got. apply sbind_ok in H as (l & Hl & H).
         injection H as <-. rewrite (Ne Hs). cbn [app]. unfold good_account0. cbn.
         pose proof (esdt_entries _ _ Hv Hl) as [? ?].
         split_and!; try done; try tauto; intros Hn; [|apply Ns]; set_solver. }
    6: { apply sbind_ok in H as (m' & Hm & H). got. apply sbind_ok in H as (l & Hl & H).
         injection H as <-. rewrite (Ns Hs). cbn [app]. unfold good_account0. cbn.
         pose proof (storage_entries _ _ Hv Hl) as [? ?].
         split_and!; try done; try tauto; intros Hn; [apply Ne|]; set_solver. }
    all: apply sbind_ok in H as (x & Hx & H); injection H as <-; unfold good_account0; cbn;
      split_and!; eauto with good; try tauto; intros Hn; (apply Ne || apply Ns); set_solver.
  - unfold good_account0. cbn. split_and!; eauto with good; constructor.
Qed.
Lemma accounts_good v l : wj v -> processAccountMap files keccak v = SOk l -> good_accounts l.
Proof.
  intros Hw H. apply sbind_ok in H as (m & Hm & H). got. revert H. apply each_map; [done|].
  intros k v a Hk Hv H. apply sbind_ok in H as (a0 & Ha & H). apply sbind_ok in H as (x & Hx & H).
  injection H as <-. cbn [fst snd] in *. destruct (get_key_address _ _ Hk Hx) as [E _].
  split; [|done]. split; [by split; cbn; rewrite E|]. cbn. exact (account_good _ _ Hv Ha).
Qed.

(** * Conditions of checkState steps *)

Lemma check_try_good k v i r i' : wj v -> good_check_inst i ->
  tryProcessCheckESDTInstanceField files keccak k v i = Some r -> r = SOk i' -> good_check_inst i'.
Proof.
  intros Hw (G1 & G2 & G3 & G4 & G5 & G6 & G7) H E. unfold tryProcessCheckESDTInstanceField in H.
  branch H; try discriminate H; apply (inj Some) in H; subst r;
    apply sbind_ok in E as (x & Hx & E).
  4: destruct (Z.ltb_spec 10000 (cu_value x)); [discriminate E|].
  all: injection E as <-; unfold good_check_inst;
    cbn [set_xi_nonce set_xi_balance set_xi_creator set_xi_royalties set_xi_hash set_xi_uri
         set_xi_attributes xi_nonce xi_balance xi_creator xi_royalties xi_hash xi_uri xi_attributes];
    split_and!; eauto with good; try tauto.
Qed.
Lemma new_check_inst_good : good_check_inst NewCheckESDTInstance.
Proof. unfold good_check_inst. cbn. split_and!; eauto with good. lia. Qed.
Lemma check_instance_good v i : wj v -> processCheckESDTInstance files keccak v = SOk i -> good_check_inst i.
Proof.
  intros Hw H. apply sbind_ok in H as (m & Hm & H). destruct v; try discriminate Hm.
  injection Hm as ->. revert H. apply over_inv.
  - intros k v x x' Hin Hx H. unfold check_instance_field in H.
    destruct (tryProcessCheckESDTInstanceField _ _ _ _ _) eqn:E; [|discriminate].
    destruct (wj_in _ _ _ Hw Hin) as [_ Hv]. eapply check_try_good; eauto.
  - apply new_check_inst_good.
Qed.
Lemma check_data_good name v d : good_bytes name -> wj v ->
  processCheckESDTData files keccak name v = SOk d -> good_check_esdt d /\ xe_token d = name.
Proof.
  intros Hn Hw H. unfold processCheckESDTData in H. destruct v as [| | |m]; try discriminate H; [|].
  - apply sbind_ok in H as (z & Hz & H). injection H as <-. unfold good_check_esdt. cbn.
    split_and!; eauto with good. constructor; [|constructor]. unfold good_check_inst. cbn.
    split_and!; eauto with good. lia.
  - apply sbind_ok in H as ([[d0 first] loaded] & Ho & H). injection H as <-.
    apply (over_inv _ (fun s : check_esdt * check_inst * bool =>
      good_check_esdt (fst (fst s)) /\ good_check_inst (snd (fst s)) /\ xe_token (fst (fst s)) = name)) in Ho.
    + destruct Ho as ((G1 & G2 & G3 & G4 & G5) & Gi & Hd). cbn [fst snd] in *.
      unfold good_check_esdt. cbn. split_and!; auto. apply Forall_app. split; [|done].
      destruct loaded; [by constructor|constructor].
    + intros k v [[x y] z] x' Hin ((G1 & G2 & G3 & G4 & G5) & Gi & Hd) H.
      cbn [fst snd] in *. destruct (wj_in _ _ _ Hw Hin) as [_ Hv]. unfold check_esdt_field in H.
      destruct (tryProcessCheckESDTInstanceField _ _ _ _ _) eqn:E.
      * apply sbind_ok in H as (i & Hi & H). injection H as <-. cbn [fst snd].
        split_and!; [done..| |done]. eapply check_try_good; eauto.
      * branch H; try discriminate H; apply sbind_ok in H as (a & Ha & H); injection H as <-;
          cbn [fst snd]; (split; [|by split]); unfold good_check_esdt; cbn;
          split_and!; eauto with good.
        revert Ha. apply get_list; [apply check_instance_good|done].
    + cbn. split_and!; [unfold good_check_esdt; cbn; split_and!; eauto with good| |done].
      apply new_check_inst_good.
Qed.

Definition plus_free {A} (key : A -> bytes) (l : list A) : Prop :=
  NoDup (map key l) /\ str "+" ∉ map key l.
Definition good_check_account0 (a : check_account) : Prop :=
  quotable (x_comment a) /\ good_cuint (x_nonce a) /\ good_cbig UnsignedBytes (x_balance a) /\
  good_cbytes (x_username a) /\
  (Forall (fun kv => good_bytes (fst kv) /\ read_cbytes (snd kv)) (x_storage a) /\
   plus_free (fun kv => jb_orig (fst kv)) (x_storage a) /\
   (x_ignore_storage a = true -> x_storage a = [] /\ x_more_storage a = false)) /\
  good_cbytes (x_code a) /\ good_cbytes (x_owner a) /\ good_cbytes (x_async a) /\
  (Forall good_check_esdt (x_esdt a) /\ plus_free (fun d => jb_orig (xe_token d)) (x_esdt a) /\
   (x_ignore_esdt a = true -> x_esdt a = [] /\ x_more_esdt a = false)).
Definition good_check_account (a : check_account) : Prop :=
  read_address (x_address a) /\ good_check_account0 a.
Definition good_check_accounts (xs : check_accounts) : Prop :=
  Forall good_check_account (xs_accounts xs) /\
  plus_free (fun a => jb_orig (x_address a)) (xs_accounts xs).

Lemma plus_free_snoc {A} (key : A -> bytes) l x :
  plus_free key l -> key x ∉ map key l -> key x <> str "+" -> plus_free key (l ++ [x]).
Proof.
  intros [H1 H2] Hx Hp. unfold plus_free. rewrite map_app. cbn [map]. split.
  - apply NoDup_app. split_and!; [done| |by apply NoDup_singleton].
    intros y Hy Hy'. apply elem_of_list_singleton in Hy' as ->. done.
  - intros [H|H]%elem_of_app; [done|]. by apply elem_of_list_singleton in H.
Qed.
Lemma plus_free_nil {A} (key : A -> bytes) : plus_free key [].
Proof. split; [constructor|]. intros H. by apply elem_of_nil in H. Qed.
Lemma key_ne k s : key_is k s = false -> k <> str s.
Proof. apply bool_decide_eq_false. Qed.
Lemma seen_snoc {A} (key : A -> bytes) l x seen k :
  (forall y, y ∈ map key l -> y ∈ seen) -> key x = k ->
  forall y, y ∈ map key (l ++ [x]) -> y ∈ k :: seen.
Proof.
  intros H Hk y. rewrite map_app, elem_of_app. cbn [map].
  rewrite elem_of_list_singleton, elem_of_cons. intros [Hy| ->]; auto.
Qed.

(** The loops over the tokens and the storage of an account. *)
Lemma check_esdt_entries m a a' : wj (JMap m) -> x_esdt a = [] ->
  over (check_esdt_entry files keccak) m a = SOk a' ->
  exists l more, a' = set_x_more_esdt more (set_x_esdt l a) /\
    Forall good_check_esdt l /\ plus_free (fun d => jb_orig (xe_token d)) l.
Proof.
  intros Hw Ha H. apply (over_seen _ (fun seen a' => exists l more,
    a' = set_x_more_esdt more (set_x_esdt l a) /\ Forall good_check_esdt l /\
    plus_free (fun d => jb_orig (xe_token d)) l /\
    (forall y, y ∈ map (fun d => jb_orig (xe_token d)) l -> y ∈ seen)) _ []) in H.
  - destruct H as (seen & l & more & ? & ? & ? & _). eauto.
  - by apply wj_map in Hw as [].
  - intros k Hk. by apply elem_of_nil in Hk.
  - clear a' H. intros seen k v x x' Hin Hs (l & more & -> & Hl & Hp & Hy) H.
    destruct (wj_in _ _ _ Hw Hin) as [Hq Hv]. unfold check_esdt_entry in H.
    destruct (key_is k "+") eqn:E.
    + injection H as <-. exists l, true. split_and!; auto. intros y Hy'. apply elem_of_cons. auto.
    + apply sbind_ok in H as (name & Hname & H). apply sbind_ok in H as (d & Hd & H).
      injection H as <-. exists (l ++ [d]), more. pose proof (get_text_orig _ _ Hname) as Ho.
      destruct (check_data_good name v d) as [Hg Ht]; [by eapply get_text|done..|].
      assert (jb_orig (xe_token d) = k) as Hk by by rewrite Ht.
      split_and!; [reflexivity| | |].
      * apply Forall_app. split; [done|by constructor].
      * apply plus_free_snoc; [done| |].
        -- rewrite Hk. auto.
        -- rewrite Hk. by apply key_ne.
      * by apply seen_snoc.
  - exists [], (x_more_esdt a). split_and!; [by destruct a; cbn in Ha |- *; rewrite Ha|constructor
      |apply plus_free_nil|auto].
Qed.
Lemma check_storage_entries m a a' : wj (JMap m) -> x_storage a = [] ->
  over (check_storage_entry files keccak) m a = SOk a' ->
  exists l more, a' = set_x_more_storage more (set_x_storage l a) /\
    Forall (fun kv => good_bytes (fst kv) /\ read_cbytes (snd kv)) l /\
    plus_free (fun kv => jb_orig (fst kv)) l.
Proof.
  intros Hw Ha H. apply (over_seen _ (fun seen a' => exists l more,
    a' = set_x_more_storage more (set_x_storage l a) /\
    Forall (fun kv => good_bytes (fst kv) /\ read_cbytes (snd kv)) l /\
    plus_free (fun kv => jb_orig (fst kv)) l /\
    (forall y, y ∈ map (fun kv => jb_orig (fst kv)) l -> y ∈ seen)) _ []) in H.
  - destruct H as (seen & l & more & ? & ? & ? & _). eauto.
  - by apply wj_map in Hw as [].
  - intros k Hk. by apply elem_of_nil in Hk.
  - clear a' H. intros seen k v x x' Hin Hs (l & more & -> & Hl & Hp & Hy) H.
    destruct (wj_in _ _ _ Hw Hin) as [Hq Hv]. unfold check_storage_entry in H.
    destruct (key_is k "+") eqn:E.
    + injection H as <-. exists l, true. split_and!; auto. intros y Hy'. apply elem_of_cons. auto.
    + apply sbind_ok in H as (name & Hname & H). apply sbind_ok in H as (d & Hd & H).
      injection H as <-. exists (l ++ [(name, d)]), more.
      pose proof (get_text_orig _ _ Hname) as Hk.
      split_and!; [reflexivity| | |].
      * apply Forall_app. split; [done|]. constructor; [|done]. cbn [fst snd].
        split; [by eapply get_text|by eapply get_cbytes].
      * apply plus_free_snoc; [done| |]; cbn [fst].
        -- rewrite Hk. auto.
        -- rewrite Hk. by apply key_ne.
      * by apply seen_snoc.
  - exists [], (x_more_storage a). split_and!; [by destruct a; cbn in Ha |- *; rewrite Ha|constructor
      |apply plus_free_nil|auto].
Qed.

Lemma check_account_good v a : wj v -> processCheckAccount files keccak v = SOk a -> good_check_account0 a.
Proof.
  intros Hw H. apply sbind_ok in H as (m & Hm & H). destruct v; try discriminate Hm.
  injection Hm as ->. apply (over_seen _ (fun seen a => good_check_account0 a /\
    (str "esdt" ∉ seen -> x_esdt a = [] /\ x_more_esdt a = false) /\
    (str "storage" ∉ seen -> x_storage a = [] /\ x_more_storage a = false))
    _ [] check_account_start) in H.
  - by destruct H as (? & ? & _).
  - by apply wj_map in Hw as [].
  - intros k Hk. by apply elem_of_nil in Hk.
  - clear a H. intros seen k v a a' Hin Hs (G & Ne & Ns) H.
    destruct G as (G1 & G2 & G3 & G4 & G5 & G6 & G7 & G8 & G9).
    destruct (wj_in _ _ _ Hw Hin) as [_ Hv]. unfold check_account_field in H.
    branch H; try discriminate H;
      match goal with E : key_is k _ = true |- _ => apply key_eq in E end;
      [..|]; subst k.
    4: { destruct (Ne Hs) as [He Hm]. destruct (IsStar v) eqn:Hstar.
         - injection H as <-. unfold good_check_account0. cbn. rewrite He, Hm.
           split_and!; try done; try tauto; try (apply plus_free_nil);
             intros Hn; apply Ns; set_solver.
         - apply sbind_ok in H as (m' & Hm' & H). got.
           apply check_esdt_entries in H as (l & more & -> & Hl & Hp); [|done|done].
           unfold good_check_account0. cbn.
           split_and!; try done; try tauto; intros Hn; [|apply Ns]; set_solver. }
    5: { destruct (Ns Hs) as [He Hm]. destruct (IsStar v) eqn:Hstar.
         - injection H as <-. unfold good_check_account0. cbn. rewrite He, Hm.
           split_and!; try done; try tauto; try (apply plus_free_nil);
             intros Hn; apply Ne; set_solver.
         - apply sbind_ok in H as (m' & Hm' & H). got.
           apply check_storage_entries in H as (l & more & -> & Hl & Hp); [|done|done].
           unfold good_check_account0. cbn.
           split_and!; try done; try tauto; intros Hn; [apply Ne|]; set_solver. }
    all: apply sbind_ok in H as (x & Hx & H); injection H as <-; unfold good_check_account0; cbn;
      split_and!; eauto with good; try tauto; intros Hn; (apply Ne || apply Ns); set_solver.
  - unfold good_check_account0. cbn. split_and!; eauto using plus_free_nil with good; try done.
Qed.
Lemma check_accounts_good v xs : wj v -> processCheckAccountMap files keccak v = SOk xs ->
  good_check_accounts xs.
Proof.
  intros Hw H. apply sbind_ok in H as (m & Hm & H). got.
  apply (over_seen _ (fun seen xs => good_check_accounts xs /\
    (forall y, y ∈ map (fun a => jb_orig (x_address a)) (xs_accounts xs) -> y ∈ seen))
    _ [] (mkCheckAccounts [] false)) in H.
  - by destruct H as (? & ? & _).
  - by apply wj_map in Hw as [].
  - intros k Hk. by apply elem_of_nil in Hk.
  - clear xs H. intros seen k v xs xs' Hin Hs ([G1 G2] & Hy) H.
    destruct (wj_in _ _ _ Hw Hin) as [Hq Hv]. unfold check_accounts_entry in H.
    destruct (key_is k "+") eqn:E.
    + injection H as <-. cbn. split; [done|]. intros y Hy'. apply elem_of_cons. auto.
    + apply sbind_ok in H as (a & Ha & H). apply sbind_ok in H as (x & Hx & H).
      injection H as <-. destruct (get_key_address _ _ Hq Hx) as [Hk _].
      unfold good_check_accounts. cbn [xs_accounts]. split_and!.
      * apply Forall_app. split; [done|]. constructor; [|done].
        split; [by split; cbn; rewrite Hk|]. cbn. exact (check_account_good _ _ Hv Ha).
      * apply plus_free_snoc; [done| |]; cbn [x_address set_x_address].
        -- rewrite Hk. auto.
        -- rewrite Hk. by apply key_ne.
      * by apply seen_snoc.
  - split; [split; [constructor|apply plus_free_nil]|]. auto.
Qed.

(** * Steps *)

Definition good_block (b : block_info) : Prop :=
  good_uint (bi_timestamp b) /\ good_uint (bi_nonce b) /\ good_uint (bi_round b) /\
  good_uint (bi_epoch b) /\
  (forall t, bi_seed b = Some t -> good_tree t /\ length (jt_value t) = 48%nat).
Definition good_mock (n : new_address) : Prop :=
  good_address (na_creator n) /\ good_uint (na_nonce n) /\ good_address (na_new n).
Definition good_esdt_tx (e : esdt_tx) : Prop :=
  good_bytes (tx_token e) /\ good_uint (tx_tnonce e) /\ good_big0 (tx_tvalue e).
Definition good_tx (ty : tx_type) (t : transaction) : Prop :=
  t_type t = ty /\
  good_big (t_value t) /\
  (forall e, t_esdt t = Some e -> good_esdt_tx e /\ HasESDT ty = true) /\
  good_address (t_from t) /\ good_address (t_to t) /\ quotable (t_function t) /\
  good_bytes (t_code t) /\ Forall good_tree (t_args t) /\ good_uint (t_gasprice t) /\
  good_uint (t_gaslimit t) /\
  (HasSender ty = false -> t_from t = jbytes_zero) /\
  (HasReceiver ty = false -> t_to t = jbytes_zero) /\
  (HasValue ty = false -> t_value t = JSONBigIntZero) /\
  (HasFunction ty = false -> t_function t = []) /\
  (ty <> ScDeploy -> jb_value (t_code t) = []) /\
  (ty = TxTransfer -> t_args t = []) /\
  (HasGas ty = false -> t_gasprice t = juint_zero /\ t_gaslimit t = juint_zero).
Definition read_cbytes0 (c : cbytes) : Prop := c = cbytes_zero \/ read_cbytes c.
Definition good_log (l : log_check) : Prop :=
  read_cbytes0 (lc_address l) /\ read_cbytes0 (lc_identifier l) /\
  Forall read_cbytes (lc_topics l) /\ read_cbytes0 (lc_data l).
Lemma zero_read_cbytes0 : read_cbytes0 cbytes_zero.
Proof. by left. Qed.
Lemma read_read_cbytes0 c : read_cbytes c -> read_cbytes0 c.
Proof. by right. Qed.
Hint Resolve zero_read_cbytes0 read_read_cbytes0 : good.
Definition good_logs (r : tx_result) : Prop :=
  (tr_logs_unspec r = true -> tr_logs_star r = true) /\
  (tr_logs_star r = true -> tr_log_hash r = []) /\
  (tr_logs_star r = true \/ tr_log_hash r <> [] -> tr_logs r = []) /\
  tr_log_hash r <> str "*".
Definition good_result (r : tx_result) : Prop :=
  Forall read_cbytes (tr_out r) /\ good_cbig SignedBytes (tr_status r) /\
  good_cbytes (tr_message r) /\ good_cuint (tr_gas r) /\ good_cbig UnsignedBytes (tr_refund r) /\
  (quotable (tr_log_hash r) /\ Forall good_log (tr_logs r) /\ good_logs r).
Definition good_step (s : step) : Prop :=
  match s with
  | ExternalSteps c path => quotable c /\ quotable path
  | SetState c accounts previous current hashes mocks =>
      quotable c /\ good_accounts accounts /\ (forall b, previous = Some b -> good_block b) /\
      (forall b, current = Some b -> good_block b) /\ Forall good_bytes hashes /\
      Forall good_mock mocks
  | CheckState c xs => quotable c /\ forall x, xs = Some x -> good_check_accounts x
  | DumpState c => quotable c
  | TxStep ident c t expected =>
      quotable ident /\ quotable c /\ good_tx (t_type t) t /\
      forall r, expected = Some r -> good_result r /\ IsSmartContractTx (t_type t) = true
  end.
Definition good_scenario (s : scenario) : Prop :=
  quotable (s_name s) /\ quotable (s_comment s) /\ Forall good_step (s_steps s).

Lemma block_good v b : wj v -> processBlockInfo files keccak v = SOk b -> good_block b.
Proof.
  intros Hw H. apply sbind_ok in H as (m & Hm & H). got. revert H. apply over_inv.
  - intros k v x x' Hin (G1 & G2 & G3 & G4 & G5) H. destruct (wj_in _ _ _ Hw Hin) as [_ Hv].
    unfold block_field in H. branch H; try discriminate H; apply sbind_ok in H as (y & Hy & H).
    5: destruct (Nat.eqb_spec (length (jt_value y)) 48); [|discriminate H].
    all: injection H as <-; unfold good_block; cbn; split_and!; eauto with good.
    intros t [= <-]. eauto with good.
  - unfold good_block. cbn. split_and!; eauto with good. done.
Qed.
Lemma mock_good v n : wj v -> processNewAddressMock files keccak v = SOk n -> good_mock n.
Proof.
  intros Hw H. apply sbind_ok in H as (m & Hm & H). got. revert H. apply over_inv.
  - intros k v x x' Hin (G1 & G2 & G3) H. destruct (wj_in _ _ _ Hw Hin) as [_ Hv].
    unfold mock_field in H. branch H; try discriminate H; apply sbind_ok in H as (y & Hy & H);
      injection H as <-; unfold good_mock; cbn; split_and!; eauto with good.
  - unfold good_mock. cbn. split_and!; eauto with good.
Qed.
Lemma esdt_tx_good v e : wj v -> processTxESDT files keccak v = SOk e -> good_esdt_tx e.
Proof.
  intros Hw H. apply sbind_ok in H as (m & Hm & H). got. revert H. apply over_inv.
  - intros k v x x' Hin (G1 & G2 & G3) H. destruct (wj_in _ _ _ Hw Hin) as [_ Hv].
    unfold esdt_tx_field in H. branch H; try discriminate H; apply sbind_ok in H as (y & Hy & H);
      injection H as <-; unfold good_esdt_tx; cbn; split_and!; eauto with good.
  - unfold good_esdt_tx. cbn. split_and!; eauto with good.
Qed.
Lemma tx_good ty v t : wj v -> processTx files keccak ty v = SOk t -> good_tx ty t.
Proof.
  intros Hw H. apply sbind_ok in H as (m & Hm & H). got. revert H. apply over_inv.
  - intros k v x x' Hin G H. destruct (wj_in _ _ _ Hw Hin) as [_ Hv].
    unfold tx_field in H. branch H; try discriminate H.
    + apply sbind_ok in H as (y & Hy & H). injection H as <-. exact G.
    + destruct (HasSender ty) eqn:E; [|discriminate]. apply sbind_ok in H as (y & Hy & H).
      injection H as <-. unfold good_tx in *. cbn. destruct_and! G. split_and!; eauto with good.
      congruence.
    + apply sbind_ok in H as (s & Hs & H). case_bool_decide.
      * destruct s; [|discriminate]. by injection H as <-.
      * apply sbind_ok in H as (y & Hy & H). injection H as <-. unfold good_tx in *. cbn.
        destruct_and! G. split_and!; eauto with good.
        -- apply get_string in Hs as [-> Hq]; [|done]. by destruct (get_key_address _ _ Hq Hy).
        -- by destruct ty.
    + apply sbind_ok in H as (s & Hs & H). destruct (HasFunction ty || _) eqn:E; [|discriminate].
      injection H as <-. unfold good_tx in *. cbn. destruct_and! G. split_and!; eauto with good.
      intros E'. rewrite E' in E. cbn [orb] in E. by apply bool_decide_eq_true in E.
    + destruct (HasValue ty) eqn:E; [|discriminate]. apply sbind_ok in H as (y & Hy & H).
      injection H as <-. unfold good_tx in *. cbn. destruct_and! G. split_and!; eauto with good.
      congruence.
    + destruct (HasESDT ty) eqn:E; [|discriminate]. apply sbind_ok in H as (y & Hy & H).
      injection H as <-. unfold good_tx in *. cbn. destruct_and! G. split_and!; eauto with good.
      intros e [= <-]. split; [by eapply esdt_tx_good|done].
    + apply sbind_ok in H as (l & Hl & H). destruct (bool_decide (ty = TxTransfer) && _) eqn:E; [discriminate|].
      injection H as <-. unfold good_tx in *. cbn. destruct_and! G. split_and!; eauto with good.
      * revert Hl. apply get_list; [apply get_tree|done].
      * intros ->. cbn in E. destruct l; [done|discriminate E].
    + apply sbind_ok in H as (s & Hs & H). destruct (bool_decide (ty = ScDeploy) || _) eqn:E; [|discriminate].
      injection H as <-. unfold good_tx in *. cbn. destruct_and! G. split_and!; eauto with good.
      intros E'. rewrite bool_decide_eq_false_2 in E by done. cbn [orb] in E.
      by apply bool_decide_eq_true in E.
    + destruct (HasGas ty) eqn:E; [|discriminate]. apply sbind_ok in H as (y & Hy & H).
      injection H as <-. unfold good_tx in *. cbn. destruct_and! G. split_and!; eauto with good.
      all: congruence.
    + destruct (HasGas ty) eqn:E; [|discriminate]. apply sbind_ok in H as (y & Hy & H).
      injection H as <-. unfold good_tx in *. cbn. destruct_and! G. split_and!; eauto with good.
      all: congruence.
  - unfold good_tx. cbn. split_and!; eauto with good; done.
Qed.
Lemma log_good v l : wj v -> processLog files keccak v = SOk l -> good_log l.
Proof.
  intros Hw H. apply sbind_ok in H as (m & Hm & H). got. revert H. apply over_inv.
  - intros k v x x' Hin (G1 & G2 & G3 & G4) H. destruct (wj_in _ _ _ Hw Hin) as [_ Hv].
    unfold log_field in H. branch H; try discriminate H; apply sbind_ok in H as (y & Hy & H);
      injection H as <-; unfold good_log; cbn; split_and!; eauto with good.
    revert Hy. apply get_list; [apply get_cbytes|done].
  - unfold good_log. cbn. split_and!; eauto with good.
Qed.
Lemma result_good v r : wj v -> processTxExpectedResult files keccak v = SOk r -> good_result r.
Proof.
  intros Hw H. apply sbind_ok in H as (m & Hm & H). got.
  apply (over_seen _ (fun seen r => good_result r /\
    (str "logs" ∉ seen -> tr_logs r = [] /\ tr_log_hash r = [])) _ [] result_start) in H.
  - by destruct H as (? & ? & _).
  - by apply wj_map in Hw as [].
  - intros k Hk. by apply elem_of_nil in Hk.
  - clear r H. intros seen k v r r' Hin Hs ((G1 & G2 & G3 & G4 & G5 & G6) & Nl) H.
    destruct (wj_in _ _ _ Hw Hin) as [_ Hv]. unfold result_field in H.
    branch H; try discriminate H;
      match goal with E : key_is k _ = true |- _ => apply key_eq in E end; subst k.
    4: { destruct (Nl Hs) as [Hl Hh]. destruct (IsStar v) eqn:Hstar.
         - injection H as <-. unfold good_result, good_logs. cbn. rewrite Hl, Hh.
           split_and!; eauto with good; try done; set_solver.
         - destruct v as [s| |l|].
           + injection H as <-. unfold good_result, good_logs. cbn. rewrite Hl.
             split_and!; eauto using wj_str with good; try done; try set_solver.
           + discriminate H.
           + cbn [parseString] in H. apply sbind_ok in H as (x & Hx & H). injection H as <-.
             unfold good_result, good_logs. cbn. split_and!; eauto with good; try done; try set_solver.
             revert Hx. apply get_list; [apply log_good|done].
           + discriminate H. }
    all: apply sbind_ok in H as (x & Hx & H); injection H as <-; 
      (split; [|intros Hn; apply Nl; intros Hin'; apply Hn; by constructor]);
      unfold good_result, good_logs in *; cbn;
      destruct_and! G6; split_and!; eauto with good; try done.
    revert Hx; apply get_list; [apply get_cbytes|done].
  - unfold good_result, good_logs. cbn. split_and!; eauto with good; done.
Qed.

Lemma tx_step_good ty m s : wj (JMap m) -> parseTxStep files keccak ty m = SOk s -> good_step s.
Proof.
  intros Hw H. apply sbind_ok in H as ([[ident c] [tx expected]] & Ho & H).
  destruct tx as [t|]; [|discriminate]. injection H as <-.
  apply (over_inv _ (fun s : tx_step => quotable (fst (fst s)) /\ quotable (snd (fst s)) /\
    (forall t, fst (snd s) = Some t -> good_tx ty t) /\
    (forall r, snd (snd s) = Some r -> good_result r /\ IsSmartContractTx ty = true))) in Ho.
  - cbn in Ho. destruct Ho as (H1 & H2 & H3 & H4). specialize (H3 _ eq_refl).
    cbn. assert (t_type t = ty) as Ht by apply H3. rewrite Ht. auto.
  - intros k v [[i' c'] [t' e']] x' Hin (G1 & G2 & G3 & G4) H. cbn [fst snd] in *.
    destruct (wj_in _ _ _ Hw Hin) as [_ Hv]. unfold tx_step_field in H. cbn beta iota in H.
    branch H; try discriminate H; [by injection H as <-|..].
    4: { destruct t' as [t'|]; [|discriminate]. destruct (IsSmartContractTx (t_type t')) eqn:E; [|discriminate H].
         apply sbind_ok in H as (y & Hy & H). injection H as <-. cbn [fst snd].
         split_and!; eauto with good. intros r [= <-]. split; [by eapply result_good|].
         rewrite <- E. f_equal. symmetry. by apply (G3 t'). }
    all: apply sbind_ok in H as (y & Hy & H); injection H as <-; cbn [fst snd];
      split_and!; eauto with good.
    intros t0 [= <-]. by eapply tx_good.
  - cbn. split_and!; eauto with good; done.
Qed.
Lemma step_good v s : wj v -> processScenarioStep files keccak v = SOk s -> good_step s.
Proof.
  intros Hw H. apply sbind_ok in H as (m & Hm & H). got. apply sbind_ok in H as (ty & _ & H).
  branch H; try discriminate H; try (by eapply tx_step_good).
  - apply sbind_ok in H as ([c p] & Ho & H). injection H as <-. cbn.
    apply (over_inv _ (fun s : bytes * bytes => quotable (fst s) /\ quotable (snd s))) in Ho; [done| |].
    + intros k v [x y] x' Hin (G1 & G2) H. destruct (wj_in _ _ _ Hw Hin) as [_ Hv].
      cbn [fst snd] in *. unfold external_field in H.
      branch H; try discriminate H; [by injection H as <-|..];
        apply sbind_ok in H as (z & Hz & H); injection H as <-; cbn [fst snd]; eauto with good.
    + cbn. eauto with good.
  - apply sbind_ok in H as ([[[c a] [p cu]] [h mo]] & Ho & H). injection H as <-.
    apply (over_inv _ (fun s : set_step =>
      let '((comment, accounts), (previous, current), (hashes, mocks)) := s in
      good_step (SetState comment accounts previous current hashes mocks))) in Ho; [done| |].
    + intros k v [[[c' a'] [p' cu']] [h' mo']] x' Hin (G1 & G2 & G3 & G4 & G5 & G6) H.
      destruct (wj_in _ _ _ Hw Hin) as [_ Hv]. unfold set_field in H. cbn beta iota in H.
      branch H; try discriminate H; [by injection H as <-|..];
        apply sbind_ok in H as (z & Hz & H); injection H as <-; cbn [good_step];
        split_and!; eauto with good.
      * exact (accounts_good _ _ Hv Hz).
      * revert Hz. apply get_list; [apply mock_good|done].
      * intros b [= <-]. by eapply block_good.
      * intros b [= <-]. by eapply block_good.
      * revert Hz. apply get_list; [apply get_bytes|done].
    + cbn. split_and!; eauto with good; try done. split; constructor.
  - apply sbind_ok in H as ([c xs] & Ho & H). injection H as <-. cbn.
    apply (over_inv _ (fun s : bytes * option check_accounts => quotable (fst s) /\
      forall x, snd s = Some x -> good_check_accounts x)) in Ho; [done| |].
    + intros k v [x y] x' Hin (G1 & G2) H. destruct (wj_in _ _ _ Hw Hin) as [_ Hv].
      cbn [fst snd] in *. unfold check_field in H.
      branch H; try discriminate H; [by injection H as <-|..];
        apply sbind_ok in H as (z & Hz & H); injection H as <-; cbn [fst snd]; [eauto with good|].
      split; [done|]. intros ? [= <-]. by eapply check_accounts_good.
    + cbn. split; [eauto with good|done].
  - apply sbind_ok in H as (c & Ho & H). injection H as <-. cbn.
    apply (over_inv _ quotable) in Ho; [done| |eauto with good].
    intros k v x x' Hin G1 H. destruct (wj_in _ _ _ Hw Hin) as [_ Hv]. unfold dump_field in H.
    branch H; try discriminate H; [by injection H as <-|]. eauto with good.
Qed.
Lemma scenario_good v s : wj v -> processScenario files keccak v = SOk s -> good_scenario s.
Proof.
  intros Hw H. apply sbind_ok in H as (m & Hm & H). got. revert H. apply over_inv.
  - intros k v x x' Hin (G1 & G2 & G3) H. destruct (wj_in _ _ _ Hw Hin) as [_ Hv].
    unfold scenario_field in H. branch H; try discriminate H.
    3: { destruct v; try discriminate H. injection H as <-. by split. }
    all: apply sbind_ok in H as (y & Hy & H); injection H as <-; unfold good_scenario; cbn;
      split_and!; eauto with good.
    revert Hy. apply get_list; [apply step_good|done].
  - unfold good_scenario. cbn. split_and!; eauto with good.
Qed.
End Good.
