(** The reader reads exactly what the file says. *)
From Verif Require Import Base CodecSpec CodecProofs JsonModel JsonSpec JsonProofs JsonParseProofs
  JsonPrintProofs MandosModel MandosSpec MandosExprProofs MandosTextProofs.
From Verif Require Import ScenParseModel FileSpec ReadProofs.
From stdpp Require Import list.
Local Open Scope Z_scope.

(** * Fields, with what stood there before *)

Definition at_gen {A} (m : list (bytes * json)) (k : string) (S : json -> A -> A -> Prop) (d x : A)
  : Prop := (exists v, given m k v /\ S v d x) \/ (missing m k /\ x = d).

Lemma at_plain {A} m k (R : json -> A -> Prop) d x :
  at_gen m k (fun v _ => R v) d x <-> at_key m k R d x.
Proof. reflexivity. Qed.
Lemma at_from {A} m k (S : json -> A -> A -> Prop) (R : json -> A -> Prop) d x :
  (forall v, given m k v -> S v d x <-> R v x) -> at_gen m k S d x <-> at_key m k R d x.
Proof.
  intros H. unfold at_gen, at_key. split; (intros [(v & Hv & Hs)|Hm]; [left|by right]); exists v;
  (split; [done|]); by apply H.
Qed.
Lemma at_nil {A} k (S : json -> A -> A -> Prop) d x : at_gen [] k S d x <-> x = d.
Proof.
  unfold at_gen, missing, given. split.
  - intros [(v & Hv & _)|[_ H]]; [by apply elem_of_nil in Hv|done].
  - intros ->. right. split; [|done]. intros v Hv. by apply elem_of_nil in Hv.
Qed.
Lemma not_given r k v : str k ∉ map fst r -> ~ given r k v.
Proof. intros H Hv. apply H, elem_of_list_fmap. by exists (str k, v). Qed.
Lemma at_same {A} k v r (S : json -> A -> A -> Prop) d x : str k ∉ map fst r ->
  at_gen ((str k, v) :: r) k S d x <-> S v d x.
Proof.
  intros H. split.
  - intros [(w & Hw & Hs)|[Hm _]].
    + apply elem_of_cons in Hw as [[=]|Hw]; [by subst|]. by destruct (not_given r k w H).
    + destruct (Hm v). constructor.
  - intros Hs. left. exists v. split; [constructor|done].
Qed.
Lemma at_skip {A} k k' v r (S : json -> A -> A -> Prop) d x : k <> str k' ->
  at_gen ((k, v) :: r) k' S d x <-> at_gen r k' S d x.
Proof.
  intros H. unfold at_gen, missing, given. split.
  - intros [(w & Hw & Hs)|[Hm ->]].
    + apply elem_of_cons in Hw as [[=]|Hw]; [by subst|]. left. eauto.
    + right. split; [|done]. intros w Hw. apply (Hm w). by constructor.
  - intros [(w & Hw & Hs)|[Hm ->]].
    + left. exists w. split; [by constructor|done].
    + right. split; [|done]. intros w Hw. apply elem_of_cons in Hw as [[=]|Hw]; [by subst|]. by apply (Hm w).
Qed.
Lemma at_none {A} k r (S : json -> A -> A -> Prop) d x : str k ∉ map fst r ->
  at_gen r k S d x <-> x = d.
Proof.
  intros H. split.
  - intros [(w & Hw & _)|[_ ->]]; [by destruct (not_given r k w H)|done].
  - intros ->. right. split; [|done]. intros w. by apply not_given.
Qed.
Lemma only_cons k v r ks : only ((k, v) :: r) ks <-> k ∈ map str ks /\ only r ks.
Proof. unfold only. by rewrite Forall_cons. Qed.

Lemma over_cons {A} f k v r (a x : A) :
  over f ((k, v) :: r) a = SOk x <-> exists a', f k v a = SOk a' /\ over f r a' = SOk x.
Proof.
  cbn [over]. split; [apply sbind_ok|]. intros (a' & H & H'). by rewrite H.
Qed.
Lemma sbind_iff {A B} (r : sres A) (k : A -> sres B) b :
  sbind r k = SOk b <-> exists a, r = SOk a /\ k a = SOk b.
Proof. split; [apply sbind_ok|]. intros (a & -> & H). done. Qed.
Lemma each_iff {A B} (f : A -> sres B) l r : each f l = SOk r <-> Forall2 (fun x y => f x = SOk y) l r.
Proof. split; [apply each_ok|apply each_intro]. Qed.
Lemma Forall2_iff {A B} (P : A -> Prop) (R S : A -> B -> Prop) l r :
  Forall P l -> (forall x y, P x -> R x y <-> S x y) -> Forall2 R l r <-> Forall2 S l r.
Proof.
  intros Hp H. revert r. induction Hp as [|x l Hx Hl IH]; intros r.
  - split; intros Hr; inversion Hr; subst; constructor.
  - split; intros Hr; inversion Hr; subst; constructor; try (by apply H); by apply IH.
Qed.
Lemma as_map_iff v m : as_map v = SOk m <-> v = JMap m.
Proof. destruct v; cbn [as_map]; split; intros H; congruence. Qed.
Lemma as_list_iff v l : as_list v = SOk l <-> v = JList l.
Proof. destruct v; cbn [as_list]; split; intros H; congruence. Qed.
Lemma string_iff v s : parseString v = SOk s <-> v = JStr s.
Proof. destruct v; cbn [parseString]; split; intros H; congruence. Qed.
Lemma star_iff v : IsStar v = true <-> v = star.
Proof.
  split; [apply star_inv|]. intros ->. reflexivity.
Qed.
Lemma wj_values m : wj (JMap m) -> Forall (fun kv => wj (snd kv)) m.
Proof. intros [H _]%wj_map. eapply Forall_impl; [exact H|]. by intros ? [_ ?]. Qed.
Lemma wj_keys m : wj (JMap m) -> NoDup (map fst m).
Proof. by intros [_ H]%wj_map. Qed.

Section Proofs.
Context (files : bytes -> option bytes) (keccak : bytes -> bytes).
Notation expr := (expr files keccak).
Notation tree := (tree files keccak).

(** * Values *)

Lemma interpret_iff s b : interpretString files keccak s = SOk b <-> expr s b.
Proof.
  unfold interpretString. rewrite <- InterpretString_iff.
  destruct (InterpretString files keccak s); cbn [of_mres]; split; intros H; congruence.
Qed.
Lemma wj_plain v : wj v -> writable (fun _ => True) v.
Proof.
  revert v. apply (JsonPrintProofs.json_rec (fun v => wj v -> writable (fun _ => True) v)).
  - intros s _. by constructor.
  - intros b _. constructor.
  - intros l IH H. constructor. apply wj_list in H. rewrite Forall_forall in *. eauto.
  - intros m IH H. apply wj_map in H as [H Hn]. constructor; [|done]. rewrite Forall_forall in *.
    intros kv Hkv. split; [done|]. apply IH; [done|]. by apply H.
Qed.
Lemma subtree_ok v b : wj v -> interpretSubTree files keccak v = SOk b <-> tree v b.
Proof.
  intros Hw. unfold interpretSubTree. rewrite <- (subtree_iff files keccak v (wj_plain v Hw)).
  destruct (InterpretSubTree files keccak v); cbn [of_mres]; split; intros H; congruence.
Qed.

Lemma text_iff s x : bytes_of_text files keccak s = SOk x <-> key_bytes files keccak s x.
Proof.
  unfold bytes_of_text, key_bytes. rewrite sbind_iff. destruct x as [b o]; cbn [jb_orig jb_value]. split.
  - intros (a & Ha & [= -> ->]). split; [done|]. by apply interpret_iff.
  - intros [-> H]. exists b. split; [by apply interpret_iff|done].
Qed.
Lemma bytes_iff v x : processStringAsByteArray files keccak v = SOk x <-> plain_bytes files keccak v x.
Proof.
  unfold processStringAsByteArray, plain_bytes. rewrite sbind_iff.
  split; intros (s & Hs & Hx); exists s; (split; [by apply string_iff|by apply text_iff]).
Qed.
Lemma tree_iff v x : wj v -> processSubTreeAsByteArray files keccak v = SOk x <-> tree_bytes files keccak v x.
Proof.
  intros Hw. unfold processSubTreeAsByteArray, tree_bytes. rewrite sbind_iff.
  destruct x as [b o]; cbn [jt_orig jt_value]. split.
  - intros (a & Ha & [= -> ->]). split; [done|]. by apply subtree_ok.
  - intros [-> H]. exists b. split; [by apply subtree_ok|done].
Qed.
Lemma key_address_iff s x : parseAccountAddress files keccak s = SOk x <-> key_address files keccak s x.
Proof.
  unfold parseAccountAddress, key_address. destruct s as [|c s]; [split; [discriminate|by intros [? _]]|].
  rewrite sbind_iff. split.
  - intros (a & Ha & H). destruct (length (jb_value a) =? 32)%nat eqn:E; [|discriminate].
    injection H as ->. split; [done|]. split; [by apply text_iff|]. by apply Nat.eqb_eq.
  - intros (_ & H & E). exists x. split; [by apply text_iff|]. apply Nat.eqb_eq in E. by rewrite E.
Qed.
Lemma address_iff v x : address_field files keccak v = SOk x <-> address files keccak v x.
Proof.
  unfold address_field, address. rewrite sbind_iff.
  split; intros (s & Hs & Hx); exists s; (split; [by apply string_iff|by apply key_address_iff]).
Qed.
Lemma natural_iff v x : processBigInt files keccak v UnsignedBytes = SOk x <-> natural files keccak v x.
Proof.
  unfold processBigInt, parseBigInt, natural. rewrite sbind_iff. destruct x as [z o]; cbn [jz_orig jz_value]. split.
  - intros (s & Hs & H). apply sbind_ok in H as (y & Hy & [= <- <-]). apply sbind_ok in Hy as (b & Hb & [= <-]).
    split; [by apply string_iff|]. exists b. split; [by apply interpret_iff|]. by rewrite be_decode_value.
  - intros (-> & b & Hb & ->). exists o. split; [done|]. apply interpret_iff in Hb. rewrite Hb.
    cbn [sbind]. by rewrite be_decode_value.
Qed.
Lemma integer_iff v x : processBigInt files keccak v SignedBytes = SOk x <-> integer files keccak v x.
Proof.
  unfold processBigInt, parseBigInt, integer. rewrite sbind_iff. destruct x as [z o]; cbn [jz_orig jz_value]. split.
  - intros (s & Hs & H). apply sbind_ok in H as (y & Hy & [= <- <-]). apply sbind_ok in Hy as (b & Hb & [= <-]).
    split; [by apply string_iff|]. exists b. split; [by apply interpret_iff|]. by rewrite twos_decode_value.
  - intros (-> & b & Hb & ->). exists o. split; [done|]. apply interpret_iff in Hb. rewrite Hb.
    cbn [sbind]. by rewrite twos_decode_value.
Qed.
Lemma word_iff v x : processUint64 files keccak v = SOk x <-> word files keccak v x.
Proof.
  unfold processUint64, word. rewrite sbind_iff. destruct x as [z o]; cbn [ju_orig ju_value]. split.
  - intros (j & Hj & H). apply natural_iff in Hj as (-> & b & Hb & Hv). rewrite Hv in H.
    destruct (be_value b <? 2 ^ 64) eqn:E; [|discriminate]. injection H as <- <-. split; [done|].
    exists b. split; [done|]. split; [done|]. by apply Z.ltb_lt.
  - intros (-> & b & Hb & -> & Hl). exists (mkJBig (Some (be_value b)) o). split.
    + apply natural_iff. split; [done|]. by exists b.
    + cbn [jz_value jz_orig]. apply Z.ltb_lt in Hl. by rewrite Hl.
Qed.
Lemma bytes_check_iff v c : wj v -> parseCheckBytes files keccak v = SOk c <-> bytes_check files keccak v c.
Proof.
  intros Hw. unfold parseCheckBytes, bytes_check. pose proof (star_iff v) as Hs. destruct (IsStar v).
  - assert (v = star) as E by by apply Hs. split.
    + intros [= <-]. by left.
    + intros [[_ ->]|[Hn _]]; [done|contradiction].
  - assert (v <> star) as E by (intros ->; assert (false = true) by (by apply Hs); done).
    rewrite sbind_iff. split.
    + intros (j & Hj & [= <-]). right. split; [done|]. apply tree_iff in Hj as [Ho Ht]; [|done].
      exists (jt_value j). split; [done|]. by rewrite Ho.
    + intros [[? _]|(_ & b & Hb & ->)]; [contradiction|]. exists (mkJTree b v).
      split; [|done]. by apply tree_iff.
Qed.
Lemma big_check_iff f R v c : (forall x, processBigInt files keccak v f = SOk x <-> R v x) ->
  processCheckBigInt files keccak v f = SOk c <-> big_check R v c.
Proof.
  intros HR. unfold processCheckBigInt, big_check. pose proof (star_iff v) as Hs. destruct (IsStar v).
  - assert (v = star) as E by by apply Hs. split.
    + intros [= <-]. by left.
    + intros [[_ ->]|[Hn _]]; [done|contradiction].
  - assert (v <> star) as E by (intros ->; assert (false = true) by (by apply Hs); done).
    rewrite sbind_iff. split.
    + intros (j & Hj & [= <-]). right. split; [done|]. exists j. split; [by apply HR|done].
    + intros [[? _]|(_ & z & Hz & ->)]; [contradiction|]. exists z.
      split; [by apply HR|done].
Qed.
Lemma natural_check_iff v c :
  processCheckBigInt files keccak v UnsignedBytes = SOk c <-> big_check (natural files keccak) v c.
Proof. apply big_check_iff. intros x. apply natural_iff. Qed.
Lemma integer_check_iff v c :
  processCheckBigInt files keccak v SignedBytes = SOk c <-> big_check (integer files keccak) v c.
Proof. apply big_check_iff. intros x. apply integer_iff. Qed.
Lemma word_check_iff v c : processCheckUint64 files keccak v = SOk c <-> word_check files keccak v c.
Proof.
  unfold processCheckUint64, word_check. pose proof (star_iff v) as Hs. destruct (IsStar v).
  - assert (v = star) as E by by apply Hs. split.
    + intros [= <-]. by left.
    + intros [[_ ->]|[Hn _]]; [done|contradiction].
  - assert (v <> star) as E by (intros ->; assert (false = true) by (by apply Hs); done).
    rewrite sbind_iff. split.
    + intros (j & Hj & [= <-]). right. split; [done|]. exists j. split; [by apply word_iff|done].
    + intros [[? _]|(_ & u & Hu & ->)]; [contradiction|]. exists u. split; [by apply word_iff|done].
Qed.
Lemma list_iff {A} (f : json -> sres A) (R : json -> A -> Prop) v l : wj v ->
  (forall w y, wj w -> f w = SOk y <-> R w y) ->
  sbind (as_list v) (each f) = SOk l <-> list_of R v l.
Proof.
  intros Hw Hf. rewrite sbind_iff. unfold list_of.
  split; intros (vs & Hv & Hl); exists vs; [apply as_list_iff in Hv|].
  - subst v. split; [done|]. apply each_iff in Hl.
    eapply Forall2_iff; [by apply wj_list|intros x y Hx; symmetry; by apply Hf|exact Hl].
  - subst v. split; [done|]. apply each_iff. eapply Forall2_iff; [by apply wj_list|intros x y Hx; by apply Hf|exact Hl].
Qed.
Lemma map_iff {A} (f : bytes * json -> sres A) (R : bytes * json -> A -> Prop) v l : wj v ->
  (forall kv y, wj (snd kv) -> f kv = SOk y <-> R kv y) ->
  sbind (as_map v) (each f) = SOk l <-> map_of R v l.
Proof.
  intros Hw Hf. rewrite sbind_iff. unfold map_of.
  split; intros (vs & Hv & Hl); exists vs; [apply as_map_iff in Hv|].
  - subst v. split; [done|]. apply each_iff in Hl.
    eapply Forall2_iff; [by apply wj_values|intros x y Hx; symmetry; by apply Hf|exact Hl].
  - subst v. split; [done|]. apply each_iff. eapply Forall2_iff; [by apply wj_values|intros x y Hx; by apply Hf|exact Hl].
Qed.
Lemma strings_iff v l : wj v -> processStringList v = SOk l <-> list_of text v l.
Proof. intros Hw. apply list_iff; [done|]. intros w y _. apply string_iff. Qed.
Lemma bytes_list_iff v l : wj v -> parseByteArrayList files keccak v = SOk l <-> list_of (plain_bytes files keccak) v l.
Proof. intros Hw. apply list_iff; [done|]. intros w y _. apply bytes_iff. Qed.
Lemma tree_list_iff v l : wj v -> parseSubTreeList files keccak v = SOk l <-> list_of (tree_bytes files keccak) v l.
Proof. intros Hw. apply list_iff; [done|]. intros w y. apply tree_iff. Qed.
Lemma check_list_iff v l : wj v -> parseCheckBytesList files keccak v = SOk l <-> list_of (bytes_check files keccak) v l.
Proof. intros Hw. apply list_iff; [done|]. intros w y. apply bytes_check_iff. Qed.
End Proofs.
