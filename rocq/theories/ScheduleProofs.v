(** Lemmas about gas schedules. *)
From Verif Require Import Base VmTypes ScheduleModel ScheduleSpec.
From stdpp Require Import gmap strings.
From Coq Require Import Lia ZifyBool.
Local Open Scope Z_scope.

(** * Decoding *)

Lemma field_map g l f : In f l -> field (map (fun f => (f, g f)) l) f = g f.
Proof.
  unfold field. induction l as [|a l IH]; intros Hin; [destruct Hin|].
  cbn [map List.find fst]. destruct (String.eqb_spec a f) as [->|Hn]; [reflexivity|].
  apply IH. destruct Hin as [->|Hin]; [congruence|exact Hin].
Qed.

Definition sec_of (m : gas_map) s : gmap string Z := default ∅ (m !! section_name s).

Lemma says_here m s f v : says m s f v ->
  sec_of m s !! f = Some v \/
  sec_of m s !! f = None /\ exists k, same_letters k f /\ sec_of m s !! k = Some v.
Proof. intros (sec & Hs & H). unfold sec_of. rewrite Hs. exact H. Qed.

Lemma here_says m s f v :
  (sec_of m s !! f = Some v \/
   sec_of m s !! f = None /\ exists k, same_letters k f /\ sec_of m s !! k = Some v) ->
  says m s f v.
Proof.
  unfold sec_of, says. destruct (m !! section_name s) as [sec|]; cbn [from_option id]; intros H.
  - exists sec. split; [reflexivity|exact H].
  - exfalso. destruct H as [H|(_ & k & _ & H)]; rewrite lookup_empty in H; discriminate.
Qed.

Lemma visited o (m : gmap string Z) k v : In (k, v) (mo_visit o m) <-> m !! k = Some v.
Proof.
  rewrite <- elem_of_list_In, (mo_all o m), elem_of_map_to_list. reflexivity.
Qed.

(** a price that was found is one the schedule gives *)
Lemma decode_found o m s f : decode_field o (sec_of m s) f <> 0 ->
  says m s f (decode_field o (sec_of m s) f).
Proof.
  intros H. apply here_says. unfold decode_field in *.
  destruct (sec_of m s !! f) as [v|] eqn:Ef; [left; reflexivity|right; split; [reflexivity|]].
  destruct (List.find _ _) as [p|] eqn:E; [|congruence].
  apply find_some in E as [Hin Hp]. destruct p as [k v]. cbn in *.
  exists k. split; [apply String.eqb_eq; exact Hp|]. apply (visited o). exact Hin.
Qed.

(** a price the schedule gives is found *)
Lemma decode_says o m s f v : says m s f v ->
  exists v', says m s f v' /\ decode_field o (sec_of m s) f = v'.
Proof.
  intros H. exists (decode_field o (sec_of m s) f). split; [|reflexivity].
  apply here_says. unfold decode_field.
  destruct (sec_of m s !! f) as [w|] eqn:Ef; [left; reflexivity|right; split; [reflexivity|]].
  apply says_here in H. destruct H as [H|(_ & k & Hk & H)]; [congruence|].
  destruct (List.find _ _) as [[k' v']|] eqn:E.
  - apply find_some in E as [Hin Hp]. cbn in *. exists k'.
    split; [apply String.eqb_eq; exact Hp|]. apply (visited o). exact Hin.
  - exfalso. apply (visited o) in H. pose proof (find_none _ _ E _ H) as Hf.
    cbn in Hf. unfold same_letters in Hk. rewrite Hk, String.eqb_refl in Hf. discriminate.
Qed.

Lemma decode_exact o m s f v : unambiguous m -> In f (section_fields s) -> says m s f v ->
  decode_field o (sec_of m s) f = v.
Proof.
  intros Hu Hf Hs. destruct (decode_says o m s f v Hs) as (v' & Hs' & ->).
  exact (Hu s f v' v Hf Hs' Hs).
Qed.

Lemma fits_fitted s v v' : fits s v v' <-> v' = fitted s v.
Proof. destruct s; cbn; reflexivity. Qed.

(** * Acceptance *)

Lemma check_section o m s :
  checkForZeroUint64Fields (decode_section o m s) = true <->
  (forall f, In f (section_fields s) -> fitted s (decode_field o (sec_of m s) f) <> 0).
Proof.
  unfold checkForZeroUint64Fields, decode_section. rewrite forallb_forall. split.
  - intros H f Hf. specialize (H (f, fitted s (decode_field o (sec_of m s) f))).
    cbn [snd] in H. assert (Hn : negb (fitted s (decode_field o (sec_of m s) f) =? 0) = true).
    { apply H. apply in_map_iff. exists f. split; [reflexivity|exact Hf]. }
    lia.
  - intros H p Hp. apply in_map_iff in Hp as (f & <- & Hf). cbn [snd]. specialize (H f Hf).
    unfold sec_of in H. lia.
Qed.

Lemma created o m : CreateGasConfig o m =
  if forallb (fun s => checkForZeroUint64Fields (decode_section o m s))
       [SBase; SElrond; SBigInt; SEth; SCrypto; SOpcode]
  then Some (mkGasCost (decode_section o m SBase) (decode_section o m SBigInt)
               (decode_section o m SEth) (decode_section o m SElrond)
               (decode_section o m SCrypto) (decode_section o m SOpcode))
  else None.
Proof.
  unfold CreateGasConfig. cbn [forallb].
  repeat (destruct (checkForZeroUint64Fields _); cbn [negb andb]; try reflexivity).
Qed.

Lemma created_section o m c s : CreateGasConfig o m = Some c ->
  gc_section c s = decode_section o m s.
Proof.
  rewrite created. destruct (forallb _ _); intros [= <-]. destruct s; reflexivity.
Qed.

Lemma created_iff o m :
  is_Some (CreateGasConfig o m) <->
  (forall s f, In f (section_fields s) -> fitted s (decode_field o (sec_of m s) f) <> 0).
Proof.
  rewrite created. split.
  - intros [c Hc]. destruct (forallb _ _) eqn:E; [|discriminate].
    rewrite forallb_forall in E. intros s. apply check_section. apply E.
    destruct s; cbn; tauto.
  - intros H. destruct (forallb _ _) eqn:E; [eexists; reflexivity|].
    exfalso. apply Bool.not_true_iff_false in E. apply E. apply forallb_forall. intros s _.
    apply check_section. apply H.
Qed.

Lemma fitted_0 s : fitted s 0 = 0.
Proof. destruct s; reflexivity. Qed.

Lemma accepts_complete o m : unambiguous m -> (is_Some (CreateGasConfig o m) <-> complete m).
Proof.
  intros Hu. rewrite created_iff. split.
  - intros H s f Hf. specialize (H s f Hf).
    exists (decode_field o (sec_of m s) f), (fitted s (decode_field o (sec_of m s) f)).
    split; [|split; [apply fits_fitted; reflexivity|exact H]].
    apply decode_found. intros H0. rewrite H0, fitted_0 in H. congruence.
  - intros H s f Hf. destruct (H s f Hf) as (v & v' & Hs & Hfit & Hn).
    apply fits_fitted in Hfit. rewrite (decode_exact o m s f v Hu Hf Hs). congruence.
Qed.

(** a schedule accepted with any order is complete *)
Lemma accepted_complete o m c : CreateGasConfig o m = Some c -> complete m.
Proof.
  intros Hc. assert (H : is_Some (CreateGasConfig o m)) by (eexists; exact Hc).
  rewrite created_iff in H. intros s f Hf. specialize (H s f Hf).
  exists (decode_field o (sec_of m s) f), (fitted s (decode_field o (sec_of m s) f)).
  split; [|split; [apply fits_fitted; reflexivity|exact H]].
  apply decode_found. intros H0. rewrite H0, fitted_0 in H. congruence.
Qed.

Definition price (c : gas_cost) (s : section) (f : string) : Z := field (gc_section c s) f.

Lemma created_price o m c s f : CreateGasConfig o m = Some c -> In f (section_fields s) ->
  price c s f = fitted s (decode_field o (sec_of m s) f).
Proof.
  intros Hc Hf. unfold price. rewrite (created_section o m c s Hc). unfold decode_section, sec_of.
  apply (field_map (fun f => fitted s (decode_field o (default ∅ (m !! section_name s)) f))).
  exact Hf.
Qed.

Lemma created_list o m c : unambiguous m -> CreateGasConfig o m = Some c ->
  price_list (fun s f => field (gc_section c s) f) m.
Proof.
  intros Hu Hc s f v Hf Hs. apply fits_fitted. change (price c s f = fitted s v).
  rewrite (created_price o m c s f Hc Hf), (decode_exact o m s f v Hu Hf Hs). reflexivity.
Qed.

(** * Bounds *)

Lemma accepted_bounds o m c s f : typed_map m -> CreateGasConfig o m = Some c ->
  In f (section_fields s) ->
  0 < field (gc_section c s) f <= max_u64 /\
  (s = SOpcode -> field (gc_section c s) f < 4294967296).
Proof.
  intros Ht Hc Hf. change (0 < price c s f <= max_u64 /\ (s = SOpcode -> price c s f < 4294967296)).
  rewrite (created_price o m c s f Hc Hf).
  assert (Hn : fitted s (decode_field o (sec_of m s) f) <> 0).
  { apply created_iff; [eexists; exact Hc|exact Hf]. }
  assert (Hd : in_u64 (decode_field o (sec_of m s) f)).
  { destruct (decode_found o m s f) as (sec & Hsec & Hv).
    { intros H0. rewrite H0, fitted_0 in Hn. congruence. }
    destruct Hv as [Hv|(_ & k & _ & Hv)]; exact (Ht _ _ _ _ Hsec Hv). }
  unfold in_u64, max_u64 in *.
  destruct s; cbn [fitted] in *;
    pose proof (Z.mod_pos_bound (decode_field o (sec_of m SOpcode) f) 4294967296 ltac:(lia));
    split; try (intros H'; discriminate H'); lia.
Qed.

Lemma entry_listed c : In (snd (entry c)) (section_fields (fst (entry c))).
Proof.
  assert (H : existsb (String.eqb (snd (entry c))) (section_fields (fst (entry c))) = true)
    by (destruct c; vm_compute; reflexivity).
  apply existsb_exists in H as (x & Hx & He). apply String.eqb_eq in He. rewrite He. exact Hx.
Qed.

(** * The opcode table *)

Lemma table_is F :
  fold_left (fun a p => match opcode_number 0 opcodes (fst p) with
                        | Some i => <[i := F (snd p)]> a
                        | None => a
                        end) opcode_assignments (replicate 448 0) = map F opcodes.
Proof. vm_compute. reflexivity. Qed.

Lemma opcode_listed op : In op opcodes -> In op (section_fields SOpcode).
Proof.
  assert (H : forallb (fun x => existsb (String.eqb x) opcode_fields) opcodes = true)
    by (vm_compute; reflexivity).
  intros Hin. rewrite forallb_forall in H. specialize (H op Hin).
  apply existsb_exists in H as (x & Hx & He). apply String.eqb_eq in He. rewrite He. exact Hx.
Qed.

Lemma table_of o m c : unambiguous m -> CreateGasConfig o m = Some c ->
  opcode_table (ToOpcodeCostsArray (gc_opcode c)) m.
Proof.
  intros Hu Hc. unfold ToOpcodeCostsArray. rewrite (table_is (field (gc_opcode c))). split.
  - apply map_length.
  - intros n op v Hn Hs. rewrite nth_error_map, Hn. cbn [option_map]. f_equal.
    assert (Hin : In op (section_fields SOpcode)) by (apply opcode_listed, (nth_error_In _ _ Hn)).
    exact (created_list o m c Hu Hc SOpcode op v Hin Hs).
Qed.

(** * Histories *)

Lemma history os h m0 : unambiguous m0 -> forall ms,
  Forall unambiguous ms -> length os = length ms ->
  (exists o1 o2, NewArwenVM o1 o2 m0 = Some h) ->
  exists g, governs m0 ms g /\
    let h' := fold_left (fun h p => GasScheduleChange (fst (fst p)) (snd (fst p)) (snd p) h)
                (combine os ms) h in
    price_list (fun s f => field (gc_section (ph_costs h') s) f) g /\
    opcode_table (ph_opcodes h') g.
Proof.
  intros Hu0 ms Hms Hlen (o1 & o2 & Hnew). revert os Hlen.
  induction ms as [|m ms IH] using rev_ind; intros os Hlen.
  - exists m0. split; [constructor|]. destruct os; [|discriminate]. cbn [combine fold_left].
    unfold NewArwenVM in Hnew. apply bind_Some in Hnew as (c1 & H1 & Hnew).
    apply bind_Some in Hnew as (c2 & H2 & [= <-]). cbn [ph_costs ph_opcodes].
    split; [exact (created_list o1 m0 c1 Hu0 H1)|exact (table_of o2 m0 c2 Hu0 H2)].
  - apply Forall_app in Hms as [Hms Hm]. apply Forall_cons in Hm as [Hm _].
    rewrite app_length in Hlen. cbn in Hlen.
    destruct os as [|o os _] using rev_ind; [cbn in Hlen; lia|].
    rewrite app_length in Hlen. cbn in Hlen.
    assert (Hlen' : length os = length ms) by lia.
    destruct (IH Hms os Hlen') as (g & Hg & Hp & Ht).
    assert (Hsplit : combine (os ++ [o]) (ms ++ [m]) = combine os ms ++ [(o, m)]).
    { clear -Hlen'. revert ms Hlen'. induction os as [|x os IH]; intros [|y ms]; cbn; try discriminate.
      - reflexivity.
      - intros [= H]. rewrite (IH ms H). reflexivity. }
    rewrite Hsplit, fold_left_app. cbn [fold_left fst snd].
    set (h1 := fold_left _ _ h) in *. clearbody h1. unfold GasScheduleChange.
    destruct (CreateGasConfig (fst o) m) as [c|] eqn:Ec.
    + exists m. assert (Hcm : complete m) by exact (accepted_complete _ _ _ Ec).
      split; [constructor; exact Hcm|].
      destruct (proj2 (accepts_complete (snd o) m Hm) Hcm) as [c' Ec'].
      rewrite Ec'. cbn [ph_costs ph_opcodes].
      split; [exact (created_list _ m c' Hm Ec')|exact (table_of _ m c Hm Ec)].
    + exists g. split; [|cbn [ph_costs ph_opcodes]; split; assumption].
      apply governs_old; [|exact Hg]. intros Hcm.
      destruct (proj2 (accepts_complete (fst o) m Hm) Hcm) as [c Hc]. congruence.
Qed.

Lemma governs_unique m0 ms g1 g2 : governs m0 ms g1 -> governs m0 ms g2 -> g1 = g2.
Proof.
  intros H1. revert g2. induction H1 as [|ms m Hc|ms m g Hn H IH]; intros g2 H2.
  - inversion H2 as [|ms' m' Hc' He|ms' m' g' Hn' H' He]; subst; try reflexivity.
    + destruct ms'; discriminate.
    + destruct ms'; discriminate.
  - inversion H2 as [He|ms' m' Hc' He|ms' m' g' Hn' H' He]; subst.
    + destruct ms; discriminate.
    + apply app_inj_tail in He as [_ ->]. reflexivity.
    + apply app_inj_tail in He as [_ ->]. contradiction.
  - inversion H2 as [He|ms' m' Hc' He|ms' m' g' Hn' H' He]; subst.
    + destruct ms; discriminate.
    + apply app_inj_tail in He as [_ ->]. contradiction.
    + apply app_inj_tail in He as [-> ->]. apply IH. exact H'.
Qed.

(** * Schedules made for tests *)

Definition sorted_order : map_order := mkOrder map_to_list (fun m => reflexivity _).

Definition made_price (value lock : Z) (f : string) : Z :=
  if String.eqb f "AsyncCallbackGasLock" then lock
  else if String.eqb f "LocalsUnmetered" then 100 else value.

Lemma all_found {A B C} (o : option A) (g : A -> B -> C) (h : B -> C) (l : list B) :
  option_map (fun x => map (g x) l) o = Some (map h l) ->
  forall f, In f l -> exists x, o = Some x /\ g x f = h f.
Proof.
  destruct o as [x|]; [|discriminate]. cbn [option_map]. intros [= H] f Hf.
  exists x. split; [reflexivity|]. exact (ext_in_map H f Hf).
Qed.

Lemma made_found value lock s :
  option_map (fun sec : gmap string Z => map (fun f => sec !! f) (section_fields s))
    (MakeGasMap value lock !! section_name s)
  = Some (map (fun f => Some (made_price value lock f)) (section_fields s)).
Proof. destruct s; vm_compute; reflexivity. Qed.

Lemma made_lookup value lock s f : In f (section_fields s) ->
  exists sec : gmap string Z, MakeGasMap value lock !! section_name s = Some sec /\
    sec !! f = Some (made_price value lock f).
Proof. exact (all_found _ _ _ _ (made_found value lock s) f). Qed.

Lemma made_says value lock s f : In f (section_fields s) ->
  says (MakeGasMap value lock) s f (made_price value lock f).
Proof.
  intros Hf. destruct (made_lookup value lock s f Hf) as (sec & Hs & Hv).
  exists sec. split; [exact Hs|left; exact Hv].
Qed.

Lemma made_unambiguous value lock : unambiguous (MakeGasMap value lock).
Proof.
  assert (H : forall s f v, In f (section_fields s) -> says (MakeGasMap value lock) s f v ->
                v = made_price value lock f).
  { intros s f v Hf (sec & Hs & Hv).
    destruct (made_lookup value lock s f Hf) as (sec' & Hs' & Hv').
    assert (sec' = sec) by congruence. subst sec'.
    destruct Hv as [Hv|(Hv & _)]; congruence. }
  intros s f v1 v2 Hf H1 H2. rewrite (H s f v1 Hf H1), (H s f v2 Hf H2). reflexivity.
Qed.

Lemma made_complete value lock : value mod 4294967296 <> 0 -> lock <> 0 ->
  complete (MakeGasMap value lock).
Proof.
  intros Hv Hl s f Hf. exists (made_price value lock f), (fitted s (made_price value lock f)).
  split; [apply made_says; exact Hf|]. split; [apply fits_fitted; reflexivity|].
  assert (value <> 0) by (intros ->; apply Hv; reflexivity).
  assert (Hno : s = SOpcode -> String.eqb f "AsyncCallbackGasLock" = false).
  { intros ->. destruct (String.eqb_spec f "AsyncCallbackGasLock") as [->|]; [|reflexivity].
    exfalso. cbn [section_fields] in Hf.
    assert (Hx : existsb (String.eqb "AsyncCallbackGasLock") opcode_fields = true).
    { apply existsb_exists. exists "AsyncCallbackGasLock"%string.
      split; [exact Hf|apply String.eqb_refl]. }
    vm_compute in Hx. discriminate. }
  unfold made_price.
  destruct s; cbn [fitted]; [| | | | |rewrite (Hno eq_refl)];
    destruct (String.eqb f "AsyncCallbackGasLock"), (String.eqb f "LocalsUnmetered");
    try assumption; try lia; vm_compute; discriminate.
Qed.

Lemma made_typed value lock : in_u64 value -> in_u64 lock -> typed_map (MakeGasMap value lock).
Proof.
  intros Hv Hl.
  assert (Hall : map_Forall (fun _ (sec : gmap string Z) => map_Forall (fun _ v => in_u64 v) sec)
                   (MakeGasMap value lock)).
  { assert (Hin : forall l : list (string * Z), Forall (fun p => in_u64 (snd p)) l ->
              map_Forall (fun _ v => in_u64 v) (assign_all l)).
    { unfold assign_all. intros l Hall.
      assert (H0 : map_Forall (fun _ v => in_u64 v) (∅ : gmap string Z)) by apply map_Forall_empty.
      revert H0. generalize (∅ : gmap string Z). induction Hall as [|p l Hp _ IH]; intros a Ha; [exact Ha|].
      cbn [fold_left]. apply IH. apply map_Forall_insert_2; assumption. }
    assert (Hs : forall l n k x, map snd l = replicate n value ++ x :: replicate k value ->
              in_u64 x -> Forall (fun p : string * Z => in_u64 (snd p)) l).
    { intros l n k x Hl' Hx. apply Forall_map. rewrite Hl'. apply Forall_app. split; [apply Forall_replicate; exact Hv|].
      apply Forall_cons. split; [exact Hx|apply Forall_replicate; exact Hv]. }
    unfold MakeGasMap. cbn [fold_left fst snd].
    repeat (apply map_Forall_insert_2; [apply Hin|]); try apply map_Forall_empty.
    - apply (Hs _ 448%nat 0%nat 100); [vm_compute; reflexivity|unfold in_u64, max_u64; lia].
    - apply (Hs _ 0%nat 5%nat value); [vm_compute; reflexivity|exact Hv].
    - apply (Hs _ 0%nat 34%nat value); [vm_compute; reflexivity|exact Hv].
    - apply (Hs _ 0%nat 32%nat value); [vm_compute; reflexivity|exact Hv].
    - apply (Hs _ 33%nat 4%nat lock); [vm_compute; reflexivity|exact Hl].
    - apply (Hs _ 0%nat 6%nat value); [vm_compute; reflexivity|exact Hv].
    - apply (Hs _ 0%nat 15%nat value); [vm_compute; reflexivity|exact Hv]. }
  intros s sec k v Hs Hk. exact (Hall s sec Hs k v Hk).
Qed.

Lemma new_host o1 o2 m : unambiguous m -> complete m -> exists h, NewArwenVM o1 o2 m = Some h.
Proof.
  intros Hu Hc. unfold NewArwenVM.
  destruct (proj2 (accepts_complete o1 m Hu) Hc) as [c1 ->].
  destruct (proj2 (accepts_complete o2 m Hu) Hc) as [c2 ->].
  eexists. reflexivity.
Qed.

(** the result of reading one field of a configuration *)
Lemma created_field o m s f v : In f (section_fields s) ->
  match CreateGasConfig o m with Some _ => true | None => false end = true ->
  fitted s (decode_field o (sec_of m s) f) = v ->
  exists c, CreateGasConfig o m = Some c /\ field (gc_section c s) f = v.
Proof.
  intros Hf Hc Hv. destruct (CreateGasConfig o m) as [c|] eqn:E; [|discriminate].
  exists c. split; [reflexivity|]. change (price c s f = v).
  rewrite (created_price o m c s f E Hf). exact Hv.
Qed.
