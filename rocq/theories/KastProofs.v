(** The text says as much as the value, and only code is replaced. *)
From Verif Require Import Base JsonModel JsonSpec JsonProofs JsonParseProofs JsonPrintProofs KastModel KastSpec.
From stdpp Require Import list.

(** * Nothing is lost *)

(** one string is not the beginning of another with its end *)
Lemma longer (s u r r' : bytes) : quotable (s ++ u) ->
  str "\"""",""String"")" ++ r = u ++ str "\"""",""String"")" ++ r' -> u = [].
Proof.
  intros [Hq Hb] H. destruct u as [|c1 u]; [reflexivity|exfalso].
  injection H as <- H. destruct u as [|c2 u]; [exact (Hb s eq_refl)|].
  injection H as <- H. destruct u as [|c3 u]; [discriminate H|].
  injection H as <- H. destruct (Hq (s ++ [cBackslash; cQuote]) u) as [a' Ha].
  - rewrite <- app_assoc. reflexivity.
  - change (s ++ [cBackslash; cQuote]) with (s ++ [cBackslash] ++ [cQuote]) in Ha. rewrite app_assoc in Ha.
    apply app_inj_tail in Ha as [_ Ha]. discriminate Ha.
Qed.
Lemma string_once s s' r r' : quotable s -> quotable s' ->
  writeStringKast s ++ r = writeStringKast s' ++ r' -> s = s' /\ r = r'.
Proof.
  intros Hs Hs' H. unfold writeStringKast in H. rewrite <- !app_assoc in H. apply app_inv_head in H.
  assert (s = s') as ->.
  { apply app_eq_app in H as (u & [[-> H] | [-> H]]).
    - pose proof (longer _ _ _ _ Hs H) as ->. apply app_nil_r.
    - pose proof (longer _ _ _ _ Hs' H) as ->. symmetry. apply app_nil_r. }
  apply app_inv_head, app_inv_head in H. auto.
Qed.

Definition once (j : json) : Prop := forall j' r r', writable quotable j -> writable quotable j' ->
  writeKast j ++ r = writeKast j' ++ r' -> j = j' /\ r = r'.

Lemma elements_once (l : list json) : Forall once l -> forall l' r r',
  Forall (writable quotable) l -> Forall (writable quotable) l' ->
  concat (map (fun v => str "`_,__IELE-DATA`(" ++ writeKast v ++ str ",") l) ++ kastEnd ++ r =
  concat (map (fun v => str "`_,__IELE-DATA`(" ++ writeKast v ++ str ",") l') ++ kastEnd ++ r' ->
  l = l' /\ r = r'.
Proof.
  induction 1 as [|v l Hv _ IH]; intros [|v' l'] r r' Hw Hw' H.
  - exact (conj eq_refl (app_inv_head kastEnd _ _ H)).
  - discriminate H.
  - discriminate H.
  - apply Forall_cons in Hw as [Hw1 Hw2]. apply Forall_cons in Hw' as [Hw1' Hw2'].
    cbn [map concat] in H. rewrite <- !app_assoc in H. apply app_inv_head in H.
    destruct (Hv _ _ _ Hw1 Hw1' H) as [-> H2]. apply app_inv_head in H2.
    destruct (IH _ _ _ Hw2 Hw2' H2) as [-> ->]. auto.
Qed.
Definition string_and_value (kv : bytes * json) : Prop := quotable (fst kv) /\ writable quotable (snd kv).
Definition entry_text (kv : bytes * json) : bytes :=
  str "`_,__IELE-DATA`(`_:__IELE-DATA`(" ++ writeStringKast (fst kv) ++ str "," ++ writeKast (snd kv) ++ str "),".
Lemma entries_once (l : list (bytes * json)) : Forall (fun kv => once (snd kv)) l -> forall l' r r',
  Forall string_and_value l -> Forall string_and_value l' ->
  concat (map entry_text l) ++ kastEnd ++ r = concat (map entry_text l') ++ kastEnd ++ r' ->
  l = l' /\ r = r'.
Proof.
  induction 1 as [|[k v] l Hv _ IH]; intros [|[k' v'] l'] r r' Hw Hw' H.
  - exact (conj eq_refl (app_inv_head kastEnd _ _ H)).
  - discriminate H.
  - discriminate H.
  - apply Forall_cons in Hw as [[Hk Hw1] Hw2]. apply Forall_cons in Hw' as [[Hk' Hw1'] Hw2'].
    cbn [fst snd] in *. cbn [map concat] in H. unfold entry_text at 1 in H. unfold entry_text at 2 in H.
    cbn [fst snd] in H. rewrite <- !app_assoc in H. apply app_inv_head in H.
    destruct (string_once _ _ _ _ Hk Hk' H) as [-> H1]. apply app_inv_head in H1.
    destruct (Hv _ _ _ Hw1 Hw1' H1) as [-> H2]. apply app_inv_head in H2.
    destruct (IH _ _ _ Hw2 Hw2' H2) as [-> ->]. auto.
Qed.

Lemma writes_once j : once j.
Proof.
  induction j as [s|b|l IH|m IH] using json_rec; intros [s'|b'|l'|m'] r r' Hw Hw' H;
    inversion Hw as [? Hs|?|? Hl|? Hm Hn]; inversion Hw' as [? Hs'|?|? Hl'|? Hm' Hn']; subst;
    try discriminate H; try (destruct b; discriminate H); try (destruct b'; discriminate H).
  - destruct (string_once _ _ _ _ Hs Hs' H) as [-> ->]. auto.
  - destruct b, b'; try discriminate H; apply app_inv_head in H; auto.
  - cbn [writeKast] in H. rewrite <- !app_assoc in H. apply app_inv_head in H.
    destruct (elements_once l IH _ _ _ Hl Hl' H) as [-> H1]. apply app_inv_head, app_inv_head in H1. auto.
  - cbn [writeKast] in H. rewrite <- !app_assoc in H. apply app_inv_head in H.
    destruct (entries_once m IH _ _ _ Hm Hm' H) as [-> H1]. apply app_inv_head, app_inv_head in H1. auto.
Qed.

(** * Code *)
Lemma create_spec m : isCreateTx m = true <-> (str "to", JStr []) ∈ m.
Proof.
  unfold isCreateTx. rewrite existsb_exists. split.
  - intros ([k v] & Hin & H). apply andb_prop in H as [H1 H2]. apply bool_decide_eq_true_1 in H1. cbn in *. subst k.
    destruct v as [[|]| | |]; try discriminate H2. apply elem_of_list_In. exact Hin.
  - intros H. exists (str "to", JStr []). split; [apply elem_of_list_In; exact H|]. reflexivity.
Qed.
Lemma isCode_spec m k : isCode (isCreateTx m) k = true <-> code_key m k.
Proof.
  unfold isCode, code_key. rewrite orb_true_iff, andb_true_iff, !bool_decide_eq_true, create_spec. reflexivity.
Qed.

Definition field (f : bytes -> bytes) (create : bool) (kv : bytes * json) : bytes * json :=
  (fst kv, if isCode create (fst kv)
           then match snd kv with JStr s => JStr (f s) | v => v end
           else processTestCode f (snd kv)).
Lemma process_map f m : processTestCode f (JMap m) = JMap (map (field f (isCreateTx m)) m).
Proof. reflexivity. Qed.

Lemma code_replaced f p : forall j s, code_at p j -> value_at p j = Some (JStr s) ->
  value_at p (processTestCode f j) = Some (JStr (f s)).
Proof.
  induction p as [|i p IH]; intros j s Hc Hv; [inversion Hc|].
  inversion Hc as [m i' k v Hi Hk | m i' k v p' Hi Hk Hp | l i' v p' Hi Hp]; subst.
  - rewrite process_map. cbn [value_at] in *. rewrite Hi in Hv. injection Hv as ->.
    rewrite list_lookup_fmap, Hi. cbn [fmap option_fmap option_map field fst snd].
    apply isCode_spec in Hk. rewrite Hk. reflexivity.
  - rewrite process_map. cbn [value_at] in *. rewrite Hi in Hv.
    rewrite list_lookup_fmap, Hi. cbn [fmap option_fmap option_map field fst snd] in *.
    destruct (isCode (isCreateTx m) k) eqn:E; [apply isCode_spec in E; contradiction|]. apply IH; assumption.
  - cbn [value_at processTestCode] in *. rewrite Hi in Hv. rewrite list_lookup_fmap, Hi. cbn. apply IH; assumption.
Qed.

Lemma shape_refl v : same_shape v v.
Proof. destruct v; reflexivity. Qed.
Lemma process_shape f v : same_shape v (processTestCode f v).
Proof.
  destruct v; try reflexivity.
  - cbn. rewrite map_length. reflexivity.
  - rewrite process_map. cbn. rewrite map_map. reflexivity.
Qed.
Lemma rest_kept f p : forall j v, value_at p j = Some v -> ~ code_at p j ->
  exists v', value_at p (processTestCode f j) = Some v' /\ same_shape v v'.
Proof.
  induction p as [|i p IH]; intros j v Hv Hc.
  - injection Hv as ->. exists (processTestCode f v). split; [reflexivity|apply process_shape].
  - destruct j as [s|b|l|m]; try discriminate Hv.
    + cbn [value_at processTestCode] in *. destruct (l !! i) as [u|] eqn:Hi; [|discriminate].
      rewrite list_lookup_fmap, Hi. cbn. apply IH; [exact Hv|]. intros H. apply Hc. eapply ca_list; eauto.
    + rewrite process_map. cbn [value_at] in *. destruct (m !! i) as [[k u]|] eqn:Hi; [|discriminate].
      rewrite list_lookup_fmap, Hi. cbn [fmap option_fmap option_map field fst snd] in *.
      destruct (isCode (isCreateTx m) k) eqn:E.
      * apply isCode_spec in E. destruct p as [|i' p]; [destruct Hc; eapply ca_here; eauto|].
        destruct u as [s|b|l'|m']; try discriminate Hv; exists v; (split; [exact Hv|apply shape_refl]).
      * apply IH; [exact Hv|]. intros H. apply Hc. eapply ca_map; eauto.
        intros F. apply isCode_spec in F. congruence.
Qed.
Lemma code_not_string f p : forall j v, value_at p j = Some v -> (forall s, v <> JStr s) -> code_at p j ->
  value_at p (processTestCode f j) = Some v.
Proof.
  induction p as [|i p IH]; intros j v Hv Hs Hc; [inversion Hc|].
  inversion Hc as [m i' k u Hi Hk | m i' k u p' Hi Hk Hp | l i' u p' Hi Hp]; subst.
  - rewrite process_map. cbn [value_at] in *. rewrite Hi in Hv. injection Hv as ->.
    rewrite list_lookup_fmap, Hi. cbn [fmap option_fmap option_map field fst snd].
    apply isCode_spec in Hk. rewrite Hk. destruct v; try reflexivity. destruct (Hs s). reflexivity.
  - rewrite process_map. cbn [value_at] in *. rewrite Hi in Hv.
    rewrite list_lookup_fmap, Hi. cbn [fmap option_fmap option_map field fst snd] in *.
    destruct (isCode (isCreateTx m) k) eqn:E; [apply isCode_spec in E; contradiction|]. apply IH; assumption.
  - cbn [value_at processTestCode] in *. rewrite Hi in Hv. rewrite list_lookup_fmap, Hi. cbn. apply IH; assumption.
Qed.

Lemma process_writable f : (forall s, quotable s -> quotable (f s)) -> forall j, writable quotable j ->
  writable quotable (processTestCode f j).
Proof.
  intros Hf j. induction j as [s|b|l IH|m IH] using json_rec; intros Hw; [exact Hw|exact Hw| |].
  - inversion Hw as [| |? Hl|]; subst. cbn [processTestCode]. apply wr_list. apply Forall_fmap.
    clear Hw. induction IH as [|v l Hv _ IHl]; [constructor|]. apply Forall_cons in Hl as [H1 H2].
    constructor; [exact (Hv H1)|exact (IHl H2)].
  - inversion Hw as [| | |? Hm Hn]; subst. rewrite process_map. apply wr_map.
    + generalize (isCreateTx m). intros create. apply Forall_fmap. clear Hw Hn.
      induction IH as [|[k v] l Hv _ IHl]; [constructor|]. apply Forall_cons in Hm as [[H1 H2] H3].
      constructor; [|exact (IHl H3)]. cbn in *. split; [exact H1|].
      destruct (isCode create k); [|exact (Hv H2)]. destruct v; try exact H2. apply wr_string, Hf. inversion H2. assumption.
    + rewrite map_map. cbn [field fst]. exact Hn.
Qed.

Lemma convert_ok f data text : ConvertOrderedJSONToKast f data = KOk text <->
  exists j, ParseOrderedJSON data = JOk (Some j) /\ text = writeKast (processTestCode f j).
Proof.
  unfold ConvertOrderedJSONToKast. destruct (ParseOrderedJSON data) as [[j|]|e].
  - split; [intros [= <-]; eauto|]. intros (j' & [= <-] & ->). reflexivity.
  - split; [discriminate|]. intros (j' & H & _). discriminate H.
  - split; [discriminate|]. intros (j' & H & _). discriminate H.
Qed.
Lemma convert_total f data : ConvertOrderedJSONToKast f data <> KPanic.
Proof.
  unfold ConvertOrderedJSONToKast. destruct (ParseOrderedJSON data) as [[j|]|e] eqn:E; try discriminate.
  apply parse_exact in E as (v & H & _). discriminate H.
Qed.
Lemma convert_once f data data' j j' :
  (forall s, quotable s -> quotable (f s)) ->
  ParseOrderedJSON data = JOk (Some j) -> ParseOrderedJSON data' = JOk (Some j') ->
  (ConvertOrderedJSONToKast f data = ConvertOrderedJSONToKast f data' <->
   processTestCode f j = processTestCode f j').
Proof.
  intros Hf H H'. unfold ConvertOrderedJSONToKast. rewrite H, H'. split; [|intros ->; reflexivity]. intros [= E].
  apply (f_equal (fun t => t ++ [])) in E.
  destruct (writes_once _ _ _ _ (process_writable f Hf _ (parsed_writable _ _ H))
              (process_writable f Hf _ (parsed_writable _ _ H')) E) as [-> _]. reflexivity.
Qed.

(** * What K reads *)
Lemma read_plain s r : plain s -> read_quoted (s ++ cQuote :: r) = Some (s, r).
Proof.
  induction 1 as [|c s [H1 H2] _ IH]; [reflexivity|]. cbn [read_quoted app].
  pose proof (is_neq c cQuote H1) as E1. pose proof (is_neq c cBackslash H2) as E2. unfold is in E1, E2.
  change Byte.x22 with cQuote. change Byte.x5c with cBackslash. rewrite E1, E2, IH. reflexivity.
Qed.
Lemma read_plain_escaped s r : plain s ->
  read_quoted (s ++ cBackslash :: cQuote :: cQuote :: r) = Some (s ++ [cQuote], r).
Proof.
  induction 1 as [|c s [H1 H2] _ IH]; [reflexivity|]. cbn [read_quoted app].
  pose proof (is_neq c cQuote H1) as E1. pose proof (is_neq c cBackslash H2) as E2. unfold is in E1, E2.
  change Byte.x22 with cQuote. change Byte.x5c with cBackslash. rewrite E1, E2, IH. reflexivity.
Qed.
Lemma read_escaped c t : read_quoted (cBackslash :: c :: t) =
  match read_quoted t with Some (s, r) => Some (c :: s, r) | None => None end.
Proof. reflexivity. Qed.
Lemma read_token s : plain s -> read_string_token (writeStringKast s) = Some s.
Proof.
  intros H.
  assert (E : writeStringKast s = Byte.x23 :: Byte.x74 :: Byte.x6f :: Byte.x6b :: Byte.x65 :: Byte.x6e :: Byte.x28 :: Byte.x22 ::
    cBackslash :: cQuote :: s ++ cBackslash :: cQuote :: cQuote :: str ",""String"")") by reflexivity.
  rewrite E. unfold read_string_token. rewrite read_escaped, (read_plain_escaped _ _ H).
  change cQuote with Byte.x22 at 1. cbv iota beta.
  rewrite (read_plain s [] H). rewrite decide_True by reflexivity. reflexivity.
Qed.

Lemma process_id j : processTestCode (fun s => s) j = j.
Proof.
  induction j as [s|b|l IH|m IH] using json_rec; [reflexivity|reflexivity| |].
  - cbn [processTestCode]. f_equal. induction IH as [|v l Hv _ IHl]; [reflexivity|]. cbn. rewrite Hv, IHl. reflexivity.
  - rewrite process_map. f_equal. generalize (isCreateTx m). intros create.
    induction IH as [|[k v] l Hv _ IHl]; [reflexivity|]. cbn [map]. rewrite IHl. f_equal. unfold field. cbn [fst snd] in *.
    destruct (isCode create k); [destruct v; reflexivity|]. rewrite Hv. reflexivity.
Qed.
Lemma convert_same data data' j j' :
  ParseOrderedJSON data = JOk (Some j) -> ParseOrderedJSON data' = JOk (Some j') ->
  (ConvertOrderedJSONToKast (fun s => s) data = ConvertOrderedJSONToKast (fun s => s) data' <-> j = j').
Proof.
  intros H H'. rewrite (convert_once (fun s => s) _ _ _ _ (fun s Hs => Hs) H H'), !process_id. reflexivity.
Qed.
