(** Proofs about the virtual machine behind the pipe. *)
From Verif Require Import Base IpcModel IpcSpec IpcProofs HookModel HookSpec.
From stdpp Require Import gmap.
Local Open Scope Z_scope.

Lemma fold_fresh {A} (l : list (bytes * A)) : forall m : gmap bytes A,
  NoDup (l.*1) ->
  fold_left (fun m p => <[fst p := snd p]> m) l m = list_to_map l ∪ m.
Proof.
  induction l as [|[k a] l IH]; intros m Hn; cbn [fold_left].
  - cbn. rewrite (left_id_L ∅ (∪)). done.
  - rewrite fmap_cons in Hn. apply NoDup_cons in Hn as [Hk Hn].
    rewrite IH by done. cbn [fst snd] in *. rewrite list_to_map_cons.
    rewrite <- insert_union_l. symmetry. apply insert_union_r.
    apply not_elem_of_list_to_map_1. done.
Qed.

Lemma fold_all {A} (m : gmap bytes A) l :
  Permutation l (map_to_list m) ->
  fold_left (fun m p => <[fst p := snd p]> m) l ∅ = m.
Proof.
  intros Hp. rewrite fold_fresh.
  - rewrite (right_id_L ∅ (∪)).
    transitivity (list_to_map (map_to_list m) : gmap bytes A); [|apply list_to_map_to_list].
    apply list_to_map_proper; [|done].
    rewrite Hp. apply NoDup_fst_map_to_list.
  - rewrite Hp. apply NoDup_fst_map_to_list.
Qed.

Lemma fold_keys {A B} (key : B -> bytes) (val : B -> A) (g : bytes * A -> B) l : forall m0 : gmap bytes A,
  (forall p, p ∈ l -> key (g p) = fst p /\ val (g p) = snd p) ->
  fold_left (fun m b => <[key b := val b]> m) (map g l) m0
  = fold_left (fun m p => <[fst p := snd p]> m) l m0.
Proof.
  induction l as [|p l IH]; intros m0 H; [done|]. cbn [map fold_left].
  destruct (H p) as [-> ->]; [left|]. apply IH. intros q Hq. apply H. right. done.
Qed.

Section back.
Context (L : outside).

Lemma visited {A} (m : gmap bytes A) p : p ∈ visit L A m -> m !! fst p = Some (snd p).
Proof.
  rewrite (visit_all L A m). destruct p as [k a]. rewrite elem_of_map_to_list. done.
Qed.

Lemma transfer_back t : ConvertToTransfer (NewSerializableTransfer t) = t.
Proof. destruct t; done. Qed.

Lemma account_back a :
  (forall s u, ga_updates a !! s = Some u -> gu_offset u = s) ->
  ConvertToOutputAccount (NewSerializableOutputAccount L a) = a.
Proof.
  intros H. unfold ConvertToOutputAccount, NewSerializableOutputAccount. cbn.
  rewrite (fold_keys gu_offset id snd).
  - rewrite (fold_all (ga_updates a)) by apply visit_all.
    rewrite map_map, (map_ext _ id), map_id by apply transfer_back.
    destruct a; done.
  - intros p Hp. split; [|done]. apply H. apply visited. done.
Qed.

Lemma output_back o : tidy o ->
  ConvertToVMOutput (NewSerializableVMOutput L (Some o)) = o.
Proof.
  intros H. unfold ConvertToVMOutput, NewSerializableVMOutput. cbn.
  rewrite (fold_keys sa_address ConvertToOutputAccount).
  - rewrite (fold_all (go_accounts o)) by apply visit_all. destruct o; done.
  - intros p Hp. apply visited in Hp. destruct (H _ _ Hp) as [H1 H2]. split.
    + cbn. done.
    + apply account_back. done.
Qed.

Lemma zip_split {A B} (l : list (A * B)) : zip (map fst l) (map snd l) = l.
Proof. induction l as [|[a b] l IH]; cbn; [done|]. rewrite IH. done. Qed.

Lemma map_back m : ConvertToMap (NewSerializableMapStringBytes L m) = m.
Proof.
  unfold ConvertToMap, NewSerializableMapStringBytes. cbn [fst snd].
  rewrite zip_split. apply fold_all, visit_all.
Qed.

Lemma handler_back h : account_handler (account_message h) = h.
Proof. destruct h; done. Qed.

(** * Messages *)

Lemma error_back {A} (r : eres A) k f d : plain r ->
  or_error (GetError L (message L k (SetError r) f)) (value_or d r) = r.
Proof.
  destruct r as [a|t]; cbn; [done|]. intros [H1 H2]. unfold GetError. cbn [message g_error].
  destruct t; [done|]. cbn [or_error]. rewrite (errorf_plain L); done.
Qed.

Lemma result_back r k f : plain_result r ->
  or_error (GetError L (message L k (SetError r) f))
    (Some (ConvertToVMOutput (NewSerializableVMOutput L (value_or None r)))) = r.
Proof.
  destruct r as [[o|]|t]; cbn [plain_result]; [|done|].
  - intros H. cbn [value_or]. rewrite output_back by done. done.
  - intros [H1 H2]. unfold GetError. cbn [message g_error SetError].
    destruct t; [done|]. cbn [or_error]. rewrite (errorf_plain L); done.
Qed.

Lemma mapped_error {A B} (f : A -> B) (g : B -> A) (r : eres (option A)) k x :
  (forall a, g (f a) = a) -> plain r ->
  or_error (GetError L (message L k (SetError r) x)) (g <$> (f <$> value_or None r)) = r.
Proof.
  intros Hg. destruct r as [[a|]|t]; cbn; [rewrite Hg; done|done|].
  intros [H1 H2]. unfold GetError. cbn [message g_error].
  destruct t; [done|]. cbn [or_error]. rewrite (errorf_plain L); done.
Qed.

Lemma answer_back q a :
  plain_answer q a -> kept L (response_fields L q a) ->
  gateway_answer L q (IOk (node_response L q a)) = a.
Proof.
  intros Hp Hk. unfold gateway_answer, node_response.
  assert (g_kind (message L (response_kind q) (response_error q a) (response_fields L q a))
          = response_kind q) as -> by done.
  rewrite Z.eqb_refl. cbn [message g_body]. rewrite (kept_back L _ Hk).
  cbn [mbind option_bind].
  destruct q; cbn [hook_ret plain_answer response_error response_fields gateway_result] in *;
    cbn [from_option id default];
    try (apply (error_back a); done); try done.
  - apply (result_back a). done.
  - change (ConvertToMap (NewSerializableMapStringBytes L (value_or ∅ a)))
      with (ConvertToMap (NewSerializableMapStringBytes L (value_or ∅ a))).
    rewrite map_back. apply (error_back a). done.
  - apply (mapped_error account_message account_handler a); [apply handler_back|done].
  - destruct a; done.
  - destruct a; done.
  - destruct a; done.
Qed.

Lemma question_back q : kept L (request_fields q) ->
  requested L (gateway_request L q) = Some q.
Proof.
  intros Hk. unfold requested, gateway_request. cbn [message g_body g_kind].
  rewrite (kept_back L _ Hk).
  destruct q; try reflexivity.
  cbn. destruct account; reflexivity.
Qed.

Lemma hook_back {W} (hook : forall q, W -> W * hook_ret q) w q :
  kept L (request_fields q) ->
  node_hook L hook w (gateway_request L q) = (fst (hook q w), node_response L q (snd (hook q w))).
Proof.
  intros Hk. unfold node_hook. rewrite question_back by done. destruct (hook q w); done.
Qed.

Lemma driver_back r : plain_result r -> kept L (output_fields L r) ->
  driver_result L (contract_response L r) = Some r.
Proof.
  intros Hp Hk. unfold driver_result, contract_response. cbn [message g_type g_body].
  rewrite Z.eqb_refl. rewrite (kept_back L _ Hk). unfold output_fields.
  f_equal. apply (result_back r). done.
Qed.

(** * The whole *)

Lemma message_built k e f : 0 <= k < KLastKind -> ~ unregistered k -> built (message L k e f).
Proof. intros H1 H2. split; [done|]. split; done. Qed.

Lemma kind_known q :
  0 <= request_kind q < KLastKind /\ ~ unregistered (request_kind q)
  /\ 0 <= response_kind q < KLastKind /\ ~ unregistered (response_kind q).
Proof.
  destruct q; unfold unregistered; vm_compute; intuition congruence.
Qed.

Lemma reaches_question q : reaches q -> question (gateway_request L q).
Proof.
  unfold question, gateway_request. cbn [message g_kind].
  destruct q; cbn [reaches request_kind]; intros H; try done; tauto.
Qed.

Lemma smooth_proper {W} fits (hook : forall q, W -> W * hook_ret q) m : forall w,
  smooth L fits hook w m ->
  proper fits (node_hook L hook) w (behind_gateway L m)
  /\ exists c, in_process (node_hook L hook) w (behind_gateway L m) = (fst (direct hook w m), c)
     /\ driver_result L c = Some (snd (direct hook w m)).
Proof.
  induction m as [r|q k IH]; intros w; cbn [smooth behind_gateway proper in_process direct].
  - intros (H1 & H2 & H3). split.
    + split; [|left; done]. split; [done|]. apply message_built; vm_compute; [done|intuition congruence].
    + eexists. split; [done|]. apply driver_back; done.
  - intros (H1 & H2 & H3 & H4 & H5 & H6 & H7).
    rewrite hook_back by done. cbn [fst snd].
    rewrite answer_back by done.
    destruct (kind_known q) as (K1 & K2 & K3 & K4).
    destruct (IH _ _ H7) as [A B]. split; [|exact B].
    split; [split; [done|apply message_built; done]|].
    split; [apply reaches_question; done|].
    split; [split; [done|apply message_built; done]|exact A].
Qed.
End back.

Lemma piped {W} (L : outside) C fits (hook : forall q, W -> W * hook_ret q) (vm : content -> machine) w req :
  carries C fits -> passes fits req -> request req ->
  smooth L fits hook w (vm req) ->
  forall n bytes pieces,
  StartLoop C 0 w req = (n, bytes) -> concat pieces = bytes ->
  ends (step C (node_hook L hook) (fun c => behind_gateway L (vm c)))
    (fun s => exists c,
       s_node s = mkNode 0 (fst (direct hook w (vm req))) (NDone (IOk c))
       /\ driver_result L c = Some (snd (direct hook w (vm req))))
    (mkSystem n (mkArwen 0 AIdle) pieces []).
Proof.
  intros HC Hp Hr Hs n b pieces H1 H2.
  destruct (smooth_proper L fits hook (vm req) w Hs) as (Hv & c & E1 & E2).
  pose proof (dialogue C fits (node_hook L hook) (fun c => behind_gateway L (vm c)) HC w req n b pieces Hp Hr Hv H1 H2) as H.
  cbv beta in H. rewrite E1 in H. revert H. generalize (mkSystem n (mkArwen 0 AIdle) pieces []).
  intros s H. induction H as [s Hq Hn|s He Hl IH].
  - apply ends_now; [|done]. destruct Hq as (Hq & _). exists c. done.
  - apply ends_later; [done|exact IH].
Qed.

(** * What is lost *)

Lemma nil_output L : kept L (output_fields L (Good None)) ->
  driver_result L (contract_response L (Good None)) = Some (Good (Some (mkGOutput [] 0 [] 0 None ∅ [] [] []))).
Proof.
  intros Hk. unfold driver_result, contract_response. cbn [message g_type g_body].
  rewrite Z.eqb_refl, (kept_back L _ Hk). done.
Qed.

Lemma empty_error L a k : kept L (FBytes []) ->
  gateway_answer L (HGetStorageData a k) (IOk (node_response L (HGetStorageData a k) (Bad []))) = Good [].
Proof.
  intros Hk. unfold gateway_answer, node_response. cbn [message g_kind g_body response_fields value_or response_kind].
  rewrite Z.eqb_refl, (kept_back L _ Hk). done.
Qed.

Lemma revert_error L n t : kept L FNone ->
  gateway_answer L (HRevertToSnapshot n) (IOk (node_response L (HRevertToSnapshot n) (Bad t))) = Good tt.
Proof.
  intros Hk. unfold gateway_answer, node_response. cbn [message g_kind g_body response_fields value_or response_kind].
  rewrite Z.eqb_refl, (kept_back L _ Hk). done.
Qed.

Lemma reformatted L t : t <> [] -> kept L (output_fields L (Bad t)) ->
  driver_result L (contract_response L (Bad t)) = Some (Bad (errorf L t)).
Proof.
  intros Ht Hk. unfold driver_result, contract_response. cbn [message g_type g_body].
  rewrite Z.eqb_refl, (kept_back L _ Hk). unfold output_fields, GetError. cbn [g_error message SetError].
  destruct t; done.
Qed.

Lemma moved L k a o :
  ga_address a <> k -> ga_updates a = ∅ -> go_accounts o = {[k := a]} ->
  go_accounts (ConvertToVMOutput (NewSerializableVMOutput L (Some o))) = {[ga_address a := a]}.
Proof.
  intros _ Hu Ho. unfold ConvertToVMOutput, NewSerializableVMOutput. cbn. rewrite Ho.
  pose proof (visit_all L gaccount {[k := a]}) as Hp. rewrite map_to_list_singleton in Hp.
  apply Permutation_sym, Permutation_length_1_inv in Hp. rewrite Hp. cbn.
  rewrite (account_back L a); [done|]. intros s u. rewrite Hu, lookup_empty. done.
Qed.
