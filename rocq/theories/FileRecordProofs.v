(** The records of a scenario file, field by field. *)
From Verif Require Import Base CodecSpec JsonModel JsonSpec MandosSpec.
From Verif Require Import ScenParseModel FileSpec ReadProofs FileProofs.
From stdpp Require Import list.
Local Open Scope Z_scope.

Global Arguments str : simpl never.
Global Arguments Z.pow : simpl never.


(** Whether a key is another, for keys that are written down. *)
Ltac keys :=
  repeat match goal with
  | |- context [key_is (str ?a) ?b] =>
      let r := eval vm_compute in (key_is (str a) b) in change (key_is (str a) b) with r
  | H : context [key_is (str ?a) ?b] |- _ =>
      let r := eval vm_compute in (key_is (str a) b) in change (key_is (str a) b) with r in H
  end; cbn match.
Ltac differ := let E := fresh in intros E; vm_compute in E; discriminate E.

(** What a reader of a value returns. *)
Ltac meaning H := first
  [ apply string_iff in H | apply word_iff in H | apply natural_iff in H | apply integer_iff in H
  | apply bytes_iff in H | apply text_iff in H | apply address_iff in H
  | apply tree_iff in H; [|assumption] | apply bytes_check_iff in H; [|assumption]
  | apply natural_check_iff in H | apply integer_check_iff in H | apply word_check_iff in H
  | apply strings_iff in H; [|assumption] | apply bytes_list_iff in H; [|assumption]
  | apply tree_list_iff in H; [|assumption] | apply check_list_iff in H; [|assumption] ].
Ltac reading := first
  [ apply string_iff | apply word_iff | apply natural_iff | apply integer_iff | apply bytes_iff
  | apply text_iff | apply address_iff | apply tree_iff; [assumption|]
  | apply bytes_check_iff; [assumption|] | apply natural_check_iff | apply integer_check_iff
  | apply word_check_iff | apply strings_iff; [assumption|] | apply bytes_list_iff; [assumption|]
  | apply tree_list_iff; [assumption|] | apply check_list_iff; [assumption|] ].


(** Whether a field of an instance has been seen. *)
Definition loaded (m : list (bytes * json)) (a x : bool) : Prop :=
  x = true <-> a = true \/ some_inst_key m.
Lemma loaded_nil a x : loaded [] a x <-> x = a.
Proof.
  unfold loaded, some_inst_key. rewrite Exists_nil. destruct a, x; intuition congruence.
Qed.
Lemma loaded_in k v r a x : k ∈ map str inst_keys -> loaded ((k, v) :: r) a x <-> loaded r true x.
Proof. intros H. unfold loaded, some_inst_key. rewrite Exists_cons. cbn [fst]. tauto. Qed.
Lemma loaded_out k v r a x : k ∉ map str inst_keys -> loaded ((k, v) :: r) a x <-> loaded r a x.
Proof. intros H. unfold loaded, some_inst_key. rewrite Exists_cons. cbn [fst]. tauto. Qed.
Ltac in_keys := apply elem_of_list_In; cbn [map In inst_keys token_keys app]; tauto.
Ltac not_in_keys :=
  let E := fresh in intros E; apply elem_of_list_In in E; cbn [map In inst_keys token_keys app] in E;
  repeat (destruct E as [E|E]; [vm_compute in E; discriminate E|]); exact E.

(** One field of a record: the loop reads it if it has its key, and the map has
    no other of that key. *)
Ltac rest_to_all :=
  match goal with
  | |- at_gen ((str ?k, _) :: _) ?k _ _ _ => apply at_same; [assumption|]; cbv beta
  | |- at_gen ((str ?k, _) :: _) ?k' _ _ _ => apply at_skip; [differ|]
  | |- loaded (_ :: _) _ _ => first [apply loaded_in; [in_keys|]|apply loaded_out; [not_in_keys|]]
  end.
Ltac all_to_rest :=
  repeat match goal with
  | H : at_gen ((str ?k, _) :: _) ?k _ _ _ |- _ => apply at_same in H; [|assumption]; cbv beta in H
  | H : at_gen ((str ?k, _) :: _) ?k' _ _ _ |- _ => apply at_skip in H; [|differ]
  | H : loaded (_ :: _) _ _ |- _ =>
      first [apply loaded_in in H; [|in_keys]|apply loaded_out in H; [|not_in_keys]]
  end.
Ltac pieces :=
  repeat match goal with
  | q : (_ * _)%type |- _ => destruct q
  | q : esdt_data |- _ => destruct q
  | q : esdt_inst |- _ => destruct q
  | q : check_esdt |- _ => destruct q
  | q : check_inst |- _ => destruct q
  end.
Ltac missing_here :=
  repeat match goal with
  | N : str ?k ∉ map fst ?r, H : at_gen ?r ?k _ _ _ |- _ => apply at_none in H; [|exact N]
  end.
Ltac a_field := split; [reflexivity|eexists; split; [eassumption|reflexivity]].
Ltac pick := first [left; a_field | right; pick | a_field].
Ltac whole :=
  split_and!; [apply only_cons; split; [in_keys|assumption]|(try rest_to_all; assumption)..].
Ltac each_case H := first [destruct H as [H|H]; [|each_case H]|idtac].
Ltac forward_case Hf :=
  destruct Hf as (-> & y & Hy & ->);
  try match type of y with (_ * _)%type => repeat destruct y as [y ?] end;
  simpl in *; missing_here;
  repeat match goal with H : (_, _) = (_, _) |- _ => apply pair_equal_spec in H as [? H] end;
  subst; whole.
Ltac back_case :=
  subst; all_to_rest; eexists; split; [pick|]; simpl;
  split_and!; try assumption; apply at_none; [assumption|reflexivity].

(** The loop over the fields, from what one field does. *)
Ltac fields field_iff :=
  match goal with |- forall m, _ => idtac end;
  let m := fresh "m" in intros m; induction m as [|[k v] r IH]; intros Hn Hw a x;
  [ cbn [over]; rewrite !at_nil, ?loaded_nil; split;
    [ intros E; injection E as ->; split_and!; first [reflexivity|once constructor]
    | intros E; destruct_and! E; f_equal; destruct a, x; pieces; simpl in *; simplify_eq; reflexivity ]
  | cbn [map fst] in Hn; apply NoDup_cons in Hn as [Hk Hn];
    apply Forall_cons in Hw as [Hv Hw]; cbn [snd] in Hv;
    specialize (IH Hn Hw); rewrite over_cons; split;
    [ intros (a' & Hf & H); apply IH in H; apply field_iff in Hf; [|exact Hv]; clear IH; destruct_and! H;
      repeat match type of Hf with _ \/ _ => destruct Hf as [Hf|Hf]; [forward_case Hf|] end;
      forward_case Hf
    | intros [Ho H]; apply only_cons in Ho as [Hin Ho]; destruct_and! H;
      setoid_rewrite field_iff; [|exact Hv]; setoid_rewrite IH; clear IH;
      apply elem_of_list_In in Hin; cbn [map In] in Hin;
      repeat match type of Hin with _ \/ _ => destruct Hin as [Hin|Hin]; [back_case|] end;
      first [contradiction Hin|back_case] ] ].

(** What one field does: by cases on the key. *)
Ltac key_case H :=
  match type of H with
  | (if key_is ?k ?s then _ else _) = _ =>
      let E := fresh in destruct (key_is k s) eqn:E; [apply key_eq in E; subst k|clear E]
  | match (if key_is ?k ?s then _ else _) with _ => _ end = _ =>
      let E := fresh in destruct (key_is k s) eqn:E; [apply key_eq in E; subst k|clear E]
  end; cbv iota in H.
Ltac read_field Hf := apply sbind_iff in Hf as (y & Hy & Hf); meaning Hy; injection Hf as <-.
Ltac other_key Hf := first [left; exact Hf|right; other_key Hf].
Ltac one_field F :=
  unfold F, tryProcessESDTInstanceField, tryProcessCheckESDTInstanceField; split;
  [ intros Hf;
    repeat (key_case Hf; [try (solve [read_field Hf; pick])|]); try discriminate Hf
  | intros Hf; repeat match type of Hf with _ \/ _ => destruct Hf as [Hf|Hf] end;
    destruct Hf as (-> & y & Hy & ->); keys;
    try (solve [apply sbind_iff; exists y; split; [reading; exact Hy|reflexivity]]) ].

Section Records.
Context (files : bytes -> option bytes) (keccak : bytes -> bytes).

Lemma block_field_iff k v b b' : wj v -> block_field files keccak k v b = SOk b' <->
  (k = str "blockTimestamp" /\ exists y, word files keccak v y /\ b' = set_bi_timestamp y b) \/
  (k = str "blockNonce" /\ exists y, word files keccak v y /\ b' = set_bi_nonce y b) \/
  (k = str "blockRound" /\ exists y, word files keccak v y /\ b' = set_bi_round y b) \/
  (k = str "blockEpoch" /\ exists y, word files keccak v y /\ b' = set_bi_epoch y b) \/
  (k = str "blockRandomSeed" /\ exists y, some_of (fun v x => tree_bytes files keccak v x /\ length (jt_value x) = 48%nat) v y /\ b' = set_bi_seed y b).
Proof.
  intros Hv. one_field block_field.
  - apply sbind_iff in Hf as (y & Hy & Hf). meaning Hy.
    destruct (length (jt_value y) =? 48)%nat eqn:E; [|discriminate]. apply Nat.eqb_eq in E. injection Hf as <-.
    do 4 right. split; [done|]. exists (Some y). split; [|done]. by exists y.
  - destruct Hy as (z & -> & Hz & E). apply sbind_iff. exists z. split; [reading; exact Hz|].
    apply Nat.eqb_eq in E. by rewrite E.
Qed.
Lemma block_iff : forall m, NoDup (map fst m) -> Forall (fun kv => wj (snd kv)) m -> forall b x,
  over (block_field files keccak) m b = SOk x <->
  only m ["blockTimestamp"; "blockNonce"; "blockRound"; "blockEpoch"; "blockRandomSeed"]%string /\
  at_gen m "blockTimestamp" (fun v _ => word files keccak v) (bi_timestamp b) (bi_timestamp x) /\
  at_gen m "blockNonce" (fun v _ => word files keccak v) (bi_nonce b) (bi_nonce x) /\
  at_gen m "blockRound" (fun v _ => word files keccak v) (bi_round b) (bi_round x) /\
  at_gen m "blockEpoch" (fun v _ => word files keccak v) (bi_epoch b) (bi_epoch x) /\
  at_gen m "blockRandomSeed" (fun v _ => some_of (fun v x => tree_bytes files keccak v x /\ length (jt_value x) = 48%nat) v) (bi_seed b) (bi_seed x).
Proof. fields block_field_iff. Qed.

Lemma mock_field_iff k v b b' : wj v -> mock_field files keccak k v b = SOk b' <->
  (k = str "creatorAddress" /\ exists y, address files keccak v y /\ b' = set_na_creator y b) \/
  (k = str "creatorNonce" /\ exists y, word files keccak v y /\ b' = set_na_nonce y b) \/
  (k = str "newAddress" /\ exists y, address files keccak v y /\ b' = set_na_new y b).
Proof.
  intros Hv. one_field mock_field.
Qed.
Lemma mock_iff : forall m, NoDup (map fst m) -> Forall (fun kv => wj (snd kv)) m -> forall b x,
  over (mock_field files keccak) m b = SOk x <->
  only m ["creatorAddress"; "creatorNonce"; "newAddress"]%string /\
  at_gen m "creatorAddress" (fun v _ => address files keccak v) (na_creator b) (na_creator x) /\
  at_gen m "creatorNonce" (fun v _ => word files keccak v) (na_nonce b) (na_nonce x) /\
  at_gen m "newAddress" (fun v _ => address files keccak v) (na_new b) (na_new x).
Proof. fields mock_field_iff. Qed.

Lemma esdt_tx_field_iff k v b b' : wj v -> esdt_tx_field files keccak k v b = SOk b' <->
  (k = str "tokenIdentifier" /\ exists y, plain_bytes files keccak v y /\ b' = set_tx_token y b) \/
  (k = str "nonce" /\ exists y, word files keccak v y /\ b' = set_tx_tnonce y b) \/
  (k = str "value" /\ exists y, natural files keccak v y /\ b' = set_tx_tvalue y b).
Proof.
  intros Hv. one_field esdt_tx_field.
Qed.
Lemma esdt_tx_iff : forall m, NoDup (map fst m) -> Forall (fun kv => wj (snd kv)) m -> forall b x,
  over (esdt_tx_field files keccak) m b = SOk x <->
  only m ["tokenIdentifier"; "nonce"; "value"]%string /\
  at_gen m "tokenIdentifier" (fun v _ => plain_bytes files keccak v) (tx_token b) (tx_token x) /\
  at_gen m "nonce" (fun v _ => word files keccak v) (tx_tnonce b) (tx_tnonce x) /\
  at_gen m "value" (fun v _ => natural files keccak v) (tx_tvalue b) (tx_tvalue x).
Proof. fields esdt_tx_field_iff. Qed.

Lemma log_field_iff k v b b' : wj v -> log_field files keccak k v b = SOk b' <->
  (k = str "address" /\ exists y, bytes_check files keccak v y /\ b' = set_lc_address y b) \/
  (k = str "identifier" /\ exists y, bytes_check files keccak v y /\ b' = set_lc_identifier y b) \/
  (k = str "topics" /\ exists y, list_of (bytes_check files keccak) v y /\ b' = set_lc_topics y b) \/
  (k = str "data" /\ exists y, bytes_check files keccak v y /\ b' = set_lc_data y b).
Proof.
  intros Hv. one_field log_field.
Qed.
Lemma log_iff : forall m, NoDup (map fst m) -> Forall (fun kv => wj (snd kv)) m -> forall b x,
  over (log_field files keccak) m b = SOk x <->
  only m ["address"; "identifier"; "topics"; "data"]%string /\
  at_gen m "address" (fun v _ => bytes_check files keccak v) (lc_address b) (lc_address x) /\
  at_gen m "identifier" (fun v _ => bytes_check files keccak v) (lc_identifier b) (lc_identifier x) /\
  at_gen m "topics" (fun v _ => list_of (bytes_check files keccak) v) (lc_topics b) (lc_topics x) /\
  at_gen m "data" (fun v _ => bytes_check files keccak v) (lc_data b) (lc_data x).
Proof. fields log_field_iff. Qed.

Lemma inst_field_iff k v b b' : wj v -> instance_field files keccak k v b = SOk b' <->
  (k = str "nonce" /\ exists y, word files keccak v y /\ b' = set_ei_nonce y b) \/
  (k = str "balance" /\ exists y, natural files keccak v y /\ b' = set_ei_balance y b) \/
  (k = str "creator" /\ exists y, (fun v x => plain_bytes files keccak v x /\ length (jb_value x) = 32%nat) v y /\ b' = set_ei_creator y b) \/
  (k = str "royalties" /\ exists y, (fun v x => word files keccak v x /\ ju_value x <= 10000) v y /\ b' = set_ei_royalties y b) \/
  (k = str "hash" /\ exists y, plain_bytes files keccak v y /\ b' = set_ei_hash y b) \/
  (k = str "uri" /\ exists y, tree_bytes files keccak v y /\ b' = set_ei_uri y b) \/
  (k = str "attributes" /\ exists y, plain_bytes files keccak v y /\ b' = set_ei_attributes y b).
Proof.
  intros Hv. one_field instance_field.
  - apply sbind_iff in Hf as (y & Hy & Hf). meaning Hy.
    destruct (length (jb_value y) =? 32)%nat eqn:E; [|discriminate]. apply Nat.eqb_eq in E. injection Hf as <-.
    do 2 right. left. split; [done|]. by exists y.
  - apply sbind_iff in Hf as (y & Hy & Hf). meaning Hy.
    destruct (10000 <? ju_value y) eqn:E; [discriminate|]. apply Z.ltb_ge in E. injection Hf as <-.
    do 3 right. left. split; [done|]. by exists y.
  - destruct Hy as [Hy E]. apply sbind_iff. exists y. split; [reading; exact Hy|].
    apply Nat.eqb_eq in E. by rewrite E.
  - destruct Hy as [Hy E]. apply sbind_iff. exists y. split; [reading; exact Hy|].
    apply Z.ltb_ge in E. by rewrite E.
Qed.
Lemma inst_iff : forall m, NoDup (map fst m) -> Forall (fun kv => wj (snd kv)) m -> forall b x,
  over (instance_field files keccak) m b = SOk x <->
  only m ["nonce"; "balance"; "creator"; "royalties"; "hash"; "uri"; "attributes"]%string /\
  at_gen m "nonce" (fun v _ => word files keccak v) (ei_nonce b) (ei_nonce x) /\
  at_gen m "balance" (fun v _ => natural files keccak v) (ei_balance b) (ei_balance x) /\
  at_gen m "creator" (fun v _ => (fun v x => plain_bytes files keccak v x /\ length (jb_value x) = 32%nat) v) (ei_creator b) (ei_creator x) /\
  at_gen m "royalties" (fun v _ => (fun v x => word files keccak v x /\ ju_value x <= 10000) v) (ei_royalties b) (ei_royalties x) /\
  at_gen m "hash" (fun v _ => plain_bytes files keccak v) (ei_hash b) (ei_hash x) /\
  at_gen m "uri" (fun v _ => tree_bytes files keccak v) (ei_uri b) (ei_uri x) /\
  at_gen m "attributes" (fun v _ => plain_bytes files keccak v) (ei_attributes b) (ei_attributes x).
Proof. fields inst_field_iff. Qed.

Lemma check_inst_field_iff k v b b' : wj v -> check_instance_field files keccak k v b = SOk b' <->
  (k = str "nonce" /\ exists y, word_check files keccak v y /\ b' = set_xi_nonce y b) \/
  (k = str "balance" /\ exists y, big_check (natural files keccak) v y /\ b' = set_xi_balance y b) \/
  (k = str "creator" /\ exists y, bytes_check files keccak v y /\ b' = set_xi_creator y b) \/
  (k = str "royalties" /\ exists y, (fun v x => word_check files keccak v x /\ cu_value x <= 10000) v y /\ b' = set_xi_royalties y b) \/
  (k = str "hash" /\ exists y, bytes_check files keccak v y /\ b' = set_xi_hash y b) \/
  (k = str "uri" /\ exists y, bytes_check files keccak v y /\ b' = set_xi_uri y b) \/
  (k = str "attributes" /\ exists y, bytes_check files keccak v y /\ b' = set_xi_attributes y b).
Proof.
  intros Hv. one_field check_instance_field.
  - apply sbind_iff in Hf as (y & Hy & Hf). meaning Hy.
    destruct (10000 <? cu_value y) eqn:E; [discriminate|]. apply Z.ltb_ge in E. injection Hf as <-.
    do 3 right. left. split; [done|]. by exists y.
  - destruct Hy as [Hy E]. apply sbind_iff. exists y. split; [reading; exact Hy|].
    apply Z.ltb_ge in E. by rewrite E.
Qed.
Lemma check_inst_iff : forall m, NoDup (map fst m) -> Forall (fun kv => wj (snd kv)) m -> forall b x,
  over (check_instance_field files keccak) m b = SOk x <->
  only m ["nonce"; "balance"; "creator"; "royalties"; "hash"; "uri"; "attributes"]%string /\
  at_gen m "nonce" (fun v _ => word_check files keccak v) (xi_nonce b) (xi_nonce x) /\
  at_gen m "balance" (fun v _ => big_check (natural files keccak) v) (xi_balance b) (xi_balance x) /\
  at_gen m "creator" (fun v _ => bytes_check files keccak v) (xi_creator b) (xi_creator x) /\
  at_gen m "royalties" (fun v _ => (fun v x => word_check files keccak v x /\ cu_value x <= 10000) v) (xi_royalties b) (xi_royalties x) /\
  at_gen m "hash" (fun v _ => bytes_check files keccak v) (xi_hash b) (xi_hash x) /\
  at_gen m "uri" (fun v _ => bytes_check files keccak v) (xi_uri b) (xi_uri x) /\
  at_gen m "attributes" (fun v _ => bytes_check files keccak v) (xi_attributes b) (xi_attributes x).
Proof. fields check_inst_field_iff. Qed.

Lemma inst_said v i : wj v -> processESDTInstance files keccak v = SOk i <-> inst files keccak v i.
Proof.
  intros Hv. unfold processESDTInstance, inst. rewrite sbind_iff.
  split; intros (m & Hm & H); exists m.
  - apply as_map_iff in Hm. subst v. split; [done|]. exact (proj1 (inst_iff m (wj_keys m Hv) (wj_values m Hv) esdt_inst_zero i) H).
  - subst v. split; [done|]. exact (proj2 (inst_iff m (wj_keys m Hv) (wj_values m Hv) esdt_inst_zero i) H).
Qed.
Lemma check_inst_said v i : wj v ->
  processCheckESDTInstance files keccak v = SOk i <-> inst_check files keccak v i.
Proof.
  intros Hv. unfold processCheckESDTInstance, inst_check. rewrite sbind_iff.
  split; intros (m & Hm & H); exists m.
  - apply as_map_iff in Hm. subst v. split; [done|].
    exact (proj1 (check_inst_iff m (wj_keys m Hv) (wj_values m Hv) NewCheckESDTInstance i) H).
  - subst v. split; [done|]. exact (proj2 (check_inst_iff m (wj_keys m Hv) (wj_values m Hv) NewCheckESDTInstance i) H).
Qed.
Lemma insts_said v l : wj v -> processESDTInstances files keccak v = SOk l <-> list_of (inst files keccak) v l.
Proof. intros Hv. apply list_iff; [done|]. intros x y. apply inst_said. Qed.
Lemma check_insts_said v l : wj v ->
  processCheckESDTInstances files keccak v = SOk l <-> list_of (inst_check files keccak) v l.
Proof. intros Hv. apply list_iff; [done|]. intros x y. apply check_inst_said. Qed.

Lemma data_try_some k v i r : tryProcessESDTInstanceField files keccak k v i = Some r ->
  instance_field files keccak k v i = r.
Proof. unfold instance_field. by intros ->. Qed.
Lemma data_try_none k v i : tryProcessESDTInstanceField files keccak k v i = None <-> k ∉ map str inst_keys.
Proof.
  unfold tryProcessESDTInstanceField. split.
  - intros H Hin. apply elem_of_list_In in Hin. cbn [map In inst_keys] in Hin.
    repeat (destruct Hin as [Hin|Hin]; [subst k; discriminate H|]). exact Hin.
  - intros H. repeat match goal with
      | |- (if key_is ?k ?s then _ else _) = _ =>
          let E := fresh in destruct (key_is k s) eqn:E; [apply key_eq in E; subst k; destruct H; in_keys|]
      end. reflexivity.
Qed.
Lemma data_field_iff k v b b' : wj v -> esdt_field files keccak k v b = SOk b' <->
  (k = str "nonce" /\ exists y, word files keccak v y /\ b' = (fun y b => (fst (fst b), set_ei_nonce y (snd (fst b)), true)) y b) \/
  (k = str "balance" /\ exists y, natural files keccak v y /\ b' = (fun y b => (fst (fst b), set_ei_balance y (snd (fst b)), true)) y b) \/
  (k = str "creator" /\ exists y, (fun v x => plain_bytes files keccak v x /\ length (jb_value x) = 32%nat) v y /\ b' = (fun y b => (fst (fst b), set_ei_creator y (snd (fst b)), true)) y b) \/
  (k = str "royalties" /\ exists y, (fun v x => word files keccak v x /\ ju_value x <= 10000) v y /\ b' = (fun y b => (fst (fst b), set_ei_royalties y (snd (fst b)), true)) y b) \/
  (k = str "hash" /\ exists y, plain_bytes files keccak v y /\ b' = (fun y b => (fst (fst b), set_ei_hash y (snd (fst b)), true)) y b) \/
  (k = str "uri" /\ exists y, tree_bytes files keccak v y /\ b' = (fun y b => (fst (fst b), set_ei_uri y (snd (fst b)), true)) y b) \/
  (k = str "attributes" /\ exists y, plain_bytes files keccak v y /\ b' = (fun y b => (fst (fst b), set_ei_attributes y (snd (fst b)), true)) y b) \/
  (k = str "instances" /\ exists y, list_of (inst files keccak) v y /\ b' = (fun y b => ((set_ed_instances y (fst (fst b))), snd (fst b), snd b)) y b) \/
  (k = str "lastNonce" /\ exists y, word files keccak v y /\ b' = (fun y b => ((set_ed_last y (fst (fst b))), snd (fst b), snd b)) y b) \/
  (k = str "roles" /\ exists y, list_of text v y /\ b' = (fun y b => ((set_ed_roles y (fst (fst b))), snd (fst b), snd b)) y b) \/
  (k = str "frozen" /\ exists y, word files keccak v y /\ b' = (fun y b => ((set_ed_frozen y (fst (fst b))), snd (fst b), snd b)) y b).
Proof.
  intros Hv. destruct b as [[d first] ld]. unfold esdt_field. cbn [fst snd].
  destruct (tryProcessESDTInstanceField files keccak k v first) as [r|] eqn:T.
  - assert (k ∈ map str inst_keys) as Hin.
    { destruct (decide (k ∈ map str inst_keys)) as [|Hn]; [done|].
      apply (data_try_none k v first) in Hn. congruence. }
    apply data_try_some in T. subst r. rewrite sbind_iff. split.
    + intros (i & Hi & [= <-]). apply inst_field_iff in Hi; [|exact Hv].
      repeat match type of Hi with _ \/ _ => destruct Hi as [Hi|Hi]; [destruct Hi as (-> & y & Hy & ->); pick|] end.
      destruct Hi as (-> & y & Hy & ->); pick.
    + intros Hf.
      repeat match type of Hf with _ \/ _ => destruct Hf as [Hf|Hf] end;
      destruct Hf as (-> & y & Hy & ->);
      try (exfalso; revert Hin; not_in_keys);
      (eexists; split; [apply inst_field_iff; [exact Hv|pick]|reflexivity]).
  - apply data_try_none in T. split.
    + intros Hf.
      repeat (key_case Hf;
        [apply sbind_iff in Hf as (y & Hy & Hf); injection Hf as <-;
         first [apply insts_said in Hy; [|exact Hv]|meaning Hy]; pick|]); try discriminate Hf.
    + intros Hf.
      repeat match type of Hf with _ \/ _ => destruct Hf as [Hf|Hf] end;
      destruct Hf as (-> & y & Hy & ->); try (exfalso; apply T; in_keys); keys;
      apply sbind_iff; exists y; (split; [first [apply insts_said; [exact Hv|]; exact Hy|reading; exact Hy]|reflexivity]).
Qed.
Lemma data_iff : forall m, NoDup (map fst m) -> Forall (fun kv => wj (snd kv)) m -> forall b x,
  over (esdt_field files keccak) m b = SOk x <->
  only m ["nonce"; "balance"; "creator"; "royalties"; "hash"; "uri"; "attributes"; "instances"; "lastNonce"; "roles"; "frozen"]%string /\
  at_gen m "nonce" (fun v _ => word files keccak v) ((fun b => ei_nonce (snd (fst b))) b) ((fun b => ei_nonce (snd (fst b))) x) /\
  at_gen m "balance" (fun v _ => natural files keccak v) ((fun b => ei_balance (snd (fst b))) b) ((fun b => ei_balance (snd (fst b))) x) /\
  at_gen m "creator" (fun v _ => (fun v x => plain_bytes files keccak v x /\ length (jb_value x) = 32%nat) v) ((fun b => ei_creator (snd (fst b))) b) ((fun b => ei_creator (snd (fst b))) x) /\
  at_gen m "royalties" (fun v _ => (fun v x => word files keccak v x /\ ju_value x <= 10000) v) ((fun b => ei_royalties (snd (fst b))) b) ((fun b => ei_royalties (snd (fst b))) x) /\
  at_gen m "hash" (fun v _ => plain_bytes files keccak v) ((fun b => ei_hash (snd (fst b))) b) ((fun b => ei_hash (snd (fst b))) x) /\
  at_gen m "uri" (fun v _ => tree_bytes files keccak v) ((fun b => ei_uri (snd (fst b))) b) ((fun b => ei_uri (snd (fst b))) x) /\
  at_gen m "attributes" (fun v _ => plain_bytes files keccak v) ((fun b => ei_attributes (snd (fst b))) b) ((fun b => ei_attributes (snd (fst b))) x) /\
  at_gen m "instances" (fun v _ => list_of (inst files keccak) v) ((fun b => ed_instances (fst (fst b))) b) ((fun b => ed_instances (fst (fst b))) x) /\
  at_gen m "lastNonce" (fun v _ => word files keccak v) ((fun b => ed_last (fst (fst b))) b) ((fun b => ed_last (fst (fst b))) x) /\
  at_gen m "roles" (fun v _ => list_of text v) ((fun b => ed_roles (fst (fst b))) b) ((fun b => ed_roles (fst (fst b))) x) /\
  at_gen m "frozen" (fun v _ => word files keccak v) ((fun b => ed_frozen (fst (fst b))) b) ((fun b => ed_frozen (fst (fst b))) x) /\
  ed_token (fst (fst x)) = ed_token (fst (fst b)) /\ loaded m (snd b) (snd x).
Proof. fields data_field_iff. Qed.

Lemma check_data_try_some k v i r : tryProcessCheckESDTInstanceField files keccak k v i = Some r ->
  check_instance_field files keccak k v i = r.
Proof. unfold check_instance_field. by intros ->. Qed.
Lemma check_data_try_none k v i : tryProcessCheckESDTInstanceField files keccak k v i = None <-> k ∉ map str inst_keys.
Proof.
  unfold tryProcessCheckESDTInstanceField. split.
  - intros H Hin. apply elem_of_list_In in Hin. cbn [map In inst_keys] in Hin.
    repeat (destruct Hin as [Hin|Hin]; [subst k; discriminate H|]). exact Hin.
  - intros H. repeat match goal with
      | |- (if key_is ?k ?s then _ else _) = _ =>
          let E := fresh in destruct (key_is k s) eqn:E; [apply key_eq in E; subst k; destruct H; in_keys|]
      end. reflexivity.
Qed.
Lemma check_data_field_iff k v b b' : wj v -> check_esdt_field files keccak k v b = SOk b' <->
  (k = str "nonce" /\ exists y, word_check files keccak v y /\ b' = (fun y b => (fst (fst b), set_xi_nonce y (snd (fst b)), true)) y b) \/
  (k = str "balance" /\ exists y, big_check (natural files keccak) v y /\ b' = (fun y b => (fst (fst b), set_xi_balance y (snd (fst b)), true)) y b) \/
  (k = str "creator" /\ exists y, bytes_check files keccak v y /\ b' = (fun y b => (fst (fst b), set_xi_creator y (snd (fst b)), true)) y b) \/
  (k = str "royalties" /\ exists y, (fun v x => word_check files keccak v x /\ cu_value x <= 10000) v y /\ b' = (fun y b => (fst (fst b), set_xi_royalties y (snd (fst b)), true)) y b) \/
  (k = str "hash" /\ exists y, bytes_check files keccak v y /\ b' = (fun y b => (fst (fst b), set_xi_hash y (snd (fst b)), true)) y b) \/
  (k = str "uri" /\ exists y, bytes_check files keccak v y /\ b' = (fun y b => (fst (fst b), set_xi_uri y (snd (fst b)), true)) y b) \/
  (k = str "attributes" /\ exists y, bytes_check files keccak v y /\ b' = (fun y b => (fst (fst b), set_xi_attributes y (snd (fst b)), true)) y b) \/
  (k = str "instances" /\ exists y, list_of (inst_check files keccak) v y /\ b' = (fun y b => ((set_xe_instances y (fst (fst b))), snd (fst b), snd b)) y b) \/
  (k = str "lastNonce" /\ exists y, word_check files keccak v y /\ b' = (fun y b => ((set_xe_last y (fst (fst b))), snd (fst b), snd b)) y b) \/
  (k = str "roles" /\ exists y, list_of text v y /\ b' = (fun y b => ((set_xe_roles y (fst (fst b))), snd (fst b), snd b)) y b) \/
  (k = str "frozen" /\ exists y, word_check files keccak v y /\ b' = (fun y b => ((set_xe_frozen y (fst (fst b))), snd (fst b), snd b)) y b).
Proof.
  intros Hv. destruct b as [[d first] ld]. unfold check_esdt_field. cbn [fst snd].
  destruct (tryProcessCheckESDTInstanceField files keccak k v first) as [r|] eqn:T.
  - assert (k ∈ map str inst_keys) as Hin.
    { destruct (decide (k ∈ map str inst_keys)) as [|Hn]; [done|].
      apply (check_data_try_none k v first) in Hn. congruence. }
    apply check_data_try_some in T. subst r. rewrite sbind_iff. split.
    + intros (i & Hi & [= <-]). apply check_inst_field_iff in Hi; [|exact Hv].
      repeat match type of Hi with _ \/ _ => destruct Hi as [Hi|Hi]; [destruct Hi as (-> & y & Hy & ->); pick|] end.
      destruct Hi as (-> & y & Hy & ->); pick.
    + intros Hf.
      repeat match type of Hf with _ \/ _ => destruct Hf as [Hf|Hf] end;
      destruct Hf as (-> & y & Hy & ->);
      try (exfalso; revert Hin; not_in_keys);
      (eexists; split; [apply check_inst_field_iff; [exact Hv|pick]|reflexivity]).
  - apply check_data_try_none in T. split.
    + intros Hf.
      repeat (key_case Hf;
        [apply sbind_iff in Hf as (y & Hy & Hf); injection Hf as <-;
         first [apply check_insts_said in Hy; [|exact Hv]|meaning Hy]; pick|]); try discriminate Hf.
    + intros Hf.
      repeat match type of Hf with _ \/ _ => destruct Hf as [Hf|Hf] end;
      destruct Hf as (-> & y & Hy & ->); try (exfalso; apply T; in_keys); keys;
      apply sbind_iff; exists y; (split; [first [apply check_insts_said; [exact Hv|]; exact Hy|reading; exact Hy]|reflexivity]).
Qed.
Lemma check_data_iff : forall m, NoDup (map fst m) -> Forall (fun kv => wj (snd kv)) m -> forall b x,
  over (check_esdt_field files keccak) m b = SOk x <->
  only m ["nonce"; "balance"; "creator"; "royalties"; "hash"; "uri"; "attributes"; "instances"; "lastNonce"; "roles"; "frozen"]%string /\
  at_gen m "nonce" (fun v _ => word_check files keccak v) ((fun b => xi_nonce (snd (fst b))) b) ((fun b => xi_nonce (snd (fst b))) x) /\
  at_gen m "balance" (fun v _ => big_check (natural files keccak) v) ((fun b => xi_balance (snd (fst b))) b) ((fun b => xi_balance (snd (fst b))) x) /\
  at_gen m "creator" (fun v _ => bytes_check files keccak v) ((fun b => xi_creator (snd (fst b))) b) ((fun b => xi_creator (snd (fst b))) x) /\
  at_gen m "royalties" (fun v _ => (fun v x => word_check files keccak v x /\ cu_value x <= 10000) v) ((fun b => xi_royalties (snd (fst b))) b) ((fun b => xi_royalties (snd (fst b))) x) /\
  at_gen m "hash" (fun v _ => bytes_check files keccak v) ((fun b => xi_hash (snd (fst b))) b) ((fun b => xi_hash (snd (fst b))) x) /\
  at_gen m "uri" (fun v _ => bytes_check files keccak v) ((fun b => xi_uri (snd (fst b))) b) ((fun b => xi_uri (snd (fst b))) x) /\
  at_gen m "attributes" (fun v _ => bytes_check files keccak v) ((fun b => xi_attributes (snd (fst b))) b) ((fun b => xi_attributes (snd (fst b))) x) /\
  at_gen m "instances" (fun v _ => list_of (inst_check files keccak) v) ((fun b => xe_instances (fst (fst b))) b) ((fun b => xe_instances (fst (fst b))) x) /\
  at_gen m "lastNonce" (fun v _ => word_check files keccak v) ((fun b => xe_last (fst (fst b))) b) ((fun b => xe_last (fst (fst b))) x) /\
  at_gen m "roles" (fun v _ => list_of text v) ((fun b => xe_roles (fst (fst b))) b) ((fun b => xe_roles (fst (fst b))) x) /\
  at_gen m "frozen" (fun v _ => word_check files keccak v) ((fun b => xe_frozen (fst (fst b))) b) ((fun b => xe_frozen (fst (fst b))) x) /\
  xe_token (fst (fst x)) = xe_token (fst (fst b)) /\ loaded m (snd b) (snd x).
Proof. fields check_data_field_iff. Qed.

End Records.
