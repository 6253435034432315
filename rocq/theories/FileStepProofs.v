(** Checks, transactions and steps of a scenario file. *)
From Verif Require Import Base CodecSpec JsonModel JsonSpec MandosSpec JsonParseProofs JsonPrintProofs.
From Verif Require Import ScenParseModel FileSpec ReadProofs FileProofs FileRecordProofs FileAccountProofs.
From stdpp Require Import list.
Local Open Scope Z_scope.

Section Steps.
Context (files : bytes -> option bytes) (keccak : bytes -> bytes).

(** * Records that stand alone *)

Lemma block_said_iff v x : wj v -> processBlockInfo files keccak v = SOk x <-> block_said files keccak v x.
Proof.
  intros Hv. unfold processBlockInfo, block_said. rewrite sbind_iff.
  split; intros (m & Hm & H); exists m.
  - apply as_map_iff in Hm. subst v. split; [done|].
    exact (proj1 (block_iff files keccak m (wj_keys m Hv) (wj_values m Hv) (mkBlockInfo juint_zero juint_zero juint_zero juint_zero None) x) H).
  - subst v. split; [done|]. exact (proj2 (block_iff files keccak m (wj_keys m Hv) (wj_values m Hv) (mkBlockInfo juint_zero juint_zero juint_zero juint_zero None) x) H).
Qed.
Lemma mock_said_iff v x : wj v -> processNewAddressMock files keccak v = SOk x <-> mock files keccak v x.
Proof.
  intros Hv. unfold processNewAddressMock, mock. rewrite sbind_iff.
  split; intros (m & Hm & H); exists m.
  - apply as_map_iff in Hm. subst v. split; [done|].
    exact (proj1 (mock_iff files keccak m (wj_keys m Hv) (wj_values m Hv) (mkNewAddress jbytes_zero juint_zero jbytes_zero) x) H).
  - subst v. split; [done|]. exact (proj2 (mock_iff files keccak m (wj_keys m Hv) (wj_values m Hv) (mkNewAddress jbytes_zero juint_zero jbytes_zero) x) H).
Qed.
Lemma esdt_tx_said_iff v x : wj v -> processTxESDT files keccak v = SOk x <-> token_sent files keccak v x.
Proof.
  intros Hv. unfold processTxESDT, token_sent. rewrite sbind_iff.
  split; intros (m & Hm & H); exists m.
  - apply as_map_iff in Hm. subst v. split; [done|].
    exact (proj1 (esdt_tx_iff files keccak m (wj_keys m Hv) (wj_values m Hv) (mkEsdtTx jbytes_zero juint_zero jbig_zero) x) H).
  - subst v. split; [done|]. exact (proj2 (esdt_tx_iff files keccak m (wj_keys m Hv) (wj_values m Hv) (mkEsdtTx jbytes_zero juint_zero jbig_zero) x) H).
Qed.
Lemma log_said_iff v x : wj v -> processLog files keccak v = SOk x <-> log_said files keccak v x.
Proof.
  intros Hv. unfold processLog, log_said. rewrite sbind_iff.
  split; intros (m & Hm & H); exists m.
  - apply as_map_iff in Hm. subst v. split; [done|].
    exact (proj1 (log_iff files keccak m (wj_keys m Hv) (wj_values m Hv) (mkLogCheck cbytes_zero cbytes_zero [] cbytes_zero) x) H).
  - subst v. split; [done|]. exact (proj2 (log_iff files keccak m (wj_keys m Hv) (wj_values m Hv) (mkLogCheck cbytes_zero cbytes_zero [] cbytes_zero) x) H).
Qed.
Lemma mocks_iff v l : wj v -> processNewAddressMocks files keccak v = SOk l <-> list_of (mock files keccak) v l.
Proof. intros Hv. apply list_iff; [done|]. apply mock_said_iff. Qed.
Lemma logs_iff v l : wj v -> processLogList files keccak v = SOk l <-> list_of (log_said files keccak) v l.
Proof. intros Hv. apply list_iff; [done|]. apply log_said_iff. Qed.

(** * Accounts to be checked *)

Lemma account_check_iff k v a : wj v ->
  sbind (processCheckAccount files keccak v) (fun a => sbind (parseAccountAddress files keccak k)
    (fun x => SOk (set_x_address x a))) = SOk a <-> account_check files keccak (k, v) a.
Proof.
  intros Hv. unfold account_check, processCheckAccount. cbn [fst snd]. rewrite sbind_iff. split.
  - intros (b & Hb & H). apply sbind_iff in H as (x & Hx & [= <-]). apply sbind_iff in Hb as (m & Hm & Hb).
    apply as_map_iff in Hm. subst v.
    apply (check_account_iff files keccak m (wj_keys m Hv) (wj_values m Hv)) in Hb.
    unfold get_esdt, get_storage in Hb. simpl in Hb. rewrite !at_map_appended in Hb.
    split; [by apply key_address_iff|]. exists m. split; [done|]. simpl. destruct_and! Hb. split_and!; assumption.
  - intros (Hk & m & -> & H).
    exists (set_x_address (mkJBytes [] []) a). split.
    + apply sbind_iff. exists m. split; [done|].
      apply (check_account_iff files keccak m (wj_keys m Hv) (wj_values m Hv)).
      unfold get_esdt, get_storage. simpl. rewrite !at_map_appended.
      destruct_and! H. split_and!; assumption || reflexivity.
    + apply sbind_iff. exists (x_address a). split; [by apply key_address_iff|]. by destruct a.
Qed.
Definition put_accounts (l : list check_account) (more : bool) (xs : check_accounts) : check_accounts :=
  mkCheckAccounts (xs_accounts xs ++ l) (xs_more xs || more).
Lemma accounts_check_iff v xs : wj v ->
  processCheckAccountMap files keccak v = SOk xs <-> accounts_check files keccak v xs.
Proof.
  intros Hv. unfold processCheckAccountMap, accounts_check. rewrite sbind_iff.
  assert (forall m, wj (JMap m) -> forall a x, over (check_accounts_entry files keccak) m a = SOk x <->
    exists more l, has_plus m more /\ Forall2 (account_check files keccak) (no_plus m) l /\ x = put_accounts l more a) as L.
  { intros m Hw. apply plus_loop; [| | | |by apply wj_keys|by apply wj_values].
    - intros []. unfold put_accounts; simpl. by rewrite orb_false_r, app_nil_r.
    - intros l1 l2 m1 m2 []. unfold put_accounts; simpl. by rewrite orb_assoc, app_assoc.
    - intros w []. unfold check_accounts_entry, put_accounts. keys. simpl. by rewrite orb_true_r, app_nil_r.
    - intros k w b y Hw' Hk. unfold check_accounts_entry. rewrite key_plus, bool_decide_false by done.
      split.
      + intros H. apply sbind_iff in H as (a & Ha & H). apply sbind_iff in H as (x & Hx & [= <-]).
        exists (set_x_address x a). split.
        * apply account_check_iff; [done|]. rewrite Ha. cbn [sbind]. by rewrite Hx.
        * unfold put_accounts. by rewrite orb_false_r.
      + intros (a & Ha & ->). apply account_check_iff in Ha; [|done]. apply sbind_iff in Ha as (a' & Ha' & H).
        apply sbind_iff in H as (x & Hx & [= <-]). rewrite Ha'. cbn [sbind]. rewrite Hx. cbn [sbind].
        unfold put_accounts. by rewrite orb_false_r. }
  split.
  - intros (m & Hm & H). apply as_map_iff in Hm. subst v. apply (L m Hv) in H as (more & l & Hp & Hl & ->).
    exists m. done.
  - intros (m & -> & Hp & Hl). exists m. split; [done|]. apply (L m Hv). exists (xs_more xs), (xs_accounts xs).
    split; [done|]. split; [done|]. by destruct xs.
Qed.

(** * Transactions *)

Lemma sender_iff ty : HasSender ty = true <-> paid ty.
Proof. unfold paid. destruct ty; cbn; intuition congruence. Qed.
Lemma esdt_paid_iff ty : HasESDT ty = true <-> paid ty.
Proof. unfold paid. destruct ty; cbn; intuition congruence. Qed.
Lemma gas_paid_iff ty : HasGas ty = true <-> paid ty.
Proof. unfold paid. destruct ty; cbn; intuition congruence. Qed.
Lemma value_iff ty : HasValue ty = true <-> ty <> ScQuery.
Proof. destruct ty; cbn; intuition congruence. Qed.
Lemma function_iff ty : HasFunction ty = true <-> ty = ScCall \/ ty = ScQuery.
Proof. destruct ty; cbn; intuition congruence. Qed.
Lemma contract_iff ty : IsSmartContractTx ty = true <-> on_contract ty.
Proof. unfold on_contract. destruct ty; cbn; intuition congruence. Qed.

Ltac a_field2 := split; [reflexivity|eexists; split; [split; eassumption|reflexivity]].
Ltac pick2 := first [left; a_field2 | right; pick2 | a_field2].
Lemma tx_field_iff (ty : tx_type) k v b b' : wj v -> tx_field files keccak ty k v b = SOk b' <->
  (k = str "nonce" /\ exists y, word files keccak v y /\ b' = set_t_nonce y b) \/
  (k = str "from" /\ exists y, (fun v x => paid ty /\ address files keccak v x) v y /\ b' = set_t_from y b) \/
  (k = str "to" /\ exists y, (fun v d x => (ty = ScDeploy /\ v = JStr [] /\ x = d) \/ (ty <> ScDeploy /\ address files keccak v x)) v (t_to b) y /\ b' = set_t_to y b) \/
  (k = str "function" /\ exists y, (fun v q => text v q /\ (ty = ScCall \/ ty = ScQuery \/ q = [])) v y /\ b' = set_t_function y b) \/
  (k = str "value" /\ exists y, (fun v x => ty <> ScQuery /\ natural files keccak v x) v y /\ b' = set_t_value y b) \/
  (k = str "esdt" /\ exists y, (fun v x => paid ty /\ some_of (token_sent files keccak) v x) v y /\ b' = set_t_esdt y b) \/
  (k = str "arguments" /\ exists y, (fun v l => list_of (tree_bytes files keccak) v l /\ (ty = TxTransfer -> l = [])) v y /\ b' = set_t_args y b) \/
  (k = str "contractCode" /\ exists y, (fun v x => plain_bytes files keccak v x /\ (ty = ScDeploy \/ jb_value x = [])) v y /\ b' = set_t_code y b) \/
  (k = str "gasPrice" /\ exists y, (fun v x => paid ty /\ word files keccak v x) v y /\ b' = set_t_gasprice y b) \/
  (k = str "gasLimit" /\ exists y, (fun v x => paid ty /\ word files keccak v x) v y /\ b' = set_t_gaslimit y b).
Proof.
  intros Hv. one_field tx_field.
  - destruct (HasSender ty) eqn:E; [|discriminate Hf]. apply sender_iff in E.
    apply sbind_iff in Hf as (y & Hy & Hf). meaning Hy. injection Hf as <-. pick2.
  - apply sbind_iff in Hf as (q & Hq & Hf). meaning Hq. subst v. case_bool_decide as E.
    + destruct q as [|c q]; [|discriminate Hf]. injection Hf as <-. do 2 right. left. split; [done|].
      exists (t_to b). split; [by left|]. by destruct b.
    + apply sbind_iff in Hf as (y & Hy & [= <-]). do 2 right. left. split; [done|]. exists y. split; [|done]. right.
      split; [done|]. exists q. split; [done|]. by apply key_address_iff.
  - apply sbind_iff in Hf as (q & Hq & Hf). meaning Hq. subst v.
    destruct (HasFunction ty || bool_decide (q = [])) eqn:E; [|discriminate Hf]. injection Hf as <-.
    do 3 right. left. split; [done|]. exists q. split; [|done]. split; [done|]. apply orb_true_iff in E as [E|E].
    + apply function_iff in E. tauto.
    + apply bool_decide_eq_true in E. tauto.
  - destruct (HasValue ty) eqn:E; [|discriminate Hf]. apply value_iff in E.
    apply sbind_iff in Hf as (y & Hy & Hf). meaning Hy. injection Hf as <-. pick2.
  - destruct (HasESDT ty) eqn:E; [|discriminate Hf]. apply esdt_paid_iff in E.
    apply sbind_iff in Hf as (y & Hy & [= <-]). apply esdt_tx_said_iff in Hy; [|done].
    do 5 right. left. split; [done|]. exists (Some y). split; [|done]. split; [done|]. by exists y.
  - apply sbind_iff in Hf as (l & Hl & Hf). meaning Hl.
    destruct (bool_decide (ty = TxTransfer) && negb (bool_decide (length l = 0%nat))) eqn:E; [discriminate|].
    injection Hf as <-. do 6 right. left. split; [done|]. exists l. split; [|done]. split; [done|].
    intros ->. rewrite bool_decide_true in E by done. destruct l; [done|discriminate E].
  - apply sbind_iff in Hf as (y & Hy & Hf). meaning Hy.
    destruct (bool_decide (ty = ScDeploy) || bool_decide (jb_value y = [])) eqn:E; [|discriminate].
    injection Hf as <-. do 7 right. left. split; [done|]. exists y. split; [|done]. split; [done|].
    apply orb_true_iff in E as [E|E]; apply bool_decide_eq_true in E; tauto.
  - destruct (HasGas ty) eqn:E; [|discriminate Hf]. apply gas_paid_iff in E.
    apply sbind_iff in Hf as (y & Hy & Hf). meaning Hy. injection Hf as <-. pick2.
  - destruct (HasGas ty) eqn:E; [|discriminate Hf]. apply gas_paid_iff in E.
    apply sbind_iff in Hf as (y & Hy & Hf). meaning Hy. injection Hf as <-. pick2.
  - destruct Hy as [E Hy]. apply sender_iff in E. rewrite E. apply sbind_iff. exists y. split; [reading; exact Hy|done].
  - destruct Hy as [(-> & -> & ->)|(E & q & -> & Hy)].
    + cbn. by destruct b.
    + cbn [parseString sbind]. rewrite bool_decide_false by done. apply sbind_iff. exists y.
      split; [by apply key_address_iff|done].
  - destruct Hy as [Hq E]. unfold text in Hq. subst v. cbn [parseString sbind].
    assert (HasFunction ty || bool_decide (y = []) = true) as ->; [|done]. apply orb_true_iff.
    destruct E as [E|[E|E]]; [left; apply function_iff; tauto..|right; by apply bool_decide_eq_true].
  - destruct Hy as [E Hy]. apply value_iff in E. rewrite E. apply sbind_iff. exists y. split; [reading; exact Hy|done].
  - destruct Hy as (E & e & -> & Hy). apply esdt_paid_iff in E. rewrite E. apply sbind_iff. exists e.
    split; [by apply esdt_tx_said_iff|done].
  - destruct Hy as [Hy E]. apply sbind_iff. exists y. split; [reading; exact Hy|]. case_bool_decide as E'; [|done].
    by rewrite (E E').
  - destruct Hy as [Hy E]. apply sbind_iff. exists y. split; [reading; exact Hy|].
    assert (bool_decide (ty = ScDeploy) || bool_decide (jb_value y = []) = true) as ->; [|done]. apply orb_true_iff.
    destruct E as [E|E]; [left|right]; by apply bool_decide_eq_true.
  - destruct Hy as [E Hy]. apply gas_paid_iff in E. rewrite E. apply sbind_iff. exists y. split; [reading; exact Hy|done].
  - destruct Hy as [E Hy]. apply gas_paid_iff in E. rewrite E. apply sbind_iff. exists y. split; [reading; exact Hy|done].
Qed.
Lemma tx_iff (ty : tx_type) : forall m, NoDup (map fst m) -> Forall (fun kv => wj (snd kv)) m -> forall b x,
  over (tx_field files keccak ty) m b = SOk x <->
  only m ["nonce"; "from"; "to"; "function"; "value"; "esdt"; "arguments"; "contractCode"; "gasPrice"; "gasLimit"]%string /\
  at_gen m "nonce" (fun v _ => word files keccak v) (t_nonce b) (t_nonce x) /\
  at_gen m "from" (fun v _ => (fun v x => paid ty /\ address files keccak v x) v) (t_from b) (t_from x) /\
  at_gen m "to" (fun v d x => (ty = ScDeploy /\ v = JStr [] /\ x = d) \/ (ty <> ScDeploy /\ address files keccak v x)) (t_to b) (t_to x) /\
  at_gen m "function" (fun v _ => (fun v q => text v q /\ (ty = ScCall \/ ty = ScQuery \/ q = [])) v) (t_function b) (t_function x) /\
  at_gen m "value" (fun v _ => (fun v x => ty <> ScQuery /\ natural files keccak v x) v) (t_value b) (t_value x) /\
  at_gen m "esdt" (fun v _ => (fun v x => paid ty /\ some_of (token_sent files keccak) v x) v) (t_esdt b) (t_esdt x) /\
  at_gen m "arguments" (fun v _ => (fun v l => list_of (tree_bytes files keccak) v l /\ (ty = TxTransfer -> l = [])) v) (t_args b) (t_args x) /\
  at_gen m "contractCode" (fun v _ => (fun v x => plain_bytes files keccak v x /\ (ty = ScDeploy \/ jb_value x = [])) v) (t_code b) (t_code x) /\
  at_gen m "gasPrice" (fun v _ => (fun v x => paid ty /\ word files keccak v x) v) (t_gasprice b) (t_gasprice x) /\
  at_gen m "gasLimit" (fun v _ => (fun v x => paid ty /\ word files keccak v x) v) (t_gaslimit b) (t_gaslimit x) /\
  t_type x = t_type b.
Proof. fields (tx_field_iff ty). Qed.

Lemma tx_said_iff ty v t : wj v -> processTx files keccak ty v = SOk t <-> tx_said files keccak ty v t.
Proof.
  intros Hv. unfold processTx, tx_said. rewrite sbind_iff.
  split; intros (m & Hm & H); exists m.
  - apply as_map_iff in Hm. subst v. split; [done|].
    apply (tx_iff ty m (wj_keys m Hv) (wj_values m Hv)) in H. simpl in H. destruct_and! H. split_and!; assumption.
  - subst v. split; [done|]. apply (tx_iff ty m (wj_keys m Hv) (wj_values m Hv)). simpl. destruct_and! H.
    split_and!; assumption.
Qed.

(** * Expected results *)

Definition get_logs (r : tx_result) := (tr_logs_star r, tr_logs_unspec r, tr_log_hash r, tr_logs r).
Definition set_logs (y : bool * bool * bytes * list log_check) (r : tx_result) : tx_result :=
  mkTxResult (tr_out r) (tr_status r) (tr_message r) (tr_gas r) (tr_refund r)
    (fst (fst (fst y))) (snd (fst (fst y))) (snd (fst y)) (snd y).
Definition logs_over (v : json) (d x : bool * bool * bytes * list log_check) : Prop :=
  (v = star /\ x = (true, false, snd (fst d), snd d)) \/
  (v <> star /\ exists h, v = JStr h /\ x = (false, false, h, snd d)) \/
  (exists l, list_of (log_said files keccak) v l /\ x = (false, false, [], l)).
Lemma result_field_iff k v b b' : wj v -> result_field files keccak k v b = SOk b' <->
  (k = str "out" /\ exists y, list_of (bytes_check files keccak) v y /\ b' = set_tr_out y b) \/
  (k = str "status" /\ exists y, big_check (integer files keccak) v y /\ b' = set_tr_status y b) \/
  (k = str "message" /\ exists y, bytes_check files keccak v y /\ b' = set_tr_message y b) \/
  (k = str "logs" /\ exists y, logs_over v (get_logs b) y /\ b' = set_logs y b) \/
  (k = str "gas" /\ exists y, word_check files keccak v y /\ b' = set_tr_gas y b) \/
  (k = str "refund" /\ exists y, big_check (natural files keccak) v y /\ b' = set_tr_refund y b).
Proof.
  intros Hv. one_field result_field.
  - cbv zeta in Hf. destruct (IsStar v) eqn:S.
    + apply star_iff in S. subst v. injection Hf as <-. do 3 right. left. split; [done|].
      exists (true, false, tr_log_hash b, tr_logs b). split; [by left|]. by destruct b.
    + assert (v <> star) as Hs by (intros ->; discriminate S).
      do 3 right. left. split; [done|]. destruct v as [h|x|l|m]; cbn [parseString] in Hf.
      * injection Hf as <-. exists (false, false, h, tr_logs b). split; [right; left|by destruct b].
        split; [done|]. by exists h.
      * discriminate Hf.
      * apply sbind_iff in Hf as (y & Hy & [= <-]). apply logs_iff in Hy; [|done].
        exists (false, false, [], y). split; [right; right|by destruct b]. by exists y.
      * discriminate Hf.
  - cbv zeta. destruct Hy as [(-> & ->)|[(Hs & h & -> & ->)|(l & Hl & ->)]].
    + by destruct b.
    + destruct (IsStar (JStr h)) eqn:S; [apply star_iff in S; contradiction|]. cbn [parseString]. by destruct b.
    + pose proof Hl as (vs & -> & _). apply logs_iff in Hl; [|done].
      assert (IsStar (JList vs) = false) as -> by done. cbn [parseString]. rewrite Hl. cbn [sbind]. by destruct b.
Qed.
Lemma result_iff : forall m, NoDup (map fst m) -> Forall (fun kv => wj (snd kv)) m -> forall b x,
  over (result_field files keccak) m b = SOk x <->
  only m ["out"; "status"; "message"; "logs"; "gas"; "refund"]%string /\
  at_gen m "out" (fun v _ => list_of (bytes_check files keccak) v) (tr_out b) (tr_out x) /\
  at_gen m "status" (fun v _ => big_check (integer files keccak) v) (tr_status b) (tr_status x) /\
  at_gen m "message" (fun v _ => bytes_check files keccak v) (tr_message b) (tr_message x) /\
  at_gen m "logs" logs_over (get_logs b) (get_logs x) /\
  at_gen m "gas" (fun v _ => word_check files keccak v) (tr_gas b) (tr_gas x) /\
  at_gen m "refund" (fun v _ => big_check (natural files keccak) v) (tr_refund b) (tr_refund x).
Proof. unfold get_logs. fields result_field_iff. Qed.

Lemma result_said_iff v r : wj v -> processTxExpectedResult files keccak v = SOk r <-> result_said files keccak v r.
Proof.
  intros Hv. unfold processTxExpectedResult, result_said. rewrite sbind_iff.
  split; intros (m & Hm & H); exists m.
  - apply as_map_iff in Hm. subst v. split; [done|].
    apply (result_iff m (wj_keys m Hv) (wj_values m Hv)) in H. unfold get_logs in H. simpl in H.
    destruct_and! H. split_and!; assumption.
  - subst v. split; [done|]. apply (result_iff m (wj_keys m Hv) (wj_values m Hv)). unfold get_logs. simpl.
    destruct_and! H. split_and!; assumption.
Qed.

(** * Steps *)

Ltac meaning H ::= first
  [ apply string_iff in H | apply account_map_iff in H; [|assumption] | apply mocks_iff in H; [|assumption]
  | apply bytes_list_iff in H; [|assumption] ].
Ltac reading ::= first
  [ apply string_iff | apply account_map_iff; [assumption|] | apply mocks_iff; [assumption|]
  | apply bytes_list_iff; [assumption|] ].

Lemma external_field_iff k v b b' : wj v -> external_field k v b = SOk b' <->
  (k = str "step" /\ exists y, (fun (_ : json) (y : unit) => y = tt) v y /\ b' = (fun (_ : unit) b => b) y b) \/
  (k = str "comment" /\ exists y, text v y /\ b' = (fun y b => (y, snd b)) y b) \/
  (k = str "path" /\ exists y, text v y /\ b' = (fun y b => (fst b, y)) y b).
Proof.
  intros Hv. destruct b as [c p]. one_field external_field; cbn [fst snd] in *.
  - injection Hf as <-. left. split; [done|]. by exists tt.
  - done.
Qed.
Lemma external_iff : forall m, NoDup (map fst m) -> Forall (fun kv => wj (snd kv)) m -> forall b x,
  over (external_field) m b = SOk x <->
  only m ["step"; "comment"; "path"]%string /\
  at_gen m "step" (fun v _ => (fun (_ : json) (y : unit) => y = tt) v) ((fun _ => tt) b) ((fun _ => tt) x) /\
  at_gen m "comment" (fun v _ => text v) ((fun b => fst b) b) ((fun b => fst b) x) /\
  at_gen m "path" (fun v _ => text v) ((fun b => snd b) b) ((fun b => snd b) x).
Proof. fields external_field_iff. Qed.

Lemma set_field_iff k v b b' : wj v -> set_field files keccak k v b = SOk b' <->
  (k = str "step" /\ exists y, (fun (_ : json) (y : unit) => y = tt) v y /\ b' = (fun (_ : unit) b => b) y b) \/
  (k = str "comment" /\ exists y, text v y /\ b' = (fun y b => (y, snd (fst (fst b)), snd (fst b), snd b)) y b) \/
  (k = str "accounts" /\ exists y, map_of (account_said files keccak) v y /\ b' = (fun y b => (fst (fst (fst b)), y, snd (fst b), snd b)) y b) \/
  (k = str "newAddresses" /\ exists y, list_of (mock files keccak) v y /\ b' = (fun y b => (fst b, (fst (snd b), y))) y b) \/
  (k = str "previousBlockInfo" /\ exists y, some_of (block_said files keccak) v y /\ b' = (fun y b => (fst (fst b), (y, snd (snd (fst b))), snd b)) y b) \/
  (k = str "currentBlockInfo" /\ exists y, some_of (block_said files keccak) v y /\ b' = (fun y b => (fst (fst b), (fst (snd (fst b)), y), snd b)) y b) \/
  (k = str "blockHashes" /\ exists y, list_of (plain_bytes files keccak) v y /\ b' = (fun y b => (fst b, (y, snd (snd b)))) y b).
Proof.
  intros Hv. destruct b as [[[c al] [p q]] [h n]]. one_field set_field; cbn [fst snd] in *.
  - injection Hf as <-. left. split; [done|]. by exists tt.
  - apply sbind_iff in Hf as (y & Hy & Hf). apply block_said_iff in Hy; [|done]. injection Hf as <-.
    assert (some_of (block_said files keccak) v (Some y)) by (by exists y). pick.
  - apply sbind_iff in Hf as (y & Hy & Hf). apply block_said_iff in Hy; [|done]. injection Hf as <-.
    assert (some_of (block_said files keccak) v (Some y)) by (by exists y). pick.
  - done.
  - destruct Hy as (z & -> & Hz). apply sbind_iff. exists z. split; [by apply block_said_iff|done].
  - destruct Hy as (z & -> & Hz). apply sbind_iff. exists z. split; [by apply block_said_iff|done].
Qed.
Lemma set_iff : forall m, NoDup (map fst m) -> Forall (fun kv => wj (snd kv)) m -> forall b x,
  over (set_field files keccak) m b = SOk x <->
  only m ["step"; "comment"; "accounts"; "newAddresses"; "previousBlockInfo"; "currentBlockInfo"; "blockHashes"]%string /\
  at_gen m "step" (fun v _ => (fun (_ : json) (y : unit) => y = tt) v) ((fun _ => tt) b) ((fun _ => tt) x) /\
  at_gen m "comment" (fun v _ => text v) ((fun b => fst (fst (fst b))) b) ((fun b => fst (fst (fst b))) x) /\
  at_gen m "accounts" (fun v _ => map_of (account_said files keccak) v) ((fun b => snd (fst (fst b))) b) ((fun b => snd (fst (fst b))) x) /\
  at_gen m "newAddresses" (fun v _ => list_of (mock files keccak) v) ((fun b => snd (snd b)) b) ((fun b => snd (snd b)) x) /\
  at_gen m "previousBlockInfo" (fun v _ => some_of (block_said files keccak) v) ((fun b => fst (snd (fst b))) b) ((fun b => fst (snd (fst b))) x) /\
  at_gen m "currentBlockInfo" (fun v _ => some_of (block_said files keccak) v) ((fun b => snd (snd (fst b))) b) ((fun b => snd (snd (fst b))) x) /\
  at_gen m "blockHashes" (fun v _ => list_of (plain_bytes files keccak) v) ((fun b => fst (snd b)) b) ((fun b => fst (snd b)) x).
Proof. fields set_field_iff. Qed.

Lemma check_field_iff k v b b' : wj v -> check_field files keccak k v b = SOk b' <->
  (k = str "step" /\ exists y, (fun (_ : json) (y : unit) => y = tt) v y /\ b' = (fun (_ : unit) b => b) y b) \/
  (k = str "comment" /\ exists y, text v y /\ b' = (fun y b => (y, snd b)) y b) \/
  (k = str "accounts" /\ exists y, some_of (accounts_check files keccak) v y /\ b' = (fun y b => (fst b, y)) y b).
Proof.
  intros Hv. destruct b as [c xs]. one_field check_field; cbn [fst snd] in *.
  - injection Hf as <-. left. split; [done|]. by exists tt.
  - apply sbind_iff in Hf as (y & Hy & Hf). apply accounts_check_iff in Hy; [|done]. injection Hf as <-.
    assert (some_of (accounts_check files keccak) v (Some y)) by (by exists y). pick.
  - done.
  - destruct Hy as (z & -> & Hz). apply sbind_iff. exists z. split; [by apply accounts_check_iff|done].
Qed.
Lemma check_iff : forall m, NoDup (map fst m) -> Forall (fun kv => wj (snd kv)) m -> forall b x,
  over (check_field files keccak) m b = SOk x <->
  only m ["step"; "comment"; "accounts"]%string /\
  at_gen m "step" (fun v _ => (fun (_ : json) (y : unit) => y = tt) v) ((fun _ => tt) b) ((fun _ => tt) x) /\
  at_gen m "comment" (fun v _ => text v) ((fun b => fst b) b) ((fun b => fst b) x) /\
  at_gen m "accounts" (fun v _ => some_of (accounts_check files keccak) v) ((fun b => snd b) b) ((fun b => snd b) x).
Proof. fields check_field_iff. Qed.

Lemma dump_field_iff k v b b' : wj v -> dump_field k v b = SOk b' <->
  (k = str "step" /\ exists y, (fun (_ : json) (y : unit) => y = tt) v y /\ b' = (fun (_ : unit) b => b) y b) \/
  (k = str "comment" /\ exists y, text v y /\ b' = (fun y _ => y) y b).
Proof.
  intros Hv. one_field dump_field.
  - injection Hf as <-. left. split; [done|]. by exists tt.
  - meaning Hf. pick.
  - done.
  - by apply string_iff.
Qed.
Lemma dump_iff : forall m, NoDup (map fst m) -> Forall (fun kv => wj (snd kv)) m -> forall b x,
  over (dump_field) m b = SOk x <->
  only m ["step"; "comment"]%string /\
  at_gen m "step" (fun v _ => (fun (_ : json) (y : unit) => y = tt) v) ((fun _ => tt) b) ((fun _ => tt) x) /\
  at_gen m "comment" (fun v _ => text v) ((fun b => b) b) ((fun b => b) x).
Proof. fields dump_field_iff. Qed.

Lemma kind_none m d : str "step" ∉ map fst m -> over step_type_field m d = SOk d.
Proof.
  induction m as [|[k v] r IH]; intros H; cbn [over]; [done|].
  cbn [map fst] in H. apply not_elem_of_cons in H as [Hk H]. unfold step_type_field at 1.
  unfold key_is. rewrite bool_decide_false by congruence. cbn [sbind]. by apply IH.
Qed.
Lemma kind_iff m : NoDup (map fst m) -> forall d ty,
  over step_type_field m d = SOk ty <-> at_key m "step" text d ty.
Proof.
  intros Hn d ty. rewrite <- at_plain. revert d. induction m as [|[k v] r IH]; intros d.
  - cbn [over]. rewrite at_nil. split; congruence.
  - cbn [map fst] in Hn. apply NoDup_cons in Hn as [Hk Hn]. rewrite over_cons.
    destruct (decide (k = str "step")) as [->|Hne].
    + rewrite at_same by done. unfold step_type_field at 1. keys. setoid_rewrite string_iff. split.
      * intros (y & -> & H). rewrite kind_none in H by done. by injection H as ->.
      * intros ->. exists ty. split; [done|]. by apply kind_none.
    + rewrite at_skip by done. unfold step_type_field at 1, key_is. rewrite bool_decide_false by done. split.
      * intros (y & [= <-] & H). by apply IH.
      * intros H. exists d. split; [done|]. by apply IH.
Qed.

(** The fields of a transaction step. *)
Lemma before_cons m kv k1 k2 : before m k1 k2 -> before (kv :: m) k1 k2.
Proof.
  intros (m1 & m2 & -> & H1 & H2). exists (kv :: m1), m2. split; [done|]. split; [by right|done].
Qed.
Lemma before_here v m k1 k2 : str k2 ∈ map fst m -> before ((str k1, v) :: m) k1 k2.
Proof. intros H. exists [(str k1, v)], m. split; [done|]. split; [by left|done]. Qed.
Lemma before_skip v k m k1 k2 : k <> str k1 -> before ((k, v) :: m) k1 k2 -> before m k1 k2.
Proof.
  intros Hk ([|kv m1] & m2 & E & H1 & H2); [by apply elem_of_nil in H1|]. injection E as <- ->.
  exists m1, m2. split; [done|]. split; [|done]. cbn [map fst] in H1. apply elem_of_cons in H1 as [H1|H1]; [by subst k|exact H1].
Qed.
Lemma given_key m k v : given m k v -> str k ∈ map fst m.
Proof. intros H. apply elem_of_list_fmap. by exists (str k, v). Qed.

Lemma tx_step_loop ty m : NoDup (map fst m) -> Forall (fun kv => wj (snd kv)) m ->
  forall i c tx e i' c' tx' e', (forall t, tx = Some t -> t_type t = ty) ->
  over (tx_step_field files keccak ty) m ((i, c), (tx, e)) = SOk ((i', c'), (tx', e')) <->
  only m ["step"; "txId"; "comment"; "tx"; "expect"]%string /\
  at_key m "txId" text i i' /\ at_key m "comment" text c c' /\
  at_key m "tx" (some_of (tx_said files keccak ty)) tx tx' /\
  at_key m "expect" (fun w x => on_contract ty /\ (tx <> None \/ before m "tx" "expect") /\
                                some_of (result_said files keccak) w x) e e'.
Proof.
  intros Hn Hw. induction m as [|[k v] r IH]; intros i c tx e i' c' tx' e' Htx.
  - cbn [over]. rewrite <- !at_plain, !at_nil. split.
    + intros [= -> -> -> ->]. split_and!; [constructor|done..].
    + intros (_ & -> & -> & -> & ->). done.
  - cbn [map fst] in Hn. apply NoDup_cons in Hn as [Hk Hn]. apply Forall_cons in Hw as [Hv Hw]. cbn [snd] in Hv.
    specialize (IH Hn Hw). rewrite over_cons.
    assert (forall P : (json -> option tx_result -> Prop), k <> str "tx" -> k <> str "expect" ->
      at_key ((k, v) :: r) "expect" (fun w x => on_contract ty /\
        (tx <> None \/ before ((k, v) :: r) "tx" "expect") /\ some_of (result_said files keccak) w x) e e' <->
      at_key r "expect" (fun w x => on_contract ty /\ (tx <> None \/ before r "tx" "expect") /\
        some_of (result_said files keccak) w x) e e') as Hskip.
    { intros _ N1 N2. rewrite <- !at_plain, at_skip by done. rewrite !at_plain.
      assert (before ((k, v) :: r) "tx" "expect" <-> before r "tx" "expect") as E.
      { split; [by apply before_skip|apply before_cons]. }
      unfold at_key. by setoid_rewrite E. }
    unfold tx_step_field at 1. rewrite only_cons.
    destruct (key_is k "step") eqn:E; [apply key_eq in E; subst k|].
    { rewrite Hskip by (exact (fun _ _ => True) || differ). rewrite <- !at_plain, !(at_skip (str "step")) by differ.
      rewrite !at_plain. split.
      - intros (a & [= <-] & H). apply IH in H; [|done]. split_and!; [in_keys|apply H..].
      - intros ((_ & Ho) & H). eexists. split; [done|]. apply IH; done. }
    destruct (key_is k "txId") eqn:E1; [apply key_eq in E1; subst k|].
    { rewrite Hskip by (exact (fun _ _ => True) || differ). rewrite <- !at_plain. rewrite at_same by done.
      rewrite !(at_skip (str "txId")) by differ. rewrite !at_plain. split.
      - intros (a & Ha & H). apply sbind_iff in Ha as (y & Hy & [= <-]). apply string_iff in Hy.
        apply IH in H; [|done]. destruct H as (H1 & H2 & H3). rewrite <- at_plain, at_none in H2 by done. subst y.
        split_and!; [in_keys|done..|apply H3|apply H3|apply H3].
      - intros ((_ & Ho) & Hy & H). eexists. split; [apply sbind_iff; exists i'; split; [by apply string_iff|done]|].
        apply IH; [done|]. split; [done|]. split; [|done]. rewrite <- at_plain. by apply at_none. }
    destruct (key_is k "comment") eqn:E2; [apply key_eq in E2; subst k|].
    { rewrite Hskip by (exact (fun _ _ => True) || differ). rewrite <- !at_plain. rewrite (at_same "comment") by done.
      rewrite !(at_skip (str "comment")) by differ. rewrite !at_plain. split.
      - intros (a & Ha & H). apply sbind_iff in Ha as (y & Hy & [= <-]). apply string_iff in Hy.
        apply IH in H; [|done]. destruct H as (H1 & H2 & H3 & H4). rewrite <- at_plain, at_none in H3 by done. subst y.
        split_and!; [in_keys|done..|apply H4|apply H4].
      - intros ((_ & Ho) & H2 & Hy & H). eexists. split; [apply sbind_iff; exists c'; split; [by apply string_iff|done]|].
        apply IH; [done|]. split; [done|]. split; [done|]. split; [|done]. rewrite <- at_plain. by apply at_none. }
    destruct (key_is k "tx") eqn:E3; [apply key_eq in E3; subst k|].
    { rewrite <- !at_plain. rewrite (at_same "tx") by done.
      rewrite !(at_skip (str "tx")) by differ. rewrite !at_plain.
      assert (forall y : transaction, at_key r "expect" (fun w x => on_contract ty /\
          (tx <> None \/ before ((str "tx", v) :: r) "tx" "expect") /\ some_of (result_said files keccak) w x) e e' <->
        at_key r "expect" (fun w x => on_contract ty /\ (Some y <> None \/ before r "tx" "expect") /\
        some_of (result_said files keccak) w x) e e') as Hx.
      { intros y. unfold at_key. split; (intros [(w & Hg & H1 & H2 & H3)|H]; [left; exists w|by right]).
        - split_and!; [done..|by left|done].
        - split_and!; [done..| |done]. right. apply before_here. by eapply given_key. }
      split.
      - intros (a & Ha & H). apply sbind_iff in Ha as (y & Hy & [= <-]). apply tx_said_iff in Hy; [|done].
        apply IH in H; [|intros t [= <-]; by destruct Hy as (? & _ & ? & _)].
        destruct H as (H1 & H2 & H3 & H4 & H5). rewrite <- at_plain, at_none in H4 by done. subst tx'.
        split_and!; [in_keys|done..|by exists y|by apply (Hx y)].
      - intros ((_ & Ho) & H2 & H3 & (y & -> & Hy) & H). eexists.
        split; [apply sbind_iff; exists y; split; [by apply tx_said_iff|done]|].
        apply IH; [intros t [= <-]; by destruct Hy as (? & _ & ? & _)|].
        split_and!; [done..| |by apply (Hx y)]. rewrite <- at_plain. by apply at_none. }
    destruct (key_is k "expect") eqn:E4; [apply key_eq in E4; subst k|].
    { rewrite <- !at_plain. rewrite (at_same "expect") by done.
      rewrite !(at_skip (str "expect")) by differ. rewrite !at_plain.
      assert (~ before ((str "expect", v) :: r) "tx" "expect") as Hb.
      { intros ([|kv m1] & m2 & Eq & H1 & H2); [by apply elem_of_nil in H1|]. injection Eq as <- ->.
        apply Hk. rewrite map_app. apply elem_of_app. by right. }
      split.
      - intros (a & Ha & H). destruct tx as [t|]; [|discriminate Ha].
        rewrite (Htx t eq_refl) in Ha. destruct (IsSmartContractTx ty) eqn:C; [|discriminate Ha]. apply contract_iff in C.
        apply sbind_iff in Ha as (y & Hy & [= <-]). apply result_said_iff in Hy; [|done].
        apply IH in H; [|done]. destruct H as (H1 & H2 & H3 & H4 & H5). rewrite <- at_plain, at_none in H5 by done. subst e'.
        split_and!; [in_keys|done..|by left|by exists y].
      - intros ((_ & Ho) & H2 & H3 & H4 & C & [Hs|Hs] & y & -> & Hy); [|contradiction].
        destruct tx as [t|]; [|done]. rewrite (Htx t eq_refl). apply contract_iff in C. rewrite C. eexists.
        split; [apply sbind_iff; exists y; split; [by apply result_said_iff|done]|].
        apply IH; [done|]. split_and!; [done..|]. rewrite <- at_plain. by apply at_none. }
    split.
    + intros (a & Ha & _). discriminate Ha.
    + intros ((Hin & _) & _). apply key_ne in E, E1, E2, E3, E4. apply elem_of_list_In in Hin. cbn [map In] in Hin.
      destruct Hin as [<-|[<-|[<-|[<-|[<-|[]]]]]]; contradiction.
Qed.

Lemma tx_step_iff ty m s : NoDup (map fst m) -> Forall (fun kv => wj (snd kv)) m ->
  parseTxStep files keccak ty m = SOk s <-> exists ident c t expected, s = TxStep ident c t expected /\ t_type t = ty /\
    only m ["step"; "txId"; "comment"; "tx"; "expect"]%string /\
    at_key m "txId" text [] ident /\ at_key m "comment" text [] c /\
    (exists w, given m "tx" w /\ tx_said files keccak (t_type t) w t) /\
    at_key m "expect" (fun w x => on_contract (t_type t) /\ before m "tx" "expect" /\
                                  some_of (result_said files keccak) w x) None expected.
Proof.
  intros Hn Hw. unfold parseTxStep. rewrite sbind_iff.
  assert (forall e, at_key m "expect" (fun w x => on_contract ty /\ (@None transaction <> None \/ before m "tx" "expect") /\
      some_of (result_said files keccak) w x) None e <->
    at_key m "expect" (fun w x => on_contract ty /\ before m "tx" "expect" /\
      some_of (result_said files keccak) w x) None e) as Hx.
  { intros e. unfold at_key. split; (intros [(w & Hg & H1 & H2 & H3)|H]; [left; exists w|by right]).
    - destruct H2 as [H2|H2]; [congruence|]. done.
    - split_and!; [done..|by right|done]. }
  split.
  - intros ([[i c] [tx e]] & H & Hs). apply tx_step_loop in H; [|done..].
    destruct H as (H1 & H2 & H3 & H4 & H5). destruct tx as [t|]; [|discriminate Hs]. injection Hs as <-.
    assert (exists w, given m "tx" w /\ tx_said files keccak ty w t) as (w & Hg & Ht).
    { destruct H4 as [(w & Hg & y & [= <-] & Hy)|[_ ?]]; [|discriminate]. by exists w. }
    assert (t_type t = ty) as E by (by destruct Ht as (? & _ & ? & _)).
    exists i, c, t, e. split; [done|]. split; [done|]. rewrite E. split_and!; [done..|by exists w|by apply Hx].
  - intros (i & c & t & e & -> & E & H1 & H2 & H3 & (w & Hg & Ht) & H5). rewrite E in *.
    exists ((i, c), (Some t, e)). split; [|done]. apply tx_step_loop; [done..|].
    split_and!; [done..| |by apply Hx]. left. exists w. split; [done|]. by exists t.
Qed.

Lemma kind_of m ty : NoDup (map fst m) -> over step_type_field m [] = SOk ty -> ty <> [] ->
  given m "step" (JStr ty).
Proof.
  intros Hn H Hty. apply kind_iff in H; [|done]. destruct H as [(v & Hg & Hv)|[_ ->]]; [|done].
  unfold text in Hv. by subst v.
Qed.
Lemma kind_back m ty : NoDup (map fst m) -> given m "step" (JStr ty) -> over step_type_field m [] = SOk ty.
Proof. intros Hn H. apply kind_iff; [done|]. left. exists (JStr ty). done. Qed.
Lemma at_step m : at_gen m "step" (fun (_ : json) (_ y : unit) => y = tt) tt tt.
Proof.
  unfold at_gen, missing, given. destruct (decide (str "step" ∈ map fst m)) as [H|H].
  - apply elem_of_list_fmap in H as ([k v] & -> & H). left. exists v. done.
  - right. split; [|done]. intros v Hv. apply H, elem_of_list_fmap. by exists (str "step", v).
Qed.
Lemma step_iff v s : wj v -> processScenarioStep files keccak v = SOk s <-> step_said files keccak v s.
Proof.
  intros Hv. unfold processScenarioStep, step_said. rewrite sbind_iff.
  assert (forall m, wj (JMap m) -> forall ty, parseTxStep files keccak ty m = SOk s -> given m "step" (JStr (str (tx_name ty))) ->
    given m "step" (JStr (str (step_name s))) /\
    match s with
    | TxStep ident c t expected =>
        only m ["step"; "txId"; "comment"; "tx"; "expect"]%string /\
        at_key m "txId" text [] ident /\ at_key m "comment" text [] c /\
        (exists w, given m "tx" w /\ tx_said files keccak (t_type t) w t) /\
        at_key m "expect" (fun w x => on_contract (t_type t) /\ before m "tx" "expect" /\
                                      some_of (result_said files keccak) w x) None expected
    | _ => False
    end) as HT.
  { intros m Hm ty H Hg. apply tx_step_iff in H; [|by apply wj_keys|by apply wj_values].
    destruct H as (i & c & t & e & -> & E & H). cbn [step_name]. rewrite E. split; [done|]. rewrite E in H. exact H. }
  split.
  - intros (m & Hm & H). apply as_map_iff in Hm. subst v. exists m. split; [done|].
    apply sbind_iff in H as (ty & Hty & H). pose proof (wj_keys m Hv) as Hn. pose proof (wj_values m Hv) as Hw.
    assert (ty <> [] -> given m "step" (JStr ty)) as Hg by (by apply kind_of).
    destruct (key_is ty "externalSteps") eqn:E1; [apply key_eq in E1; subst ty|].
    { apply sbind_iff in H as ([c p] & H & [= <-]). apply (external_iff m Hn Hw) in H. simpl in H.
      destruct H as (H1 & _ & H2 & H3). split_and!; [by apply Hg|done..]. }
    destruct (key_is ty "setState") eqn:E2; [apply key_eq in E2; subst ty|].
    { apply sbind_iff in H as ([[[c al] [p q]] [h n]] & H & [= <-]). apply (set_iff m Hn Hw) in H. simpl in H.
      destruct H as (H1 & _ & H). destruct_and! H. split_and!; [by apply Hg|done..]. }
    destruct (key_is ty "checkState") eqn:E3; [apply key_eq in E3; subst ty|].
    { apply sbind_iff in H as ([c xs] & H & [= <-]). apply (check_iff m Hn Hw) in H. simpl in H.
      destruct H as (H1 & _ & H2 & H3). split_and!; [by apply Hg|done..]. }
    destruct (key_is ty "dumpState") eqn:E4; [apply key_eq in E4; subst ty|].
    { apply sbind_iff in H as (c & H & [= <-]). apply (dump_iff m Hn Hw) in H. simpl in H.
      destruct H as (H1 & _ & H2). split_and!; [by apply Hg|done..]. }
    assert (exists tt, (parseTxStep files keccak tt m = SOk s) /\ ty = str (tx_name tt)) as (tt & Ht & ->).
    { repeat match type of H with
      | (if key_is ?k ?q then _ else _) = _ =>
          let E := fresh in destruct (key_is k q) eqn:E; [apply key_eq in E; eexists; split; [exact H|exact E]|]
      end. discriminate H. }
    assert (given m "step" (JStr (str (tx_name tt)))) as Hgt by (apply Hg; by destruct tt).
    destruct (HT m Hv tt Ht Hgt) as [H1 H2]. split; [exact H1|].
    destruct s; try contradiction. exact H2.
  - intros (m & -> & Hg & H). exists m. split; [done|]. pose proof (wj_keys m Hv) as Hn. pose proof (wj_values m Hv) as Hw.
    rewrite (kind_back m _ Hn Hg). cbn [sbind]. destruct s as [c p|c al p q h n|c xs|c|i c t e]; cbn [step_name]; [keys..|].
    + apply sbind_iff. exists (c, p). split; [|done]. apply (external_iff m Hn Hw). simpl. destruct_and! H.
      split_and!; [done|apply at_step|done..].
    + apply sbind_iff. exists ((c, al), (p, q), (h, n)). split; [|done]. apply (set_iff m Hn Hw). simpl. destruct_and! H.
      split_and!; [done|apply at_step|done..].
    + apply sbind_iff. exists (c, xs). split; [|done]. apply (check_iff m Hn Hw). simpl. destruct_and! H.
      split_and!; [done|apply at_step|done..].
    + apply sbind_iff. exists c. split; [|done]. apply (dump_iff m Hn Hw). simpl. destruct_and! H.
      split_and!; [done|apply at_step|done..].
    + assert (parseTxStep files keccak (t_type t) m = SOk (TxStep i c t e)) as HP.
      { apply tx_step_iff; [done..|]. exists i, c, t, e. done. }
      clear HT Hg H. destruct (t_type t); cbn [tx_name]; keys; exact HP.
Qed.
Lemma steps_iff v l : wj v -> processScenarioStepList files keccak v = SOk l <-> list_of (step_said files keccak) v l.
Proof. intros Hv. apply list_iff; [done|]. apply step_iff. Qed.

(** * Scenarios *)

Lemma gas_iff v g : parseGasSchedule v = SOk g <-> gas_said v g.
Proof.
  unfold gas_said, parseGasSchedule. rewrite sbind_iff. split.
  - intros (s & Hs & H). apply string_iff in Hs. subst v.
    repeat match type of H with
      | (if key_is ?k ?q then _ else _) = _ =>
          let E := fresh in destruct (key_is k q) eqn:E; [apply key_eq in E; injection H as <-; by subst s|]
      end. discriminate H.
  - intros ->. eexists. split; [done|]. by destruct g.
Qed.
Ltac meaning H ::= first
  [ apply string_iff in H | apply gas_iff in H | apply steps_iff in H; [|assumption] ].
Ltac reading ::= first [ apply string_iff | apply gas_iff | apply steps_iff; [assumption|] ].

Lemma scenario_field_iff k v b b' : wj v -> scenario_field files keccak k v b = SOk b' <->
  (k = str "name" /\ exists y, text v y /\ b' = set_s_name y b) \/
  (k = str "comment" /\ exists y, text v y /\ b' = set_s_comment y b) \/
  (k = str "checkGas" /\ exists y, truth v y /\ b' = set_s_check_gas y b) \/
  (k = str "gasSchedule" /\ exists y, gas_said v y /\ b' = set_s_gas y b) \/
  (k = str "steps" /\ exists y, list_of (step_said files keccak) v y /\ b' = set_s_steps y b).
Proof.
  intros Hv. one_field scenario_field.
  - destruct v as [h|x|l|m]; try discriminate Hf. injection Hf as <-. do 2 right. left. split; [done|]. by exists x.
  - unfold truth in Hy. by subst v.
Qed.
Lemma scenario_iff : forall m, NoDup (map fst m) -> Forall (fun kv => wj (snd kv)) m -> forall b x,
  over (scenario_field files keccak) m b = SOk x <->
  only m ["name"; "comment"; "checkGas"; "gasSchedule"; "steps"]%string /\
  at_gen m "name" (fun v _ => text v) (s_name b) (s_name x) /\
  at_gen m "comment" (fun v _ => text v) (s_comment b) (s_comment x) /\
  at_gen m "checkGas" (fun v _ => truth v) (s_check_gas b) (s_check_gas x) /\
  at_gen m "gasSchedule" (fun v _ => gas_said v) (s_gas b) (s_gas x) /\
  at_gen m "steps" (fun v _ => list_of (step_said files keccak) v) (s_steps b) (s_steps x).
Proof. fields scenario_field_iff. Qed.

Lemma scenario_said_iff v s : wj v -> processScenario files keccak v = SOk s <-> scenario_said files keccak v s.
Proof.
  intros Hv. unfold processScenario, scenario_said. rewrite sbind_iff.
  split; intros (m & Hm & H); exists m.
  - apply as_map_iff in Hm. subst v. split; [done|].
    exact (proj1 (scenario_iff m (wj_keys m Hv) (wj_values m Hv) (mkScenario [] [] true GasDefault []) s) H).
  - subst v. split; [done|].
    exact (proj2 (scenario_iff m (wj_keys m Hv) (wj_values m Hv) (mkScenario [] [] true GasDefault []) s) H).
Qed.
Lemma file_iff text s : ParseScenarioFile files keccak text = SOk s <->
  exists v, lax_document text v /\ scenario_said files keccak v s.
Proof.
  unfold ParseScenarioFile. split.
  - destruct (ParseOrderedJSON text) as [[v|]|] eqn:E; try discriminate. intros H. exists v.
    pose proof (parsed_writable text v E) as Hw. split; [|by apply scenario_said_iff].
    apply parse_exact in E as (v' & [= <-] & Hd). exact Hd.
  - intros (v & Hd & Hs). apply lax_accepted in Hd. rewrite Hd. apply scenario_said_iff; [|done].
    by eapply parsed_writable.
Qed.
End Steps.
