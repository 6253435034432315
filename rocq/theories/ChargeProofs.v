(** Proofs for C95. *)
From Coq Require Import ZifyBool.
From Verif Require Import VmModel MathProofs WpProofs GasSpec GasProofs ChargeSpec.

Lemma more_points_min p g : 0 <= p <= max_i64 -> 0 <= g <= max_u64 -> more_points p g = Z.min max_i64 (p + g).
Proof.
  intros Hp Hg. unfold more_points. cbv zeta. unfold max_i64 in *.
  rewrite add_u64_sat by (unfold in_u64, max_u64 in *; lia). unfold max_u64 in *. destruct (_ <? _) eqn:Hc; lia.
Qed.

Lemma charge_one g h : in_frame h -> 0 <= spent h <= max_i64 -> 0 <= g <= max_u64 ->
  exists h', UseGas g h = (h', OOk tt) /\ in_frame h' /\ budget h' = budget h /\ spent h' = Z.min max_i64 (spent h + g).
Proof.
  intros (c & x & H) Hs Hg. rewrite (spent_run _ _ _ H) in *. rewrite (UseGas_run g h c x H). eexists.
  split; [reflexivity|]. pose proof (running_with_inst h c x (set_in_points (more_points (in_points x) g) x) H) as Hr.
  split; [exists c; eexists; exact Hr|]. split; [reflexivity|]. rewrite (spent_run _ _ _ Hr). cbn [in_points set_in_points].
  apply more_points_min; assumption.
Qed.

Lemma charge_spent gs : forall h, in_frame h -> 0 <= spent h <= max_i64 -> Forall (fun g => 0 <= g <= max_u64) gs ->
  exists h', charge_all gs h = (h', OOk tt) /\ in_frame h' /\ budget h' = budget h /\
    spent h' = Z.min max_i64 (spent h + sum_charged gs) /\ 0 <= sum_charged gs.
Proof.
  induction gs as [|g gs IH]; intros h Hf Hs Hg; cbn [charge_all sum_charged foldr].
  { exists h. split_and!; [reflexivity|exact Hf|reflexivity|lia|lia]. }
  apply Forall_cons in Hg as [Hg Hgs]. destruct (charge_one g h Hf Hs Hg) as (h1 & E1 & F1 & B1 & S1).
  destruct (IH h1 F1 ltac:(unfold max_i64 in *; lia) Hgs) as (h2 & E2 & F2 & B2 & S2 & T2). exists h2.
  unfold bind. rewrite E1. fold (sum_charged gs) in *. split_and!; [exact E2|exact F2|congruence|lia|lia].
Qed.

Lemma c95_charged gs h : in_frame h -> 0 <= spent h <= max_i64 -> budget h <= max_i64 ->
  Forall (fun g => 0 <= g <= max_u64) gs ->
  exists h', charge_all gs h = (h', OOk tt) /\ budget h' = budget h /\ gas_left h' = Z.max 0 (budget h - spent h - sum_charged gs).
Proof.
  intros Hf Hs Hb Hg. destruct (charge_spent gs h Hf Hs Hg) as (h' & E1 & F1 & B1 & S1 & T). exists h'.
  split; [exact E1|]. split; [exact B1|]. rewrite left_gas. unfold left_of. rewrite B1, S1. lia.
Qed.

Lemma c95_returned g r h : in_frame h -> 0 <= spent h -> spent h + g <= max_i64 -> 0 <= r <= g ->
  exists h1 h2, UseGas g h = (h1, OOk tt) /\ RestoreGas r h1 = (h2, OOk tt) /\
    gas_left h1 = Z.max 0 (budget h - spent h - g) /\ gas_left h2 = Z.max 0 (budget h - spent h - g + r).
Proof.
  intros Hf Hs Hg Hr. destruct (charge_one g h Hf ltac:(lia) ltac:(unfold max_i64, max_u64 in *; lia)) as (h1 & E1 & F1 & B1 & S1).
  exists h1. destruct (RestoreGas r h1) as [h2 ro] eqn:E2. exists h2.
  assert (Ho : ro = OOk tt /\ budget h2 = budget h1).
  { destruct F1 as (c & x & H). rewrite (RestoreGas_run r h1 c x H) in E2. injection E2 as <- <-. split; [reflexivity|]. destruct (_ <=? _); reflexivity. }
  destruct Ho as [-> B2]. destruct (RestoreGas_spent r h1 h2 _ F1 ltac:(lia) ltac:(lia) E2) as [S2 _].
  split; [exact E1|]. split; [reflexivity|]. rewrite !left_gas. unfold left_of. rewrite B2, B1, S2, S1. lia.
Qed.

Lemma c95_full gs h : in_frame h -> spent h = max_i64 -> Forall (fun g => 0 <= g <= max_u64) gs ->
  charge_all gs h = (h, OOk tt).
Proof.
  intros (c & x & H) Hs Hg. rewrite (spent_run _ _ _ H) in Hs. induction Hg as [|g gs Hg _ IH]; [reflexivity|].
  cbn [charge_all]. unfold bind. rewrite (UseGas_run g h c x H).
  assert (Hsame : with_inst c (set_in_points (more_points (in_points x) g) x) h = h).
  { rewrite more_points_min by (unfold max_i64 in *; lia).
    replace (Z.min max_i64 (in_points x + g)) with (in_points x) by (unfold max_i64 in *; lia).
    unfold with_inst. replace (set_in_points (in_points x) x) with x by (destruct x; reflexivity).
    destruct H as [_ H]. rewrite insert_id by exact H. destruct h; reflexivity. }
  rewrite Hsame. exact IH.
Qed.
