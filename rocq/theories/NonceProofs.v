(** Proofs for C54: the nonces from which the addresses of new contracts are
    derived. *)
From Verif Require Import MathProofs VmModel WpProofs EffProofs EffFrameProofs EffWalkProofs EffTopProofs CallSpec KeepProofs CallProofs
  GasAsyncProofs DeploySpec.
From Coq Require Import ZifyBool ZifyNat ZifyN.

Section nonce.
Context `{E : env} (c : bytes) (V3 : e_v3 E = true).
Notation fc := (fun h : host => nonce_now h c).

Definition out_nonce (h : host) : Z := default 0 (oa_nonce <$> accounts h !! c).
Definition chain_nonce (h : host) : Z := default 0 (ua_nonce <$> w_accounts (h_world h) !! c).
Lemma nonce_eq h : nonce_now h c = if out_nonce h =? 0 then chain_nonce h else out_nonce h.
Proof. reflexivity. Qed.

Lemma out_nonce_alter g b h : (forall x, oa_nonce (g x) = oa_nonce x) ->
  out_nonce (set_accounts (alter g b (accounts h)) h) = out_nonce h.
Proof.
  intros Hg. unfold out_nonce. cbn. destruct (decide (b = c)) as [->|Hn].
  - rewrite lookup_alter. destruct (accounts h !! c) as [x|]; [cbn; apply Hg|reflexivity].
  - rewrite lookup_alter_ne by exact Hn. reflexivity.
Qed.
Lemma c_alter g b h : (forall x, oa_nonce (g x) = oa_nonce x) ->
  nonce_now (set_accounts (alter g b (accounts h)) h) c = nonce_now h c.
Proof. intros Hg. rewrite !nonce_eq, out_nonce_alter by exact Hg. reflexivity. Qed.
Lemma out_GetOutputAccount b h h' r : GetOutputAccount b h = (h', r) -> out_nonce h' = out_nonce h /\ h_world h' = h_world h.
Proof.
  intros H. unfold GetOutputAccount in H. destruct (accounts h !! b) eqn:Hb; injection H as <- <-; split; try reflexivity.
  unfold out_nonce. cbn. destruct (decide (b = c)) as [->|Hn].
  - rewrite lookup_insert, Hb. reflexivity.
  - rewrite lookup_insert_ne by exact Hn. reflexivity.
Qed.
Lemma c_GetOutputAccount b : keeps fc (GetOutputAccount b).
Proof.
  intros h h' r H. apply out_GetOutputAccount in H as [H1 H2]. rewrite !nonce_eq, H1. unfold chain_nonce. rewrite H2. reflexivity.
Qed.
Hint Resolve c_GetOutputAccount : keeps.
Ltac kc := kp; try (apply c_alter; reflexivity).
Lemma c_deduct d : keeps fc (DeductInitialGasForIndirectDeployment d).
Proof. kc. Qed.
Lemma c_DeployCode d : keeps fc (DeployCode d).
Proof. kc. Qed.

(** the lookup of the nonce *)
Lemma GetNonce_now h h' r : GetNonce c h = (h', r) ->
  nonce_now h' c = nonce_now h c /\
  match r with OOk n => n = nonce_now h c | OErr _ => nonce_now h c = 0 | _ => False end.
Proof.
  unfold GetNonce. intros H. unfold bind at 1 in H.
  destruct (GetOutputAccount c h) as [h1 o] eqn:Hg. pose proof (out_GetOutputAccount _ _ _ _ Hg) as [K1 K2].
  unfold GetOutputAccount in Hg.
  assert (Hx : exists x b, o = OOk (x, b) /\ accounts h1 !! c = Some x /\ (b = true -> oa_nonce x = 0)).
  { destruct (accounts h !! c) as [x|] eqn:Hc; injection Hg as <- <-.
    - exists x, false. split; [reflexivity|]. split; [exact Hc|discriminate].
    - exists NewVMOutputAccount, true. split; [reflexivity|]. split; [apply lookup_insert|reflexivity]. }
  destruct Hx as (x & b & -> & Hc & Hb). clear Hg.
  assert (Ho : out_nonce h = oa_nonce x) by (rewrite <- K1; unfold out_nonce; rewrite Hc; reflexivity).
  assert (Hn1 : nonce_now h1 c = nonce_now h c) by (rewrite !nonce_eq, K1; unfold chain_nonce; rewrite K2; reflexivity).
  assert (Hbz : b || (oa_nonce x =? 0) = (oa_nonce x =? 0)) by (destruct b; [rewrite Hb; reflexivity|reflexivity]).
  rewrite V3, andb_true_r, Hbz in H. destruct (oa_nonce x =? 0) eqn:Hz; cbn [negb] in H.
  2:{ injection H as <- <-. split; [exact Hn1|]. rewrite nonce_eq, Ho, Hz. reflexivity. }
  rewrite bind_gets in H. unfold GetUserAccount in H. rewrite K2 in H.
  assert (Hnow : nonce_now h c = chain_nonce h) by (rewrite nonce_eq, Ho, Hz; reflexivity).
  unfold chain_nonce in Hnow. destruct (w_accounts (h_world h) !! c) as [u|] eqn:Hu.
  - unfold bind at 1, lift in H. unfold upd_account in H. rewrite bind_modify in H. injection H as <- <-.
    split; [|rewrite Hnow; reflexivity]. rewrite nonce_eq.
    replace (out_nonce _) with (ua_nonce u) by (unfold out_nonce; cbn; rewrite lookup_alter, Hc; reflexivity).
    unfold chain_nonce. cbn [h_world set_accounts set_h_out]. rewrite K2, Hu. cbn. rewrite Hnow. cbn. destruct (ua_nonce u =? 0); reflexivity.
  - destruct (e_missing_err E); injection H as <- <-; (split; [exact Hn1|]); rewrite Hnow; reflexivity.
Qed.
Lemma Increase_now h h' r : IncreaseNonce c h = (h', r) -> 0 <= nonce_now h c < max_u64 -> nonce_now h' c = nonce_now h c + 1.
Proof.
  unfold IncreaseNonce. intros H Hr. unfold bind at 1, try in H. destruct (GetNonce c h) as [h1 o] eqn:Hg.
  apply GetNonce_now in Hg as [K1 K2].
  assert (Hn : exists s : Z + err, (let nonce := match s with inl n => n | inr _ => 0 end in
    GetOutputAccount c ;;; upd_account c (set_oa_nonce (u64 (nonce + 1)))) h1 = (h', r) /\
    (match s with inl n => n | inr _ => 0 end) = nonce_now h c).
  { destruct o as [n|e| |]; [exists (inl n)|exists (inr e)|destruct K2..]; (split; [exact H|congruence]). }
  clear H. destruct Hn as (s & H & Hs). cbv zeta in H. rewrite Hs in H. unfold bind in H.
  destruct (GetOutputAccount c h1) as [h2 o2] eqn:Hg2. unfold GetOutputAccount in Hg2.
  assert (Hx : exists x b, o2 = OOk (x, b) /\ accounts h2 !! c = Some x).
  { destruct (accounts h1 !! c) as [x|] eqn:Hc; injection Hg2 as <- <-; eexists _, _; (split; [reflexivity|]); [exact Hc|apply lookup_insert]. }
  destruct Hx as (x & b & -> & Hc). unfold upd_account, modify in H. injection H as <- _.
  rewrite nonce_eq. replace (out_nonce _) with (u64 (nonce_now h c + 1)).
  - assert (Hu : u64 (nonce_now h c + 1) = nonce_now h c + 1).
    { unfold u64, u64_mod, max_u64 in *. apply Z.mod_small. lia. }
    rewrite Hu. destruct (_ =? 0) eqn:Hz; [lia|reflexivity].
  - unfold out_nonce. cbn. rewrite lookup_alter, Hc. reflexivity.
Qed.
Lemma NewAddress_now h h' r : e_isSC E c = true -> NewAddress c h = (h', r) ->
  nonce_now h' c = nonce_now h c /\ forall a, r = OOk a -> e_newAddress E c (nonce_now h c) = ROk a.
Proof.
  intros Hs H. unfold NewAddress in H. rewrite Hs, V3 in H. cbn [andb negb] in H. unfold bind in H.
  destruct (GetNonce c h) as [h1 o] eqn:Hg. apply GetNonce_now in Hg as [K1 K2].
  destruct o as [n|e| |]; try (injection H as <- <-; split; [exact K1|discriminate]).
  subst n. unfold lift in H. destruct (e_newAddress E c (nonce_now h c)) as [a|e|]; injection H as <- <-; (split; [exact K1|]); intros b Hb;
    try discriminate Hb. congruence.
Qed.

Lemma create_nonce ed i h h' a : vi_caller (cc_vm i) = c -> e_isSC E c = true -> CreateNewContract ed i h = (h', OOk a) ->
  e_newAddress E c (nonce_now h c) = ROk a /\
  exists h1 h2 o info, ed (mkCall (cc_vm i) a InitFunctionName true) h1 = (h2, OOk (o, info, None)) /\
    nonce_now h1 c = nonce_now h c /\ (0 <= nonce_now h2 c < max_u64 -> nonce_now h' c = nonce_now h2 c + 1).
Proof.
  intros Hc Hs H. unfold CreateNewContract in H. rewrite Hc in H. apply ok_bind in H as (h1 & [] & H1 & H). apply c_deduct in H1.
  rewrite bind_gets in H. apply ok_bind in H as (h2 & [] & H2 & H).
  assert (K2 : keeps fc (fail_if (r_ro (h_rt h1)) ErrInvalidCallOnReadOnlyMode)) by kp. apply K2 in H2. clear K2.
  apply ok_bind in H as (h3 & a3 & H3 & H). apply NewAddress_now in H3 as [H3 H3']; [|exact Hs]. specialize (H3' _ eq_refl).
  rewrite bind_gets in H. apply ok_bind in H as (h4 & [] & H4 & H).
  assert (K4 : keeps fc (fail_if (AccountExists h3 a3) ErrDeploymentOverExistingAccount)) by kp. apply K4 in H4. clear K4.
  apply ok_bind in H as (h5 & [] & H5 & H). apply c_DeployCode in H5.
  apply ok_bind in H as (h6 & [] & H6 & H). assert (K6 : keeps fc MustVerifyNextContractCode) by kp. apply K6 in H6. clear K6.
  apply ok_bind in H as (h7 & [[o info] e] & H7 & H). destruct e as [e|].
  { apply ok_bind in H as (? & [] & _ & H). discriminate H. }
  apply ok_bind in H as (h8 & [] & H8 & H). injection H as <- <-. cbn beta in *.
  split; [congruence|]. exists h6, h7, o, info. split; [exact H7|]. split; [congruence|]. intros Hr. exact (Increase_now _ _ _ H8 Hr).
Qed.
End nonce.
