(** Proofs about asynchronous calls. *)
From Verif Require EffProofs EffWalkProofs.
From Verif Require Import VmModel WpProofs MathProofs GasSpec GasProofs GasAsyncProofs CallDataProofs StoSpec StoProofs DeploySpec StartProofs AsyncSpec.
From Coq Require Import ZifyBool ZifyNat ZifyN.

(** * Call data *)
Lemma digit_iff b v : hex_value b = Some v <-> digit b v.
Proof.
  unfold hex_value, digit. pose proof (bz_range b). cbv zeta.
  destruct ((48 <=? bz b) && (bz b <=? 57)) eqn:H1; [|destruct ((97 <=? bz b) && (bz b <=? 102)) eqn:H2; [|destruct ((65 <=? bz b) && (bz b <=? 70)) eqn:H3]];
    (split; [intros [= <-] || intros [=]|intros Hd; f_equal]); lia.
Qed.
Lemma digit_range b v : digit b v -> 0 <= v < 16.
Proof. unfold digit. lia. Qed.
Lemma digit_no_at b v : digit b v -> b <> at_sign.
Proof. intros H ->. unfold digit in H. change (bz at_sign) with 64 in H. lia. Qed.
Lemma hex_of_iff : forall l a, hex_decode l = Some a <-> hex_of l a.
Proof.
  assert (Hw : forall n l a, (length l <= n)%nat -> hex_decode l = Some a <-> hex_of l a).
  { induction n as [|n IH]; intros l a Hn.
    - destruct l; [|cbn in Hn; lia]. cbn [hex_decode]. split; [intros [= <-]; constructor|inversion 1; reflexivity].
    - destruct l as [|b1 [|b2 l]]; cbn [hex_decode].
      + split; [intros [= <-]; constructor|inversion 1; reflexivity].
      + split; [discriminate|inversion 1].
      + split.
        * destruct (hex_value b1) as [x|] eqn:H1; [|discriminate]. destruct (hex_value b2) as [y|] eqn:H2; [|discriminate].
          destruct (hex_decode l) as [r|] eqn:H3; [|discriminate]. intros [= <-]. apply digit_iff in H1, H2.
          pose proof (digit_range _ _ H1). pose proof (digit_range _ _ H2).
          apply (hex_byte b1 b2 x y); [assumption..| |].
          { rewrite bz_zb. apply Z.mod_small. lia. }
          { apply IH; [cbn in Hn; lia|exact H3]. }
        * inversion 1 as [|? ? x y z ? l' D1 D2 Hz Hl]; subst. apply digit_iff in D1, D2. rewrite D1, D2.
          apply IH in Hl; [|cbn in Hn; lia]. rewrite Hl, <- Hz, zb_bz. reflexivity. }
  intros l a. apply (Hw (length l)). lia.
Qed.
Lemma hex_of_no_at l a : hex_of l a -> Forall (fun b => b <> at_sign) l.
Proof. induction 1; [constructor|]. constructor; [eapply digit_no_at; eassumption|]. constructor; [eapply digit_no_at; eassumption|assumption]. Qed.

Lemma split_join d : forall t ts, split_at d = t :: ts -> d = t ++ concat (map (cons at_sign) ts) /\ Forall (fun b => b <> at_sign) t.
Proof.
  induction d as [|b d IH]; intros t ts H; cbn [split_at] in H.
  - injection H as <- <-. split; [reflexivity|constructor].
  - case_bool_decide as Hb.
    + injection H as <- H. split; [|constructor].
      destruct (split_at d) as [|t1 ts1] eqn:Hs. { destruct d; cbn in Hs; [discriminate|]. case_bool_decide; [discriminate|]. destruct (split_at d); discriminate. }
      destruct (IH t1 ts1 eq_refl) as [-> Hf]. subst ts. cbn. rewrite Hb. reflexivity.
    + destruct (split_at d) as [|t1 ts1] eqn:Hs. { destruct d; cbn in Hs; [discriminate|]. case_bool_decide; [discriminate|]. destruct (split_at d); discriminate. }
      injection H as <- <-. destruct (IH t1 ts1 eq_refl) as [-> Hf]. split; [reflexivity|]. constructor; assumption.
Qed.
Lemma split_of t ts : Forall (fun b => b <> at_sign) t -> Forall (Forall (fun b => b <> at_sign)) ts ->
  split_at (t ++ concat (map (cons at_sign) ts)) = t :: ts.
Proof.
  intros Ht Hts. revert t Ht. induction Hts as [|u us Hu Hus IH]; intros t Ht.
  - cbn [map concat]. rewrite app_nil_r. apply split_at_end, Ht.
  - cbn [map concat app]. change (cons at_sign u ++ ?x) with (sepByte :: u ++ x). rewrite split_at_app by exact Ht. f_equal. apply IH, Hu.
Qed.
Lemma mapM_iff hs args : mapM hex_decode hs = Some args <-> Forall2 hex_of hs args.
Proof.
  revert args. induction hs as [|x hs IH]; intros args; cbn [mapM].
  - split; [intros [= <-]; constructor|inversion 1; reflexivity].
  - split.
    + destruct (hex_decode x) as [y|] eqn:Hx; cbn; [|discriminate]. destruct (mapM hex_decode hs) as [ys|] eqn:Hs; cbn; [|discriminate].
      intros [= <-]. constructor; [apply hex_of_iff, Hx|]. apply IH. reflexivity.
    + inversion 1 as [|? y ? ys H1 H2]; subst. apply hex_of_iff in H1. apply IH in H2. rewrite H1, H2. reflexivity.
Qed.
Lemma parse_iff d f args : ParseData d = ROk (f, args) <-> call_data d f args.
Proof.
  unfold ParseData, call_data. split.
  - destruct (split_at d) as [|t ts] eqn:Hs; [discriminate|]. destruct t as [|b t]; [discriminate|].
    destruct (mapM hex_decode ts) as [a|] eqn:Hm; [|discriminate]. intros [= <- <-].
    destruct (split_join _ _ _ Hs) as [-> Hf]. split; [discriminate|]. split; [exact Hf|]. exists ts. split; [apply mapM_iff, Hm|reflexivity].
  - intros (Hf & Hs & hs & H2 & ->). rewrite split_of; [|exact Hs|].
    + destruct f as [|b f]; [contradiction|]. apply mapM_iff in H2. rewrite H2. reflexivity.
    + clear - H2. induction H2 as [|x y l l' H H2 IH]; [constructor|]. constructor; [|exact IH]. eapply hex_of_no_at, H.
Qed.
Lemma args_answer args : answer_data (args_data args) args.
Proof.
  exists (map hex_encode args). split; [apply mapM_iff, mapM_hex|].
  induction args as [|a args IH]; [reflexivity|]. change (args_data (a :: args)) with (sepByte :: hex_encode a ++ args_data args). rewrite IH. reflexivity.
Qed.
Lemma parse_total d : (exists f args, ParseData d = ROk (f, args)) \/ ParseData d = RErr ErrParser.
Proof.
  unfold ParseData. destruct (split_at d) as [|[|b t] ts]; [right; reflexivity..|]. destruct (mapM hex_decode ts) as [a|]; [left; eexists _, _|right]; reflexivity.
Qed.

(** * Effects *)
Definition code_view (w : world) (a : bytes) (x : out_account) : bytes :=
  if bool_decide (oa_code x = []) then default [] (ua_code <$> w_accounts w !! a) else oa_code x.
Record arel (w : world) (a : bytes) (x y : out_account) (p : Z) (s : list out_transfer) : Prop := mkArel {
  ar_delta : oa_delta y = oa_delta x + p;
  ar_sent : oa_transfers y = oa_transfers x ++ s;
  ar_nonce : oa_nonce y = oa_nonce x;
  ar_meta : oa_meta y = oa_meta x;
  ar_deployer : oa_deployer y = oa_deployer x;
  ar_gasused : oa_gasused y = oa_gasused x;
  ar_cell : forall k, default (node_value w a k) (oa_storage y !! k) = default (node_value w a k) (oa_storage x !! k);
  ar_code : code_view w a y = code_view w a x
}.
Definition stp (h h' : host) (p : bytes -> Z) (s : bytes -> list out_transfer) : Prop :=
  (exists m t, h' = set_h_trace t (set_h_out (set_o_accounts m (h_out h)) h) /\ List.filter is_run t = List.filter is_run (h_trace h)) /\
  forall a, arel (h_world h) a (account_of h a) (account_of h' a) (p a) (s a).
Lemma arel_refl w a x : arel w a x x 0 [].
Proof. split; try reflexivity; [lia|rewrite app_nil_r; reflexivity]. Qed.
Lemma arel_trans w a x y z p1 p2 s1 s2 : arel w a x y p1 s1 -> arel w a y z p2 s2 -> arel w a x z (p1 + p2) (s1 ++ s2).
Proof.
  intros [] []. split; try congruence; [lia|rewrite app_assoc; congruence].
Qed.
Lemma stp_refl h : stp h h no_pay none_sent.
Proof. split; [|intros a; apply arel_refl]. exists (o_accounts (h_out h)), (h_trace h). split; [destruct h as [? ? []]; reflexivity|reflexivity]. Qed.
Lemma stp_trans h1 h2 h3 p1 p2 p3 s1 s2 s3 : stp h1 h2 p1 s1 -> stp h2 h3 p2 s2 ->
  (forall a, p3 a = p1 a + p2 a) -> (forall a, s3 a = s1 a ++ s2 a) -> stp h1 h3 p3 s3.
Proof.
  intros [(m1 & t1 & E1 & T1) A1] [(m2 & t2 & E2 & T2) A2] Hp Hs. split.
  - exists m2, t2. split; [rewrite E2, E1; reflexivity|]. rewrite T2, E1. exact T1.
  - intros a. rewrite Hp, Hs. eapply arel_trans; [apply A1|]. assert (Hw : h_world h2 = h_world h1) by (rewrite E1; reflexivity).
    rewrite <- Hw. apply A2.
Qed.
Lemma stp_quiet h1 h2 h3 p s : stp h1 h2 no_pay none_sent -> stp h2 h3 p s -> stp h1 h3 p s.
Proof. intros H1 H2. eapply stp_trans; [exact H1|exact H2|intros a; unfold no_pay; lia|intros a; reflexivity]. Qed.
Lemma stp_parts h h' p s : stp h h' p s -> h_world h' = h_world h /\ h_rt h' = h_rt h /\ h_insts h' = h_insts h /\
  h_cur h' = h_cur h /\ h_met h' = h_met h /\ result_kept h h' /\ h_stoaddr h' = h_stoaddr h /\ o_refund (h_out h') = o_refund (h_out h).
Proof. intros [(m & t & -> & _) _]. repeat split. Qed.
Lemma cell_of h a k : cell h a k = default (node_value (h_world h) a k) (oa_storage (account_of h a) !! k).
Proof. unfold cell, account_of. destruct (o_accounts (h_out h) !! a); [reflexivity|]. cbn. rewrite lookup_empty. reflexivity. Qed.
Lemma code_of h a : code_now h a = code_view (h_world h) a (account_of h a).
Proof. unfold code_now, code_view, account_of. destruct (o_accounts (h_out h) !! a); reflexivity. Qed.
Lemma stp_outcome h h' p s : stp h h' p s -> outcome_of h h' p s.
Proof.
  intros [(m & t & E1 & T) A].
  assert (Hw : h_world h' = h_world h) by (rewrite E1; reflexivity).
  split; try (intros a; apply A); try (rewrite E1; repeat split; reflexivity).
  - intros a k. rewrite !cell_of, Hw. apply A.
  - intros a. rewrite !code_of, Hw. apply A.
  - unfold nothing_ran. rewrite E1. exact T.
Qed.
(** primitive steps *)
Lemma acc_set m h a : account_of (set_accounts m h) a = default NewVMOutputAccount (m !! a).
Proof. reflexivity. Qed.
Lemma stp_accounts m h p s : (forall a, arel (h_world h) a (account_of h a) (default NewVMOutputAccount (m !! a)) (p a) (s a)) ->
  stp h (set_accounts m h) p s.
Proof. intros H. split; [|exact H]. exists m, (h_trace h). split; reflexivity. Qed.
Lemma stp_get a h h' x b : GetOutputAccount a h = (h', OOk (x, b)) ->
  stp h h' no_pay none_sent /\ account_of h' a = x /\ is_Some (o_accounts (h_out h') !! a) /\ x = account_of h a /\ (b = true -> x = NewVMOutputAccount).
Proof.
  unfold GetOutputAccount, accounts. intros H. destruct (o_accounts (h_out h) !! a) as [y|] eqn:Hy; injection H as <- <- <-.
  - unfold account_of. rewrite Hy. split; [apply stp_refl|]. split; [reflexivity|]. split; [eexists; reflexivity|]. split; [reflexivity|discriminate].
  - split.
    + apply stp_accounts. intros c. destruct (decide (c = a)) as [->|Hc].
      * unfold account_of. rewrite Hy, lookup_insert. apply arel_refl.
      * rewrite lookup_insert_ne by congruence. apply arel_refl.
    + unfold account_of. cbn. rewrite lookup_insert, Hy. split; [reflexivity|]. split; [eexists; reflexivity|]. split; reflexivity.
Qed.
Lemma stp_upd a f p s h : is_Some (o_accounts (h_out h) !! a) ->
  arel (h_world h) a (account_of h a) (f (account_of h a)) p s ->
  stp h (set_accounts (alter f a (accounts h)) h) (fun c => if bool_decide (c = a) then p else 0) (fun c => if bool_decide (c = a) then s else []).
Proof.
  intros [x Hx] H. apply stp_accounts. intros c. case_bool_decide as Hc.
  - subst c. unfold accounts. rewrite lookup_alter, Hx. unfold account_of in H |- *. rewrite Hx in H |- *. exact H.
  - unfold accounts. rewrite lookup_alter_ne by congruence. apply arel_refl.
Qed.
Lemma stp_upd_quiet a f h : is_Some (o_accounts (h_out h) !! a) ->
  arel (h_world h) a (account_of h a) (f (account_of h a)) 0 [] ->
  stp h (set_accounts (alter f a (accounts h)) h) no_pay none_sent.
Proof.
  intros Hx H. pose proof (stp_upd a f 0 [] h Hx H) as Hs. eapply stp_trans; [exact Hs|apply stp_refl| |]; intros c; cbv beta; case_bool_decide; reflexivity.
Qed.
Lemma arel_balance w a x b : arel w a x (set_oa_balance b x) 0 [].
Proof. split; try reflexivity; [cbn; lia|cbn; rewrite app_nil_r; reflexivity]. Qed.
Lemma stp_sufficient a v h : exists h' b, hasSufficientBalance a v h = (h', OOk b) /\ stp h h' no_pay none_sent.
Proof.
  unfold hasSufficientBalance, GetBalanceBigInt. destruct (GetOutputAccount a h) as [h1 o1] eqn:H1.
  assert (Ho : exists x b, o1 = OOk (x, b)).
  { unfold GetOutputAccount in H1. destruct (accounts h !! a); injection H1 as <- <-; eexists _, _; reflexivity. }
  destruct Ho as (x & b & ->). destruct (stp_get _ _ _ _ _ H1) as (S1 & A1 & I1 & _).
  rewrite !bind_assoc. rewrite (bind_ok _ _ _ _ _ H1). rewrite !bind_assoc, bind_gets.
  assert (Hu : forall u, stp h (set_accounts (alter (set_oa_balance (Some (ua_balance u))) a (accounts h1)) h1) no_pay none_sent).
  { intros u. eapply stp_quiet; [exact S1|]. apply stp_upd_quiet; [exact I1|apply arel_balance]. }
  destruct b; cbn [negb].
  - destruct (w_accounts (h_world h1) !! a) as [u|].
    + eexists _, _. split; [reflexivity|]. apply Hu.
    + eexists _, _. split; [reflexivity|]. exact S1.
  - destruct (oa_balance x).
    + eexists _, _. split; [reflexivity|]. exact S1.
    + destruct (w_accounts (h_world h1) !! a) as [u|]; (eexists _, _; split; [reflexivity|]); [apply Hu|exact S1].
Qed.

Section here.
Context {E : env}.
(** whether there is code *)
Lemma hasCode_run a h : exists h', hasCode a h = (h', OOk (negb (bool_decide (code_now h a = [])))) /\ stp h h' no_pay none_sent.
Proof.
  unfold hasCode, GetCode. destruct (GetOutputAccount a h) as [h1 o1] eqn:H1.
  assert (Ho : exists x b, o1 = OOk (x, b)).
  { unfold GetOutputAccount in H1. destruct (accounts h !! a); injection H1 as <- <-; eexists _, _; reflexivity. }
  destruct Ho as (x & b & ->). destruct (stp_get _ _ _ _ _ H1) as (S1 & A1 & I1 & X1 & N1).
  assert (Hb : forall l : bytes, (0 <? blen l) = negb (bool_decide (l = []))).
  { intros [|c l]; [reflexivity|]. rewrite bool_decide_false by discriminate. unfold blen. cbn [length negb]. lia. }
  assert (Hz : forall l : bytes, (blen l =? 0) = bool_decide (l = [])).
  { intros [|c l]; [reflexivity|]. rewrite bool_decide_false by discriminate. unfold blen. cbn [length]. lia. }
  rewrite code_of. unfold code_view. rewrite <- X1.
  assert (Hw : h_world h1 = h_world h) by apply (stp_parts _ _ _ _ S1).
  assert (Hneg : negb b && (0 <? blen (oa_code x)) = negb (bool_decide (oa_code x = []))).
  { rewrite Hb. destruct b; [|reflexivity]. rewrite (N1 eq_refl). reflexivity. }
  unfold bind at 1, try. unfold bind at 1. rewrite H1. cbn beta iota. rewrite Hneg.
  destruct (bool_decide_reflect (oa_code x = [])) as [Hx|Hx]; cbn [negb].
  - unfold bind at 1, gets. rewrite Hw. unfold GetUserAccount.
    destruct (w_accounts (h_world h) !! a) as [u|] eqn:Hu0; cbn [fmap option_fmap option_map from_option default]; unfold id.
    + unfold bind at 1, lift. rewrite Hz. destruct (bool_decide_reflect (ua_code u = [])) as [Hu|Hu]; cbn [negb].
      * eexists. split; [reflexivity|]. exact S1.
      * unfold upd_account, bind, modify, ret. cbv beta iota. rewrite Hb, (bool_decide_false (ua_code u = [])) by exact Hu.
        eexists. split; [reflexivity|].
        eapply stp_quiet; [exact S1|]. apply stp_upd_quiet; [exact I1|].
        split; try reflexivity; [cbn; lia|cbn; rewrite app_nil_r; reflexivity|].
        unfold code_view. cbn [oa_code set_oa_code]. rewrite A1, Hx, Hw, Hu0. rewrite bool_decide_false by exact Hu. reflexivity.
    + destruct (e_missing_err E); (eexists; split; [reflexivity|exact S1]).
  - eexists. unfold ret. cbv beta iota. rewrite Hb. rewrite bool_decide_false by exact Hx. split; [reflexivity|exact S1].
Qed.

(** * Sending *)
Lemma stp_trace t h p s h0 : stp h0 h p s -> List.filter is_run t = List.filter is_run (h_trace h) -> stp h0 (set_h_trace t h) p s.
Proof.
  intros [(m & t1 & -> & T) A] Ht. split.
  - exists m, t. split; [reflexivity|]. rewrite Ht. exact T.
  - exact A.
Qed.
Lemma stp_pay d s v cp h h' r : TransferValueOnly d s v cp h = (h', r) ->
  (r = OOk tt /\ stp h h' (pays s d v) none_sent) \/ (exists e, r = OErr e /\ stp h h' no_pay none_sent) \/ r = OPanic.
Proof.
  unfold TransferValueOnly. intros H. unfold fail_if at 1 in H. destruct (v <? 0).
  { injection H as <- <-. right. left. eexists. split; [reflexivity|apply stp_refl]. }
  rewrite bind_ret in H. destruct (stp_sufficient s v h) as (h1 & b & H1 & S1). rewrite (bind_ok _ _ _ _ _ H1) in H.
  unfold fail_if at 1 in H. destruct (negb b).
  { injection H as <- <-. right. left. eexists. split; [reflexivity|exact S1]. }
  rewrite bind_ret, bind_gets in H. unfold bind at 1, lift in H.
  destruct (e_isPayable E (h_world h1) d) as [pay|e|].
  2:{ injection H as <- <-. right. left. eexists. split; [reflexivity|exact S1]. }
  2:{ injection H as <- <-. right. right. reflexivity. }
  rewrite bind_gets in H. cbv zeta in H. unfold fail_if in H.
  destruct ((cp || negb (e_esdt E)) && negb pay && (0 <? v) && _) in H.
  { injection H as <- <-. right. left. eexists. split; [reflexivity|exact S1]. }
  rewrite bind_ret in H. left.
  destruct (GetOutputAccount s h1) as [h2 o2] eqn:H2.
  assert (Ho : forall a h, exists h1 x b, GetOutputAccount a h = (h1, OOk (x, b))).
  { intros a g. unfold GetOutputAccount. destruct (accounts g !! a); eexists _, _, _; reflexivity. }
  destruct (Ho s h1) as (g2 & x2 & b2 & G2). rewrite H2 in G2. injection G2 as -> ->. rewrite (bind_ok _ _ _ _ _ H2) in H.
  destruct (Ho d g2) as (h3 & x3 & b3 & H3). rewrite (bind_ok _ _ _ _ _ H3) in H.
  destruct (stp_get _ _ _ _ _ H2) as (S2 & _ & I2 & _). destruct (stp_get _ _ _ _ _ H3) as (S3 & _ & I3 & _).
  assert (I2' : is_Some (o_accounts (h_out h3) !! s)).
  { unfold GetOutputAccount, accounts in H3. destruct (o_accounts (h_out g2) !! d) eqn:Hd; injection H3 as <- <- <-; [exact I2|].
    cbn. destruct (decide (s = d)) as [->|Hn]; [rewrite lookup_insert; eexists; reflexivity|rewrite lookup_insert_ne by congruence; exact I2]. }
  unfold upd_account in H. rewrite !bind_modify in H. injection H as <- <-. split; [reflexivity|].
  pose proof (stp_quiet _ _ _ _ _ S1 (stp_quiet _ _ _ _ _ S2 S3)) as S0.
  match goal with |- stp _ (set_h_trace _ ?g) _ _ => apply stp_trace; [|reflexivity]; set (h5 := g) end.
  assert (Hd : forall a x z, arel (h_world h3) a x (set_oa_delta (oa_delta x + z) x) z []).
  { intros a x z. split; try reflexivity; cbn; rewrite app_nil_r; reflexivity. }
  eapply stp_quiet; [exact S0|]. unfold h5.
  eapply stp_trans; [eapply (stp_upd s (fun x => set_oa_delta (oa_delta x - v) x) (- v) []); [exact I2'|apply (Hd s (account_of h3 s) (- v))]| | |].
  - apply (stp_upd d (fun x => set_oa_delta (oa_delta x + v) x) v []).
    + cbn. unfold accounts. destruct (decide (d = s)) as [->|Hn].
      * rewrite lookup_alter. destruct I2' as [y ->]. eexists. reflexivity.
      * rewrite lookup_alter_ne by congruence. exact I3.
    + apply Hd.
  - intros a. unfold pays. cbv beta. repeat case_bool_decide; lia.
  - intros a. cbv beta. repeat case_bool_decide; reflexivity.
Qed.
Lemma stp_transfer d s g l v data ct h h' r : Transfer d s g l v data ct h = (h', r) ->
  (r = OOk tt /\ stp h h' (pays s d v) (sends d (mkTransfer v g l data ct s))) \/ (exists e, r = OErr e /\ stp h h' no_pay none_sent) \/ r = OPanic.
Proof.
  unfold Transfer. cbv zeta. intros H. destruct (TransferValueOnly d s v ((0 <? g) && negb (bool_decide (ct = AsynchronousCallBack))) h) as [h1 r1] eqn:H1.
  destruct (stp_pay _ _ _ _ _ _ _ H1) as [[-> S1]|[(e & -> & S1)| ->]].
  2:{ rewrite (bind_err _ _ _ _ _ H1) in H. injection H as <- <-. right. left. eexists. split; [reflexivity|exact S1]. }
  2:{ unfold bind at 1 in H. rewrite H1 in H. injection H as <- <-. right. right. reflexivity. }
  rewrite (bind_ok _ _ _ _ _ H1) in H.
  assert (Ho : exists h2 x b, GetOutputAccount d h1 = (h2, OOk (x, b))).
  { unfold GetOutputAccount. destruct (accounts h1 !! d); eexists _, _, _; reflexivity. }
  destruct Ho as (h2 & x2 & b2 & H2). rewrite (bind_ok _ _ _ _ _ H2) in H. destruct (stp_get _ _ _ _ _ H2) as (S2 & _ & I2 & _).
  unfold upd_account in H. injection H as <- <-. left. split; [reflexivity|].
  eapply stp_trans; [exact S1|eapply stp_quiet; [exact S2|]| |].
  - apply (stp_upd d (fun x => set_oa_transfers (oa_transfers x ++ [mkTransfer v g l data ct s]) x) 0 [mkTransfer v g l data ct s]); [exact I2|]. split; try reflexivity. cbn. lia.
  - intros a. cbv beta. generalize (pays s d v a). intros z. destruct (bool_decide (a = d)); lia.
  - intros a. unfold sends, none_sent. reflexivity.
Qed.
End here.

(** * Effects, composed *)
Lemma outcome_trans h1 h2 h3 p1 p2 p3 s1 s2 s3 : outcome_of h1 h2 p1 s1 -> outcome_of h2 h3 p2 s2 ->
  (forall a, p3 a = p1 a + p2 a) -> (forall a, s3 a = s1 a ++ s2 a) -> outcome_of h1 h3 p3 s3.
Proof.
  intros H1 H2 Hp Hs. split.
  - intros a. rewrite Hp, (oc_paid _ _ _ _ H2), (oc_paid _ _ _ _ H1). lia.
  - intros a. rewrite Hs, (oc_sent _ _ _ _ H2), (oc_sent _ _ _ _ H1), app_assoc. reflexivity.
  - intros a. rewrite (oc_nonce _ _ _ _ H2). apply H1.
  - intros a. rewrite (oc_meta _ _ _ _ H2). apply H1.
  - intros a. rewrite (oc_deployer _ _ _ _ H2). apply H1.
  - intros a. rewrite (oc_gasused _ _ _ _ H2). apply H1.
  - intros a k. rewrite (oc_cell _ _ _ _ H2). apply H1.
  - intros a. rewrite (oc_code _ _ _ _ H2). apply H1.
  - rewrite (oc_logs _ _ _ _ H2). apply H1.
  - rewrite (oc_world _ _ _ _ H2). apply H1.
  - rewrite (oc_frame _ _ _ _ H2). apply H1.
  - unfold nothing_ran. rewrite (oc_ran _ _ _ _ H2). apply H1.
  - destruct (oc_stacks _ _ _ _ H1) as (A1 & A2 & A3 & A4 & A5), (oc_stacks _ _ _ _ H2) as (B1 & B2 & B3 & B4 & B5). repeat split; congruence.
Qed.
Lemma outcome_quiet h1 h2 h3 p s : outcome_of h1 h2 no_pay none_sent -> outcome_of h2 h3 p s -> outcome_of h1 h3 p s.
Proof. intros H1 H2. eapply outcome_trans; [exact H1|exact H2|intros a; unfold no_pay; lia|intros a; reflexivity]. Qed.
Lemma outcome_then h1 h2 h3 p s : outcome_of h1 h2 p s -> outcome_of h2 h3 no_pay none_sent -> outcome_of h1 h3 p s.
Proof. intros H1 H2. eapply outcome_trans; [exact H1|exact H2|intros a; unfold no_pay; lia|intros a; unfold none_sent; rewrite app_nil_r; reflexivity]. Qed.
Lemma outcome_refl h : outcome_of h h no_pay none_sent.
Proof. apply stp_outcome, stp_refl. Qed.
Lemma outcome_inst i x h : outcome_of h (with_inst i x h) no_pay none_sent.
Proof.
  assert (Ha : forall a, account_of (with_inst i x h) a = account_of h a) by reflexivity.
  split; try reflexivity; try (intros a; rewrite Ha).
  - unfold no_pay. lia.
  - unfold none_sent. rewrite app_nil_r. reflexivity.
  - repeat split.
Qed.

(** * Routing *)
Section route.
Context {E : env}.
Lemma shard_iff h c : AreInSameShard (r_addr (h_rt h)) (ac_dest c) = true <-> same_shard h c.
Proof. unfold AreInSameShard, same_shard. apply Z.eqb_eq. Qed.
Lemma esdt_iff f (args : list bytes) : isESDTTransferCall f args = true <->
  (f = str "ESDTTransfer" /\ length args = 2%nat \/ f = str "ESDTNFTTransfer" /\ length args = 4%nat).
Proof.
  unfold isESDTTransferCall, beq. rewrite orb_true_iff, !andb_true_iff, !bool_decide_eq_true, !Nat.eqb_eq. reflexivity.
Qed.
Lemma answer_iff h c f args :
  isESDTTransferCall f args && bool_decide (vi_ctype (r_input (h_rt h)) = AsynchronousCall) && beq (vi_caller (r_input (h_rt h))) (ac_dest c) = true <->
  token_answer h c f args.
Proof. unfold token_answer, beq. rewrite !andb_true_iff, esdt_iff, !bool_decide_eq_true. tauto. Qed.

Lemma determine_run c f args h : asks c f args ->
  exists h1 mode, determineAsyncCallExecutionMode c h = (h1, OOk mode) /\ stp h h1 no_pay none_sent /\
    match mode with
    | SyncCall | AsyncBuiltinFuncIntraShard => runs_here h c f args
    | AsyncBuiltinFuncCrossShard => e_isBuiltin E f = true /\ ~ same_shard h c
    | ESDTTransferOnCallBack => e_isBuiltin E f = true /\ same_shard h c /\ token_answer h c f args
    | AsyncUnknown => e_isBuiltin E f = false /\ code_now h (ac_dest c) = []
    end.
Proof.
  intros Ha. apply parse_iff in Ha. unfold determineAsyncCallExecutionMode, bind at 1, lift. rewrite Ha. rewrite bind_gets. cbv zeta.
  destruct (e_isBuiltin E f) eqn:Hb.
  - pose proof (shard_iff h c) as Hsh. destruct (AreInSameShard (r_addr (h_rt h)) (ac_dest c)).
    + pose proof (answer_iff h c f args) as Hans. destruct (isESDTTransferCall f args && _ && _).
      * eexists _, ESDTTransferOnCallBack. split; [reflexivity|]. split; [apply stp_refl|]. split; [reflexivity|]. split; [apply Hsh; reflexivity|apply Hans; reflexivity].
      * eexists _, AsyncBuiltinFuncIntraShard. split; [reflexivity|]. split; [apply stp_refl|]. right. split; [exact Hb|]. split; [apply Hsh; reflexivity|].
        intros Ht. apply Hans in Ht. discriminate Ht.
    + eexists _, AsyncBuiltinFuncCrossShard. split; [reflexivity|]. split; [apply stp_refl|]. split; [reflexivity|]. intros Ht. apply Hsh in Ht. discriminate Ht.
  - destruct (hasCode_run (ac_dest c) h) as (h1 & H1 & S1). rewrite (bind_ok _ _ _ _ _ H1).
    destruct (bool_decide_reflect (code_now h (ac_dest c) = [])) as [Hc|Hc]; cbn [negb].
    + eexists _, AsyncUnknown. split; [reflexivity|]. split; [exact S1|]. split; [reflexivity|exact Hc].
    + eexists _, SyncCall. split; [reflexivity|]. split; [exact S1|]. left. split; [exact Hb|exact Hc].
Qed.
Lemma determine_bad c h : (forall f args, ~ asks c f args) -> determineAsyncCallExecutionMode c h = (h, OErr ErrParser).
Proof.
  intros Hn. unfold determineAsyncCallExecutionMode, bind at 1, lift. destruct (parse_total (ac_data c)) as [(f & args & Hp)|Hp].
  - apply parse_iff in Hp. destruct (Hn _ _ Hp).
  - rewrite Hp. reflexivity.
Qed.

Variables (rd : edf) (h : host) (c : async_call).
Hypothesis Hc : r_async (h_rt h) = Some c.
Lemma asked_once c' f args f' args' : asks c' f args -> asks c' f' args' -> f' = f /\ args' = args.
Proof. intros H1 H2. apply parse_iff in H1, H2. rewrite H1 in H2. injection H2 as <- <-. split; reflexivity. Qed.

(** the state after the breakpoint was reset *)
Lemma handle_mode i x f args : running_as h i x -> asks c f args ->
  let h0 := with_inst i (set_in_bp BreakpointNone x) h in
  exists h1 mode, stp h0 h1 no_pay none_sent /\ determineAsyncCallExecutionMode c h0 = (h1, OOk mode) /\
    match mode with
    | SyncCall | AsyncBuiltinFuncIntraShard => runs_here h c f args
    | AsyncBuiltinFuncCrossShard => e_isBuiltin E f = true /\ ~ same_shard h c
    | ESDTTransferOnCallBack => e_isBuiltin E f = true /\ same_shard h c /\ token_answer h c f args
    | AsyncUnknown => e_isBuiltin E f = false /\ code_now h (ac_dest c) = []
    end /\
    handleAsyncCallBreakpoint rd h = match mode with
      | AsyncUnknown => sendAsyncCallToDestination c h1
      | AsyncBuiltinFuncCrossShard =>
          bind (executeSyncDestinationCall rd c) (fun '(_, e) => match e with Some e => fail e | None => ret tt end) h1
      | ESDTTransferOnCallBack => bind (PrependFinish (ac_data c)) (fun _ => RestoreGas (ac_locked c)) h1
      | SyncCall | AsyncBuiltinFuncIntraShard =>
          bind (executeSyncDestinationCall rd c) (fun '(o, e) => bind (executeSyncCallbackCall rd c o e) (fun '(o', e') => processCallbackVMOutput o' e')) h1
      end.
Proof.
  intros Hx Ha h0. destruct (determine_run c f args h0 Ha) as (h1 & mode & Hd & S1 & Hm). exists h1, mode. split; [exact S1|]. split; [exact Hd|]. split; [exact Hm|].
  unfold handleAsyncCallBreakpoint. rewrite (bind_ok _ _ _ _ _ (SetBreak_run _ _ _ _ Hx)). rewrite bind_gets.
  change (r_async (h_rt (with_inst i (set_in_bp BreakpointNone x) h))) with (r_async (h_rt h)). rewrite Hc.
  rewrite (bind_ok _ _ _ _ _ Hd). destruct mode; reflexivity.
Qed.

Lemma stp_gas h1 h2 p s : stp h1 h2 p s -> spent h2 = spent h1 /\ budget h2 = budget h1.
Proof. intros H. destruct (stp_parts _ _ _ _ H) as (_ & _ & Hi & Hk & Hm & _). unfold spent, budget. rewrite Hi, Hk, Hm. split; reflexivity. Qed.
Lemma stp_running h1 h2 p s i x : stp h1 h2 p s -> running_as h1 i x -> running_as h2 i x.
Proof. intros H [R1 R2]. destruct (stp_parts _ _ _ _ H) as (_ & _ & Hi & Hk & _). split; congruence. Qed.
Lemma bp_gas i x v : running_as h i x -> spent (with_inst i (set_in_bp v x) h) = spent h.
Proof. intros Hx. rewrite (spent_run _ i (set_in_bp v x)); [|eapply running_with_inst, Hx]. rewrite (spent_run _ _ _ Hx). reflexivity. Qed.

(** rejected *)
Lemma handle_bad : in_frame h -> (forall f args, ~ asks c f args) -> forall h' r, handleAsyncCallBreakpoint rd h = (h', r) ->
  r = OErr ErrParser /\ outcome_of h h' no_pay none_sent /\ result_kept h h' /\ spent h' = spent h /\ budget h' = budget h.
Proof.
  intros (i & x & Hx) Hn h' r H. unfold handleAsyncCallBreakpoint in H. rewrite (bind_ok _ _ _ _ _ (SetBreak_run _ _ _ _ Hx)), bind_gets in H.
  change (r_async (h_rt (with_inst i (set_in_bp BreakpointNone x) h))) with (r_async (h_rt h)) in H. rewrite Hc in H.
  rewrite (bind_err _ _ _ _ _ (determine_bad c _ Hn)) in H. injection H as <- <-. split; [reflexivity|]. split; [apply outcome_inst|]. split; [repeat split|].
  split; [apply bp_gas, Hx|reflexivity].
Qed.

(** using up the gas *)
Lemma use_all g : metered g -> exists g', (left <- GasLeft ;; UseGas left) g = (g', OOk tt) /\ left_of g' = 0 /\ in_frame g' /\
  (exists i x p, running_as g i x /\ g' = with_inst i (set_in_points p x) g).
Proof.
  intros ((i & x & Hx) & Hk & Hb & Hs). unfold GasLeft. rewrite bind_gets, left_gas. rewrite (UseGas_run _ _ _ _ Hx).
  pose proof (spent_run g i x Hx) as Hp. rewrite Hp in Hs. pose proof (Hk i x (proj2 Hx)).
  rewrite more_points_add; [|lia|unfold left_of; lia|unfold left_of; rewrite Hp; unfold max_i64 in *; lia].
  eexists. split; [reflexivity|]. split.
  - unfold left_of. rewrite inst_spent by exact Hx. rewrite inst_budget, Hp. lia.
  - split; [|do 3 eexists; split; [exact Hx|reflexivity]]. exists i. eexists. eapply running_with_inst, Hx.
Qed.

(** sent *)
Lemma metered_stp h1 h2 p s : stp h1 h2 p s -> metered h1 -> metered h2.
Proof.
  intros H ((i & x & Hx) & Hk & Hb & Hs). destruct (stp_gas _ _ _ _ H) as [G1 G2]. destruct (stp_parts _ _ _ _ H) as (_ & _ & Hi & _).
  split; [exists i, x; eapply stp_running; eassumption|]. split; [intros j y Hj; apply (Hk j y); congruence|]. rewrite G1, G2. split; assumption.
Qed.
Lemma metered_bp i x v : running_as h i x -> metered h -> metered (with_inst i (set_in_bp v x) h).
Proof.
  intros Hx (Hf & Hk & Hb & Hs). split; [exists i; eexists; eapply running_with_inst, Hx|]. split.
  - intros j y Hj. cbn in Hj. destruct (decide (j = i)) as [->|Hn].
    + rewrite lookup_insert in Hj. injection Hj as <-. apply (Hk i x), Hx.
    + rewrite lookup_insert_ne in Hj by congruence. apply (Hk j y Hj).
  - rewrite bp_gas by exact Hx. split; assumption.
Qed.
Lemma outcome_out o g : o_accounts o = o_accounts (h_out g) -> o_logs o = o_logs (h_out g) -> outcome_of g (set_h_out o g) no_pay none_sent.
Proof.
  intros H1 H2. assert (Ha : forall a, account_of (set_h_out o g) a = account_of g a) by (intros a; unfold account_of; cbn; rewrite H1; reflexivity).
  split; try (intros a; rewrite Ha); try reflexivity; try (repeat split; fail).
  - unfold no_pay. lia.
  - unfold none_sent. rewrite app_nil_r. reflexivity.
  - intros a k. rewrite !cell_of, Ha. reflexivity.
  - intros. rewrite !code_of, ?Ha. reflexivity.
  - exact H2.
Qed.
Lemma fail_run g1 e : metered g1 -> exists g', (left <- GasLeft ;; UseGas left ;;; FailExecution e ;;; fail (A := unit) e) g1 = (g', OErr e) /\
  left_of g' = 0 /\ outcome_of g1 g' no_pay none_sent.
Proof.
  intros Hm. destruct (use_all g1 Hm) as (g2 & Hu & L2 & (i2 & x2 & R2) & (i & x & p & Hx & E2)).
  assert (Hu' : forall (k : M unit), (left <- GasLeft ;; UseGas left ;;; k) g1 = k g2).
  { intros k. unfold GasLeft. rewrite bind_gets. unfold GasLeft in Hu. rewrite bind_gets in Hu. exact (bind_ok _ _ _ _ _ Hu). }
  rewrite Hu'.
  set (g3 := set_h_out (set_o_code RcExecutionFailed (h_out g2)) g2) in *.
  set (g4 := set_h_out (set_o_msg (e_errmsg E e) (h_out g3)) g3) in *.
  assert (R4 : running_as g4 i2 x2) by exact R2.
  assert (Hfail : FailExecution e g2 = (with_inst i2 (set_in_bp BreakpointExecutionFailed x2) g4, OOk tt)).
  { unfold FailExecution, SetReturnCode, SetReturnMessage. rewrite bind_modify. change (set_h_out (set_o_code RcExecutionFailed (h_out g2)) g2) with g3.
    rewrite bind_modify. change (set_h_out (set_o_msg (e_errmsg E e) (h_out g3)) g3) with g4. apply (SetBreak_run _ _ _ _ R4). }
  rewrite (bind_ok _ _ _ _ _ Hfail). eexists. split; [reflexivity|]. split.
  - unfold left_of in L2 |- *. rewrite (spent_run _ i2 (set_in_bp BreakpointExecutionFailed x2)); [|eapply running_with_inst, R4].
    rewrite inst_budget. change (budget g4) with (budget g2). rewrite (spent_run _ _ _ R2) in L2. exact L2.
  - eapply outcome_quiet; [rewrite E2; apply outcome_inst|]. rewrite <- E2. eapply outcome_quiet; [|apply outcome_inst].
    eapply outcome_quiet; [apply (outcome_out (set_o_code RcExecutionFailed (h_out g2))); reflexivity|]. apply (outcome_out (set_o_msg (e_errmsg E e) (h_out g3)) g3); reflexivity.
Qed.
Definition send_then (d s : bytes) (gl lk v : Z) (data : bytes) (ct : call_type) : M unit :=
  r <- try (Transfer d s gl lk v data ct) ;;
  g <- GasLeft ;;
  UseGas g ;;;
  match r with
  | inr e => FailExecution e ;;; fail e
  | inl _ => ret tt
  end.
Lemma send_any d s gl lk v data ct g g' r : metered g -> send_then d s gl lk v data ct g = (g', r) -> r <> OPanic ->
  left_of g' = 0 /\
  ((r = OOk tt /\ result_kept g g' /\ outcome_of g g' (pays s d v) (sends d (mkTransfer v gl lk data ct s))) \/
   (exists e, r = OErr e /\ outcome_of g g' no_pay none_sent)).
Proof.
  intros Hm H Hr. unfold send_then in H.
  destruct (Transfer d s gl lk v data ct g) as [g1 r1] eqn:Ht.
  assert (Hall : forall q, r1 = OOk tt /\ q = inl tt \/ (exists e, r1 = OErr e /\ q = inr e) ->
    try (Transfer d s gl lk v data ct) g = (g1, OOk q)).
  { intros q [[H1 ->]|(e & H1 & ->)]; unfold try; rewrite Ht, H1; reflexivity. }
  destruct (stp_transfer _ _ _ _ _ _ _ _ _ _ Ht) as [[Ho S1]|[(e & Ho & S1)|Ho]].
  3:{ unfold bind at 1, try in H. rewrite Ht, Ho in H. injection H as <- <-. contradiction. }
  - rewrite (bind_ok _ _ _ _ _ (Hall (inl tt) (or_introl (conj Ho eq_refl)))) in H. clear Hall Ht Ho.
    destruct (use_all g1 (metered_stp _ _ _ _ S1 Hm)) as (g2 & Hu & L2 & F2 & (i & x & p & Hx & E2)).
    assert (Hu' : forall (k : M unit), (left <- GasLeft ;; UseGas left ;;; k) g1 = k g2).
    { intros k. unfold GasLeft. rewrite bind_gets. unfold GasLeft in Hu. rewrite bind_gets in Hu. exact (bind_ok _ _ _ _ _ Hu). }
    rewrite Hu' in H. injection H as <- <-. split; [exact L2|]. left. split; [reflexivity|].
    destruct (stp_parts _ _ _ _ S1) as (_ & _ & _ & _ & _ & Hk & _). split; [subst g2; exact Hk|].
    eapply outcome_then; [apply stp_outcome, S1|]. rewrite E2. apply outcome_inst.
  - rewrite (bind_ok _ _ _ _ _ (Hall (inr e) (or_intror (ex_intro _ e (conj Ho eq_refl))))) in H. clear Hall Ht Ho.
    destruct (fail_run g1 e (metered_stp _ _ _ _ S1 Hm)) as (g2 & F2 & L2 & O2). rewrite F2 in H. injection H as <- <-. split; [exact L2|].
    right. exists e. split; [reflexivity|]. eapply outcome_quiet; [apply stp_outcome, S1|exact O2].
Qed.
Lemma send_run g g' r : metered g -> sendAsyncCallToDestination c g = (g', r) -> r <> OPanic ->
  left_of g' = 0 /\
  ((r = OOk tt /\ result_kept g g' /\
    outcome_of g g' (pays (r_addr (h_rt g)) (ac_dest c) (be_decode (ac_value c)))
      (sends (ac_dest c) (mkTransfer (be_decode (ac_value c)) (ac_limit c) (ac_locked c) (ac_data c) AsynchronousCall (r_addr (h_rt g))))) \/
   (exists e, r = OErr e /\ outcome_of g g' no_pay none_sent)).
Proof.
  intros Hm H. unfold sendAsyncCallToDestination in H. rewrite bind_gets in H. exact (send_any _ _ _ _ _ _ _ _ _ _ Hm H).
Qed.
Lemma back_run g g' r : metered g -> sendCallbackToCurrentCaller g = (g', r) -> r <> OPanic ->
  let v := r_input (h_rt g) in
  left_of g' = 0 /\
  ((r = OOk tt /\ result_kept g g' /\ exists data, answer_data data (e_codestr E (o_code (h_out g)) :: o_retdata (h_out g)) /\
    outcome_of g g' (pays (r_addr (h_rt g)) (vi_caller v) (vi_value v))
      (sends (vi_caller v) (mkTransfer (vi_value v) (left_of g) 0 data AsynchronousCallBack (r_addr (h_rt g))))) \/
   (exists e, r = OErr e /\ outcome_of g g' no_pay none_sent)).
Proof.
  intros Hm H Hr v. unfold sendCallbackToCurrentCaller in H. rewrite !bind_gets in H. cbv zeta in H. unfold GasLeft at 1 in H. rewrite bind_gets, left_gas in H.
  destruct (send_any _ _ _ _ _ _ _ _ _ _ Hm H Hr) as [L [(H1 & H2 & H3)|Hs]]; (split; [exact L|]); [left|right; exact Hs].
  split; [exact H1|]. split; [exact H2|]. eexists. split; [|exact H3]. apply args_answer.
Qed.
Lemma handle_sent f args : metered h -> asks c f args -> e_isBuiltin E f = false -> code_now h (ac_dest c) = [] ->
  forall h' r, handleAsyncCallBreakpoint rd h = (h', r) -> r <> OPanic ->
  left_of h' = 0 /\
  ((r = OOk tt /\ result_kept h h' /\
    outcome_of h h' (pays (r_addr (h_rt h)) (ac_dest c) (be_decode (ac_value c)))
      (sends (ac_dest c) (mkTransfer (be_decode (ac_value c)) (ac_limit c) (ac_locked c) (ac_data c) AsynchronousCall (r_addr (h_rt h))))) \/
   (exists e, r = OErr e /\ outcome_of h h' no_pay none_sent)).
Proof.
  intros Hm Ha Hb Hcode h' r H Hr. destruct Hm as [(i & x & Hx) Hm0]. assert (Hm : metered h) by (split; [exists i, x; exact Hx|exact Hm0]).
  destruct (handle_mode i x f args Hx Ha) as (h1 & mode & S1 & _ & Hmode & Hh).
  set (h0 := with_inst i (set_in_bp BreakpointNone x) h) in *.
  assert (mode = AsyncUnknown) as ->.
  { destruct mode; try reflexivity; try (destruct Hmode as [Hmode _]; congruence); destruct Hmode as [[_ Hmode]|[Hmode _]]; congruence. }
  rewrite Hh in H. assert (M1 : metered h1) by (eapply metered_stp; [exact S1|]; apply metered_bp; assumption).
  destruct (send_run h1 h' r M1 H Hr) as [L Hs]. split; [exact L|].
  destruct (stp_parts _ _ _ _ S1) as (_ & Hrt & _ & _ & _ & Hk & _). rewrite Hrt in Hs. change (h_rt h0) with (h_rt h) in Hs.
  assert (O1 : outcome_of h h1 no_pay none_sent) by (eapply outcome_quiet; [apply outcome_inst|apply stp_outcome, S1]).
  destruct Hs as [(H1 & H2 & H3)|(e & H1 & H2)].
  - left. split; [exact H1|]. split.
    + destruct Hk as (K1 & K2 & K3), H2 as (L1 & L2 & L3). unfold h0 in *. repeat split; etransitivity; eassumption || (etransitivity; [eassumption|]; assumption).
    + eapply outcome_quiet; eassumption.
  - right. exists e. split; [exact H1|]. eapply outcome_quiet; eassumption.
Qed.
End route.

(** * The callback *)
Section callback.
Context {E : env}.
Lemma length_exact name args : data_length name args < 2 ^ 63 -> computeDataLengthFromArguments name args = data_length name args.
Proof.
  intros H. unfold computeDataLengthFromArguments, data_length in *.
  assert (Hn : 0 <= blen name) by apply blen_nonneg.
  assert (Hpos : forall l, 0 <= fold_right (fun (a : bytes) n => 1 + blen a + n) 0 l).
  { induction l as [|a l IH]; cbn [fold_right]; [lia|]. pose proof (blen_nonneg a). lia. }
  assert (Hlen : forall l : list bytes, Z.of_nat (length l) <= fold_right (fun (a : bytes) n => 1 + blen a + n) 0 l).
  { induction l as [|a l IH]; cbn [fold_right length]; [lia|]. pose proof (blen_nonneg a). lia. }
  assert (Hf : forall (l : list bytes) z, 0 <= z -> z + fold_right (fun (a : bytes) n => 1 + blen a + n) 0 l - Z.of_nat (length l) < 2 ^ 63 ->
    fold_left (fun n a => AddUint64 n (blen a)) l z = z + fold_right (fun (a : bytes) n => 1 + blen a + n) 0 l - Z.of_nat (length l)).
  { induction l as [|a l IH]; intros z Hz Hb; cbn [fold_left fold_right length] in *; [lia|].
    pose proof (blen_nonneg a). pose proof (Hlen l). rewrite add_u64_sat; [|unfold in_u64, max_u64; lia..].
    unfold max_u64. rewrite Z.min_l by lia. rewrite IH; lia. }
  pose proof (Hlen args). pose proof (Hpos args).
  rewrite add_u64_sat; [|unfold in_u64, max_u64; lia..]. unfold max_u64. rewrite Z.min_l by lia. rewrite Hf by lia.
  rewrite i64_id by (unfold in_i64, min_i64, max_i64; lia). lia.
Qed.
Lemma tokens_iff o e f args : call_failed o e = false -> isESDTTransferOnReturnData o = Some (f, args) <-> returns_tokens o e f args.
Proof.
  intros Hok. unfold isESDTTransferOnReturnData, returns_tokens. destruct (o_retdata o) as [|d ds].
  - split; [discriminate|]. intros (_ & d & ds & H & _). discriminate H.
  - split.
    + destruct (ParseData d) as [[f1 a1]|?|] eqn:Hp; [|discriminate..]. pose proof (esdt_iff f1 a1) as He. destruct (isESDTTransferCall f1 a1); [|discriminate].
      intros [= <- <-]. split; [exact Hok|]. exists d, ds. split; [reflexivity|]. split; [apply parse_iff, Hp|]. apply He. reflexivity.
    + intros (_ & d1 & ds1 & [= <- <-] & Hd & He). apply parse_iff in Hd. rewrite Hd. apply esdt_iff in He. rewrite He. reflexivity.
Qed.
Lemma value_exact a o : computeCallValueFromLastOutputTransfer a o = returned_value a o.
Proof.
  unfold computeCallValueFromLastOutputTransfer, returned_value. destruct (e_v3 E); cbn [negb orb]; [|reflexivity].
  destruct (o_retdata o) as [|d ds]; [|rewrite bool_decide_false by discriminate; reflexivity]. rewrite bool_decide_true by reflexivity. cbn [negb].
  destruct (o_accounts o !! a) as [x|]; [|reflexivity]. cbn. unfold id. destruct (last (oa_transfers x)) as [t|]; [|reflexivity].
  destruct (ot_data t) as [|b l]; [reflexivity|]. rewrite bool_decide_false by discriminate. unfold blen. cbn [length]. destruct (_ =? 0) eqn:H; [lia|reflexivity].
Qed.
(** the price, in the code's arithmetic *)
Lemma price_compare name o e g : env_ok E -> sendable name o e -> g <= max_u64 ->
  let dataLength := computeDataLengthFromArguments name (callback_args o e) in
  let gasToUse := AddUint64 (e_cost E CAsyncCallStep) (MulUint64 (e_cost E DataCopyPerByte) (u64 dataLength)) in
  (g <=? gasToUse) = (g <=? callback_price name o e) /\ ((g <=? gasToUse) = false -> gasToUse = callback_price name o e).
Proof.
  intros HE Hs Hg. cbv zeta. unfold sendable in Hs. rewrite length_exact by exact Hs. unfold callback_price. set (n := data_length name (callback_args o e)) in *.
  assert (Hn : 0 <= n).
  { unfold n, data_length. pose proof (blen_nonneg name). clear. assert (0 <= fold_right (fun (a : bytes) n => 1 + blen a + n) 0 (callback_args o e)); [|pose proof (blen_nonneg name); lia].
    induction (callback_args o e) as [|a l IH]; cbn [fold_right]; [lia|]. pose proof (blen_nonneg a). lia. }
  rewrite u64_id by (unfold in_u64, max_u64; lia). pose proof (proj1 HE CAsyncCallStep) as H1. pose proof (proj1 HE DataCopyPerByte) as H2.
  rewrite mul_u64_sat; [|exact H2|unfold in_u64, max_u64; lia].
  assert (Hm : 0 <= e_cost E DataCopyPerByte * n) by (unfold in_u64 in H2; nia).
  generalize dependent (e_cost E DataCopyPerByte * n). intros m Hm. rewrite add_u64_sat; [|exact H1|unfold in_u64, max_u64 in *; lia].
  unfold in_u64, max_u64 in *. destruct (_ <=? _) eqn:Ha, (g <=? e_cost E CAsyncCallStep + m) eqn:Hb; split; try reflexivity; try lia; try discriminate.
Qed.
Lemma callback_run c o a name e h : env_ok E -> sendable name o e -> 0 <= o_gasrem o -> 0 <= ac_locked c -> o_gasrem o + ac_locked c < 2 ^ 64 ->
  (forall f args, ~ returns_tokens o e f args) ->
  createCallbackContractCallInput c o a name e h =
  (h, if o_gasrem o + ac_locked c <=? callback_price name o e then OErr ErrNotEnoughGas else OOk (callback_call h a name (ac_locked c) o e)).
Proof.
  intros HE Hs H1 H2 H3 Hn. unfold createCallbackContractCallInput. rewrite bind_gets. cbv zeta.
  assert (Hok : bool_decide (e = None) && bool_decide (o_code o = RcOk) = negb (call_failed o e)) by (unfold call_failed; rewrite negb_involutive; reflexivity).
  rewrite Hok. rewrite u64_id by (unfold in_u64, max_u64; lia).
  assert (Hes : (if negb (call_failed o e) then isESDTTransferOnReturnData o else None) = None).
  { destruct (call_failed o e) eqn:Hf; [reflexivity|]. cbn [negb]. destruct (isESDTTransferOnReturnData o) as [[f args]|] eqn:Ht; [|reflexivity].
    apply (tokens_iff o e f args Hf) in Ht. destruct (Hn _ _ Ht). }
  rewrite Hes.
  assert (Ha : (if negb (call_failed o e) then be_encode (rc_num (o_code o)) :: o_retdata o else [be_encode (rc_num (o_code o)); o_msg o]) = callback_args o e).
  { unfold callback_args. destruct (call_failed o e); reflexivity. }
  rewrite Ha. destruct (price_compare name o e (o_gasrem o + ac_locked c) HE Hs) as [P1 P2]; [unfold max_u64; lia|]. cbv zeta in P1, P2.
  unfold fail_if. rewrite P1 in *. destruct (_ <=? callback_price name o e); [reflexivity|]. rewrite bind_ret. rewrite (P2 eq_refl).
  unfold ret, callback_call. cbv zeta. rewrite value_exact, negb_involutive. reflexivity.
Qed.
(** ... when tokens are returned: their transfer is called, with the callback *)
Lemma callback_tokens c o a name e f args h : env_ok E -> sendable name o e -> 0 <= o_gasrem o -> 0 <= ac_locked c -> o_gasrem o + ac_locked c < 2 ^ 64 ->
  returns_tokens o e f args ->
  createCallbackContractCallInput c o a name e h =
  (h, if o_gasrem o + ac_locked c <=? callback_price name o e then OErr ErrNotEnoughGas else OOk (tokens_call h a name (ac_locked c) o e f args)).
Proof.
  intros HE Hs H1 H2 H3 Hn. unfold createCallbackContractCallInput. rewrite bind_gets. cbv zeta.
  assert (Hf : call_failed o e = false) by apply Hn.
  assert (Hok : bool_decide (e = None) && bool_decide (o_code o = RcOk) = true).
  { unfold call_failed in Hf. apply negb_false_iff in Hf. exact Hf. }
  rewrite Hok. rewrite u64_id by (unfold in_u64, max_u64; lia).
  rewrite (proj2 (tokens_iff o e f args Hf) Hn).
  assert (Ha : be_encode (rc_num (o_code o)) :: o_retdata o = callback_args o e).
  { unfold callback_args. rewrite Hf. reflexivity. }
  rewrite Ha. destruct (price_compare name o e (o_gasrem o + ac_locked c) HE Hs) as [P1 P2]; [unfold max_u64; lia|]. cbv zeta in P1, P2.
  unfold fail_if. rewrite P1 in *. destruct (_ <=? callback_price name o e); [reflexivity|]. rewrite bind_ret. rewrite (P2 eq_refl).
  unfold ret, tokens_call, callback_call. cbn [ci_vm ci_rcpt set_vi_args]. cbv zeta. rewrite value_exact, Hf. reflexivity.
Qed.
End callback.

(** * Executed at once *)
Section sync.
Context {E : env}.
Lemma create_answer c o a name e h : env_ok E -> sendable name o e -> answer_gas o (ac_locked c) ->
  exists i, answers h a name (ac_locked c) o e i /\
  createCallbackContractCallInput c o a name e h =
  (h, if o_gasrem o + ac_locked c <=? callback_price name o e then OErr ErrNotEnoughGas else OOk i).
Proof.
  intros HE Hs (H1 & H2 & H3). destruct (call_failed o e) eqn:Hf.
  - assert (Hn : forall f args, ~ returns_tokens o e f args) by (intros f args [Hx _]; congruence).
    eexists. split; [left; split; [exact Hn|reflexivity]|]. apply callback_run; assumption.
  - destruct (isESDTTransferOnReturnData o) as [[f args]|] eqn:Ht.
    + apply (tokens_iff o e f args Hf) in Ht. eexists. split; [right; exists f, args; split; [exact Ht|reflexivity]|]. apply callback_tokens; assumption.
    + assert (Hn : forall f args, ~ returns_tokens o e f args).
      { intros f args Hx. apply (tokens_iff o e f args Hf) in Hx. congruence. }
      eexists. split; [left; split; [exact Hn|reflexivity]|]. apply callback_run; assumption.
Qed.
Lemma answers_once h a name l o e i j : answers h a name l o e i -> answers h a name l o e j -> i = j.
Proof.
  intros [[N1 ->]|(f1 & a1 & T1 & ->)] [[N2 ->]|(f2 & a2 & T2 & ->)]; [reflexivity|destruct (N1 _ _ T2)|destruct (N2 _ _ T1)|].
  pose proof (proj1 T1) as Hf. apply (tokens_iff o e _ _ Hf) in T1, T2. rewrite T1 in T2. injection T2 as <- <-. reflexivity.
Qed.
Lemma get_same a h h' x b : GetOutputAccount a h = (h', OOk (x, b)) -> (exists m, h' = set_accounts m h) /\ (forall c, account_of h' c = account_of h c) /\ is_Some (accounts h' !! a).
Proof.
  unfold GetOutputAccount. destruct (accounts h !! a) as [y|] eqn:Hy; intros [= <- <- <-].
  - split; [exists (accounts h); destruct h as [? ? []]; reflexivity|]. split; [reflexivity|]. rewrite Hy. eexists. reflexivity.
  - split; [eexists; reflexivity|]. split.
    + intros c. unfold account_of. cbn. destruct (decide (c = a)) as [->|Hn].
      * rewrite lookup_insert. unfold accounts in Hy. rewrite Hy. reflexivity.
      * rewrite lookup_insert_ne by congruence. reflexivity.
    + cbn. rewrite lookup_insert. eexists. reflexivity.
Qed.
Lemma err_output e h : exists m o, CreateVMOutputInCaseOfError e h = (set_accounts m h, OOk o) /\ o_code o = resolveReturnCodeFromError e /\
  forall c, exists g, default NewVMOutputAccount (m !! c) = set_oa_gasused g (account_of h c).
Proof.
  unfold CreateVMOutputInCaseOfError. rewrite bind_gets. cbv zeta. unfold UpdateGasStateOnFailure. rewrite bind_assoc, bind_gets.
  assert (Ho : exists h1 x b, GetOutputAccount (r_addr (h_rt h)) h = (h1, OOk (x, b))).
  { unfold GetOutputAccount. destruct (accounts h !! _); eexists _, _, _; reflexivity. }
  destruct Ho as (h1 & x & b & H1). rewrite bind_assoc, (bind_ok _ _ _ _ _ H1), bind_assoc, bind_gets. unfold upd_account. rewrite bind_modify.
  destruct (get_same _ _ _ _ _ H1) as ((m & ->) & Ha & [y Hy]). eexists _, _. split; [reflexivity|]. split; [reflexivity|].
  intros c. cbn [accounts set_accounts h_out set_h_out set_o_accounts o_accounts] in *. specialize (Ha c). unfold account_of at 1 in Ha. cbn in Ha.
  destruct (decide (c = r_addr (h_rt h))) as [->|Hn].
  - rewrite lookup_alter. cbn in Hy. rewrite Hy in Ha |- *. cbn in Ha |- *. rewrite <- Ha. eexists. reflexivity.
  - rewrite lookup_alter_ne by congruence. exists (oa_gasused (account_of h c)). transitivity (account_of h c); [exact Ha|]. destruct (account_of h c). reflexivity.
Qed.
Lemma report_run o' e h h' r : processCallbackVMOutput o' (Some e) h = (h', r) ->
  r = OOk tt /\ exists code msg, reports_failure h h' code msg /\ match o' with Some ob => code = o_code ob /\ msg = o_msg ob | None => code = resolveReturnCodeFromError e end.
Proof.
  unfold processCallbackVMOutput. rewrite bind_modify. set (h1 := set_h_rt (set_r_input (set_vi_gas 0 (r_input (h_rt h))) (h_rt h)) h).
  intros H.
  assert (Hend : forall h2 (ob : vm_output), h_rt h2 = h_rt h1 -> h_trace h2 = h_trace h1 -> h_world h2 = h_world h1 ->
    o_retdata (h_out h2) = o_retdata (h_out h1) -> o_code (h_out h2) = o_code (h_out h1) ->
    (forall a, oa_delta (account_of h2 a) = oa_delta (account_of h1 a) /\ oa_transfers (account_of h2 a) = oa_transfers (account_of h1 a) /\
       oa_storage (account_of h2 a) = oa_storage (account_of h1 a) /\ oa_code (account_of h2 a) = oa_code (account_of h1 a)) ->
    (SetReturnMessage (o_msg ob) ;;; Finish (e_codestr E (o_code ob)) ;;; hash <- gets (fun h => vi_curtx (r_input (h_rt h))) ;; Finish hash) h2 = (h', r) ->
    r = OOk tt /\ reports_failure h h' (o_code ob) (o_msg ob)).
  { intros h2 ob R1 R2 R3 R4 R5 R6 H2. unfold SetReturnMessage, Finish in H2. rewrite !bind_modify, bind_gets in H2. injection H2 as <- <-.
    split; [reflexivity|]. split; cbn -[account_of cell code_now].
    - rewrite R4. rewrite <- app_assoc. cbn. rewrite R1. reflexivity.
    - reflexivity.
    - exact R5.
    - intros a. apply (R6 a).
    - intros a. apply (R6 a).
    - intros a k. rewrite !cell_of. cbn -[account_of]. rewrite R3. change (account_of (set_h_out _ _) a) with (account_of h2 a).
      rewrite (proj1 (proj2 (proj2 (R6 a)))). reflexivity.
    - intros a. rewrite !code_of. unfold code_view. cbn -[account_of]. rewrite R3. change (account_of (set_h_out _ _) a) with (account_of h2 a).
      rewrite (proj2 (proj2 (proj2 (R6 a)))). reflexivity.
    - exact R3.
    - exact R2. }
  destruct o' as [ob|].
  - rewrite bind_ret in H. destruct (Hend h1 ob eq_refl eq_refl eq_refl eq_refl eq_refl) as [H1 H2]; [intros a; repeat split|exact H|].
    split; [exact H1|]. exists (o_code ob), (o_msg ob). split; [exact H2|]. split; reflexivity.
  - destruct (err_output e h1) as (m & ob & Hcr & Hco & Hm). rewrite (bind_ok _ _ _ _ _ Hcr) in H.
    destruct (Hend (set_accounts m h1) ob eq_refl eq_refl eq_refl eq_refl eq_refl) as [H1 H2]; [|exact H|].
    { intros a. destruct (Hm a) as [g Hg]. rewrite acc_set, Hg. repeat split. }
    split; [exact H1|]. exists (o_code ob), (o_msg ob). split; [exact H2|exact Hco].
Qed.
Lemma dest_input_run c f args h h1 : asks c f args -> h_rt h1 = h_rt h -> left_of h1 = left_of h ->
  createDestinationContractCallInput c h1 = (h1, OOk (dest_call h c f args)).
Proof.
  intros Ha Hr Hl. apply parse_iff in Ha. unfold createDestinationContractCallInput, bind at 1, lift. rewrite Ha. rewrite bind_gets.
  unfold GasLeft. rewrite bind_gets, left_gas, Hl, Hr. reflexivity.
Qed.
Lemma restore_gives g h : in_frame h -> 0 <= g -> 0 <= spent h <= max_i64 -> exists h', RestoreGas g h = (h', OOk tt) /\ gives_back h h' g.
Proof.
  intros (i & x & Hx) Hg Hs. rewrite (spent_run _ _ _ Hx) in Hs. rewrite (RestoreGas_run g h i x Hx). eexists. split; [reflexivity|].
  unfold gives_back. rewrite (spent_run _ _ _ Hx). destruct (Z.leb_spec g (in_points x)).
  - split; [apply outcome_inst|]. split; [reflexivity|]. split; [reflexivity|]. rewrite inst_spent by exact Hx.
    rewrite sub_u64_sat by (unfold in_u64, max_u64, max_i64 in *; lia). unfold max_i64 in *. destruct (_ <? _) eqn:Hc; lia.
  - split; [apply outcome_refl|]. split; [reflexivity|]. split; [reflexivity|]. apply (spent_run _ _ _ Hx).
Qed.
Variables (rd : edf) (h : host) (c : async_call).
Hypothesis Hc : r_async (h_rt h) = Some c.
Lemma resumed_stp i x h1 : running_as h i x -> stp (with_inst i (set_in_bp BreakpointNone x) h) h1 no_pay none_sent ->
  resumed h h1 /\ h_rt h1 = h_rt h /\ left_of h1 = left_of h /\ in_frame h1.
Proof.
  intros Hx S1. set (h0 := with_inst i (set_in_bp BreakpointNone x) h) in *.
  destruct (stp_parts _ _ _ _ S1) as (_ & Hrt & _ & _ & _ & Hk & _). destruct (stp_gas _ _ _ _ S1) as [G1 G2].
  assert (Hs : spent h1 = spent h) by (rewrite G1; apply (bp_gas h i x _ Hx)).
  split; [|split; [exact Hrt|split]].
  - split; [eapply outcome_quiet; [apply outcome_inst|apply stp_outcome, S1]|]. split; [exact Hk|]. split; [exact Hs|exact G2].
  - unfold left_of. rewrite Hs, G2. reflexivity.
  - exists i. eexists. eapply stp_running; [exact S1|]. eapply running_with_inst, Hx.
Qed.
Lemma handle_here f args : env_ok E -> in_frame h -> asks c f args -> runs_here h c f args ->
  exists h1, resumed h h1 /\
  forall h2 o info e, rd (dest_call h c f args) h1 = (h2, OOk (Some o, info, e)) ->
    sendable (str "callBack") o e -> answer_gas o (ac_locked c) -> in_frame h2 -> 0 <= spent h2 <= max_i64 ->
  forall h' r, handleAsyncCallBreakpoint rd h = (h', r) ->
    if o_gasrem o + ac_locked c <=? callback_price (str "callBack") o e
    then r = OOk tt /\ exists msg, reports_failure h2 h' RcOutOfGas msg
    else exists h3 i, gives_back h2 h3 (ac_locked c) /\ answers h2 (ac_dest c) (str "callBack") (ac_locked c) o e i /\
      forall h4 o' info' e', rd i h3 = (h4, OOk (o', info', e')) ->
        r = OOk tt /\
        match e' with
        | None => h' = h4
        | Some _ => exists code msg, reports_failure h4 h' code msg /\ forall ob, o' = Some ob -> code = o_code ob /\ msg = o_msg ob
        end.
Proof.
  intros HE (i & x & Hx) Ha Hhere. destruct (handle_mode rd h c Hc i x f args Hx Ha) as (h1 & mode & S1 & _ & Hmode & Hh).
  destruct (resumed_stp i x h1 Hx S1) as (R1 & Hrt & Hl & F1). exists h1. split; [exact R1|].
  intros h2 o info e Hrd Hs Hg F2 Hsp h' r H.
  assert (Hh' : handleAsyncCallBreakpoint rd h =
    bind (executeSyncDestinationCall rd c) (fun '(o, e) => bind (executeSyncCallbackCall rd c o e) (fun '(o', e') => processCallbackVMOutput o' e')) h1).
  { rewrite Hh. unfold runs_here in Hhere. destruct mode; try reflexivity; exfalso.
    - destruct Hmode as [M1 M2], Hhere as [[P1 P2]|(P1 & P2 & P3)]; [congruence|contradiction].
    - destruct Hmode as (M1 & M2 & M3), Hhere as [[P1 P2]|(P1 & P2 & P3)]; [congruence|contradiction].
    - destruct Hmode as [M1 M2], Hhere as [[P1 P2]|(P1 & P2 & P3)]; [contradiction|congruence]. }
  rewrite Hh' in H. clear Hh Hh' Hmode.
  assert (Hd : executeSyncDestinationCall rd c h1 = (h2, OOk (Some o, e))).
  { unfold executeSyncDestinationCall, bind at 1, try. rewrite (dest_input_run c f args h h1 Ha Hrt Hl). unfold bind. rewrite Hrd. reflexivity. }
  rewrite (bind_ok _ _ _ _ _ Hd) in H. unfold executeSyncCallbackCall in H.
  destruct (create_answer c o (ac_dest c) (str "callBack") e h2 HE Hs Hg) as (j & Hj & Hcr).
  change (str "callBack") with CallbackFunctionName in Hcr, Hj |- *.
  destruct (_ <=? callback_price CallbackFunctionName o e).
  - assert (Ht : try (createCallbackContractCallInput c o (ac_dest c) CallbackFunctionName e) h2 = (h2, OOk (inr ErrNotEnoughGas))).
    { unfold try. rewrite Hcr. reflexivity. }
    rewrite bind_assoc, (bind_ok _ _ _ _ _ Ht), bind_ret in H. destruct (report_run _ _ _ _ _ H) as (H1 & code & msg & H2 & ->).
    split; [exact H1|]. exists msg. exact H2.
  - assert (Ht : try (createCallbackContractCallInput c o (ac_dest c) CallbackFunctionName e) h2 = (h2, OOk (inl j))).
    { unfold try. rewrite Hcr. reflexivity. }
    rewrite bind_assoc, (bind_ok _ _ _ _ _ Ht) in H. destruct (restore_gives (ac_locked c) h2 F2) as (h3 & H3 & G3); [apply Hg|exact Hsp|].
    exists h3, j. split; [exact G3|]. split; [exact Hj|]. intros h4 o' info' e' H4.
    rewrite bind_assoc, (bind_ok _ _ _ _ _ H3), bind_assoc, (bind_ok _ _ _ _ _ H4), bind_ret in H.
    destruct e' as [e'|].
    + destruct (report_run _ _ _ _ _ H) as (H1 & code & msg & H2 & H5). split; [exact H1|]. exists code, msg. split; [exact H2|]. intros ob ->. exact H5.
    + injection H as <- <-. split; reflexivity.
Qed.
(** a built-in function for another shard *)
Lemma handle_builtin f args : in_frame h -> asks c f args -> e_isBuiltin E f = true -> ~ same_shard h c ->
  exists h1, resumed h h1 /\
  forall h2 o info e, rd (dest_call h c f args) h1 = (h2, OOk (o, info, e)) ->
  handleAsyncCallBreakpoint rd h = (h2, match e with None => OOk tt | Some e => OErr e end).
Proof.
  intros (i & x & Hx) Ha Hb Hsh. destruct (handle_mode rd h c Hc i x f args Hx Ha) as (h1 & mode & S1 & _ & Hmode & Hh).
  destruct (resumed_stp i x h1 Hx S1) as (R1 & Hrt & Hl & F1). exists h1. split; [exact R1|]. intros h2 o info e Hrd.
  assert (mode = AsyncBuiltinFuncCrossShard) as ->.
  { destruct mode; try reflexivity; exfalso; [destruct Hmode as [[M1 M2]|(M1 & M2 & M3)]; [congruence|contradiction]..| |].
    - destruct Hmode as (M1 & M2 & M3). contradiction.
    - destruct Hmode as [M1 M2]. congruence. }
  rewrite Hh. assert (Hd : executeSyncDestinationCall rd c h1 = (h2, OOk (o, e))).
  { unfold executeSyncDestinationCall, bind at 1, try. rewrite (dest_input_run c f args h h1 Ha Hrt Hl). unfold bind. rewrite Hrd. reflexivity. }
  rewrite (bind_ok _ _ _ _ _ Hd). destruct e; reflexivity.
Qed.
(** a token transfer back to the calling contract *)
Lemma handle_tokens f args : in_frame h -> 0 <= ac_locked c -> 0 <= spent h <= max_i64 -> asks c f args -> e_isBuiltin E f = true -> same_shard h c -> token_answer h c f args ->
  forall h' r, handleAsyncCallBreakpoint rd h = (h', r) ->
  r = OOk tt /\ outcome_of h h' no_pay none_sent /\ o_retdata (h_out h') = ac_data c :: o_retdata (h_out h) /\
  o_code (h_out h') = o_code (h_out h) /\ o_msg (h_out h') = o_msg (h_out h) /\ budget h' = budget h /\
  spent h' = (if ac_locked c <=? spent h then spent h - ac_locked c else spent h).
Proof.
  intros (i & x & Hx) Hl0 Hsp Ha Hb Hsh Hans h' r H. destruct (handle_mode rd h c Hc i x f args Hx Ha) as (h1 & mode & S1 & _ & Hmode & Hh).
  destruct (resumed_stp i x h1 Hx S1) as (R1 & Hrt & Hl & F1).
  assert (mode = ESDTTransferOnCallBack) as ->.
  { destruct mode; try reflexivity; exfalso; [destruct Hmode as [[M1 M2]|(M1 & M2 & M3)]; [congruence|contradiction]..| |].
    - destruct Hmode as (M1 & M2). contradiction.
    - destruct Hmode as [M1 M2]. congruence. }
  rewrite Hh in H. unfold PrependFinish in H. rewrite bind_modify in H.
  set (h2 := set_h_out (set_o_retdata (ac_data c :: o_retdata (h_out h1)) (h_out h1)) h1) in *.
  destruct R1 as (O1 & (K1 & K2 & K3) & G1 & G2).
  assert (F2 : in_frame h2) by exact F1. destruct (restore_gives (ac_locked c) h2 F2 Hl0) as (h3 & H3 & O3 & E3 & B3 & S3).
  { change (spent h2) with (spent h1). rewrite G1. exact Hsp. }
  rewrite H3 in H. injection H as <- <-. split; [reflexivity|].
  change (spent h2) with (spent h1) in S3. change (budget h2) with (budget h1) in B3. rewrite G1 in S3. rewrite G2 in B3.
  split; [|rewrite E3; cbn; rewrite K1, K2, K3; split; [reflexivity|]; split; [reflexivity|]; split; [reflexivity|]; split; [exact B3|exact S3]].
  eapply outcome_quiet; [exact O1|]. eapply outcome_quiet; [|exact O3]. apply outcome_out; reflexivity.
Qed.
End sync.

(** * Pending calls *)
Section pending.
Context {E : env}.
Lemma stp_read a k h : stp h (set_h_out (out_read (h_world h) a k (h_out h)) h) no_pay none_sent.
Proof.
  apply (stp_accounts (<[a := cached (h_world h) a k (oacc (h_out h) a)]> (o_accounts (h_out h)))). intros b. destruct (decide (b = a)) as [->|Hn].
  - rewrite lookup_insert. cbn. change (account_of h a) with (oacc (h_out h) a). unfold cached.
    destruct (oa_storage (oacc (h_out h) a) !! k) as [y|] eqn:Hk; [apply arel_refl|].
    unfold no_pay, none_sent. split; try reflexivity; [cbn; lia|cbn; rewrite app_nil_r; reflexivity|]. intros k'. cbn. destruct (decide (k' = k)) as [->|Hn].
    + rewrite lookup_insert, Hk. reflexivity.
    + rewrite lookup_insert_ne by congruence. reflexivity.
  - rewrite lookup_insert_ne by congruence. apply arel_refl.
Qed.
Lemma read_cell h : exists h1, readAsyncCell h = (h1, OOk (async_key h, async_cell h)) /\ stp h h1 no_pay none_sent.
Proof.
  unfold readAsyncCell. rewrite bind_gets. cbv zeta. unfold GetStorageUnmetered. rewrite bind_assoc, bind_gets.
  rewrite (bind_ok _ _ _ _ _ (read_unmetered_run _ _ _)). eexists. split; [reflexivity|]. apply stp_read.
Qed.
Lemma blen_0 (l : bytes) : (blen l =? 0) = bool_decide (l = []).
Proof. destruct l as [|b l]; [reflexivity|]. rewrite bool_decide_false by discriminate. unfold blen. cbn [length]. lia. Qed.
Lemma find_dest_spec d l n p : find_dest d n l = Some p -> In (snd p) l /\ gc_dest (snd p) = d.
Proof.
  revert n. induction l as [|x l IH]; intros n H; cbn in H; [discriminate|]. unfold beq in H. case_bool_decide as Hd.
  - injection H as <-. split; [left; reflexivity|symmetry; exact Hd].
  - destruct (IH _ H). split; [right|]; assumption.
Qed.
Lemma find_dest_none d l n : find_dest d n l = None -> forall x, In x l -> gc_dest x <> d.
Proof.
  revert n. induction l as [|x l IH]; intros n H y Hy; cbn in H; [destruct Hy|]. unfold beq in H. case_bool_decide as Hd; [discriminate|].
  destruct Hy as [<-|Hy]; [congruence|]. eapply IH; eassumption.
Qed.
Lemma find_context_spec m d ids id : find_context m d ids = Some id -> id <> [] /\ waits m id d.
Proof.
  induction ids as [|x ids IH]; cbn; [discriminate|]. destruct (m !! x) as [ctx|] eqn:Hx; [|exact IH].
  destruct (find_dest d 0 (ax_calls ctx)) as [p|] eqn:Hp; [|exact IH].
  destruct (Z.ltb_spec 0 (blen x)) as [Hl|Hl]; [|exact IH]. intros [= <-]. split.
  - intros He. rewrite He in Hl. unfold blen in Hl. cbn in Hl. lia.
  - destruct (find_dest_spec _ _ _ _ Hp). exists ctx, (snd p). repeat split; assumption.
Qed.
Lemma find_context_none m d ids : find_context m d ids = None -> forall id, In id ids -> id <> [] -> ~ waits m id d.
Proof.
  induction ids as [|x ids IH]; intros H id Hi Hn; [destruct Hi|]. cbn in H. intros (ctx & g & Hm & Hg & Hd). destruct Hi as [->|Hi].
  - rewrite Hm in H. destruct (find_dest d 0 (ax_calls ctx)) as [p|] eqn:Hp.
    + destruct (Z.ltb_spec 0 (blen id)) as [Hl|Hl]; [discriminate|]. destruct id; [contradiction|]. unfold blen in Hl. cbn in Hl. lia.
    + exact (find_dest_none _ _ _ Hp _ Hg Hd).
  - destruct (m !! x) as [ctx'|] eqn:Hx; [destruct (find_dest d 0 (ax_calls ctx')); [destruct (0 <? blen x); [discriminate|]|]|];
      (eapply IH; [exact H|exact Hi|exact Hn|]; exists ctx, g; repeat split; assumption).
Qed.
Lemma order_in (m : gmap bytes async_ctx) id ctx : env_ok E -> m !! id = Some ctx -> In id (e_order E (map fst (map_to_list m))).
Proof.
  intros (_ & _ & Hperm) H. eapply Permutation_in; [symmetry; apply Hperm|]. apply in_map_iff. exists (id, ctx). split; [reflexivity|].
  apply elem_of_list_In, elem_of_map_to_list, H.
Qed.
(** nothing pending *)
Lemma pending_none h : async_cell h = [] -> exists h', processCallbackStack h = (h', OOk tt) /\ stp h h' no_pay none_sent.
Proof.
  intros Hc. destruct (read_cell h) as (h1 & H1 & S1). exists h1. split; [|exact S1]. unfold processCallbackStack.
  rewrite (bind_ok _ _ _ _ _ H1). rewrite Hc. reflexivity.
Qed.
(** an answer nobody waits for *)
Lemma pending_unexpected info h : env_ok E -> async_cell h <> [] -> e_unmarshal E (async_cell h) = ROk info ->
  (forall id, id <> [] -> ~ waits (ai_map info) id (vi_caller (r_input (h_rt h)))) ->
  exists h', processCallbackStack h = (h', OErr ErrCallBackFuncNotExpected) /\ stp h h' no_pay none_sent.
Proof.
  intros HE Hc Hu Hw. destruct (read_cell h) as (h1 & H1 & S1). exists h1. split; [|exact S1]. unfold processCallbackStack.
  rewrite (bind_ok _ _ _ _ _ H1). rewrite blen_0, bool_decide_false by exact Hc. unfold bind at 1, lift. rewrite Hu. rewrite bind_gets.
  destruct (stp_parts _ _ _ _ S1) as (_ & Hrt & _). rewrite Hrt. cbv zeta.
  destruct (find_context _ _ _) as [id|] eqn:Hf; [|reflexivity]. destruct (find_context_spec _ _ _ _ Hf) as [Hn Hx]. destruct (Hw id Hn Hx).
Qed.
Lemma count_insert (m : gmap bytes async_ctx) id ctx : m !! id = Some ctx -> pending_count m = (length (ax_calls ctx) + pending_count (delete id m))%nat.
Proof.
  intros H. unfold pending_count. rewrite <- (insert_delete m id ctx H) at 1. rewrite map_fold_insert_L; [reflexivity|intros; lia|apply lookup_delete].
Qed.
(** several calls pending: nothing happens *)
Lemma pending_stuck info h : async_cell h <> [] -> e_unmarshal E (async_cell h) = ROk info -> (2 <= pending_count (ai_map info))%nat ->
  exists h' r, processCallbackStack h = (h', r) /\ (r = OOk tt \/ r = OErr ErrCallBackFuncNotExpected) /\ stp h h' no_pay none_sent.
Proof.
  intros Hc Hu Hp. destruct (read_cell h) as (h1 & H1 & S1). unfold processCallbackStack.
  rewrite (bind_ok _ _ _ _ _ H1). rewrite blen_0, bool_decide_false by exact Hc. unfold bind at 1, lift. rewrite Hu. rewrite bind_gets. cbv zeta.
  destruct (find_context _ _ _) as [id|] eqn:Hf.
  2:{ eexists _, _. split; [reflexivity|]. split; [right; reflexivity|exact S1]. }
  destruct (find_context_spec _ _ _ _ Hf) as [Hn (ctx & g & Hm & Hg & Hd)]. rewrite Hm.
  assert (Hne : (if (length (ax_calls ctx) - 1 =? 0)%nat then delete id (ai_map info) else ai_map info) <> ∅).
  { rewrite (count_insert _ _ _ Hm) in Hp. destruct (Nat.eqb_spec (length (ax_calls ctx) - 1) 0) as [Hl|Hl].
    - intros He. rewrite He in Hp. unfold pending_count in Hp. rewrite map_fold_empty in Hp. lia.
    - intros He. rewrite He, lookup_empty in Hm. discriminate. }
  rewrite bool_decide_false by exact Hne. eexists _, _. split; [reflexivity|]. split; [left; reflexivity|exact S1].
Qed.
(** the only pending call is answered, and the contract to tell is elsewhere *)
Lemma store_run h i x z k v h' : h' = set_h_stoprot true (with_inst i x (set_h_out (set_o_refund z (out_write (h_stoaddr h) k v (h_out h))) h)) ->
  cell_set (h_stoaddr h) k v h h' /\ (forall a, oa_delta (account_of h' a) = oa_delta (account_of h a) /\ oa_transfers (account_of h' a) = oa_transfers (account_of h a)) /\
  (forall a, code_now h' a = code_now h a) /\ h_rt h' = h_rt h /\ budget h' = budget h /\ nothing_ran h h' /\ h_world h' = h_world h.
Proof.
  intros ->. split; [apply (cell_set_intro h (with_inst i x (set_h_out (set_o_refund z (out_write (h_stoaddr h) k v (h_out h))) h)) i x (h_stoaddr h) k v z eq_refl)|].
  set (h' := set_h_stoprot _ _).
  assert (Ha : forall a, account_of h' a = account_of h a \/ a = h_stoaddr h /\ account_of h' a = set_oa_storage (<[k := v]> (oa_storage (account_of h a))) (account_of h a)).
  { intros a. unfold account_of, h'. cbn. destruct (decide (a = h_stoaddr h)) as [->|Hn].
    - right. split; [reflexivity|]. rewrite lookup_insert. reflexivity.
    - left. rewrite lookup_insert_ne by congruence. reflexivity. }
  split; [intros a; destruct (Ha a) as [->|[_ ->]]; split; reflexivity|].
  split; [intros a; rewrite !code_of; unfold code_view; destruct (Ha a) as [->|[_ ->]]; reflexivity|]. repeat split.
Qed.
Lemma pending_open info h id ctx g z : env_ok E -> metered h -> r_ro (h_rt h) = false -> isElrondReservedKey (async_key h) = false ->
  len_ok (async_key h) -> len_ok (async_cell h) -> o_refund (h_out h) = Some z ->
  async_cell h <> [] -> e_unmarshal E (async_cell h) = ROk info ->
  ai_map info = {[ id := ctx ]} -> id <> [] -> ax_calls ctx = [g] -> gc_dest g = vi_caller (r_input (h_rt h)) ->
  exists h3, cell_set (h_stoaddr h) (async_key h) [] h h3 /\ nothing_ran h h3 /\ h_rt h3 = h_rt h /\ metered h3 /\
    left_of h3 = Z.max 0 (left_of h - key_price (e_cost E) (async_key h)) /\
    (forall b, oa_transfers (account_of h3 b) = oa_transfers (account_of h b)) /\ (forall b, oa_delta (account_of h3 b) = oa_delta (account_of h b)) /\
    processCallbackStack h =
    (if bool_decide (code_now h (ai_caller info) = []) then sendStorageCallbackToDestination (ai_caller info) (ai_retdata info)
     else GetVMOutput ;;; panic) h3.
Proof.
  intros HE Hm Hro Hres Hlk Hlc Hz Hc Hu Hmap Hid Hcalls Hdest. destruct (processCallbackStack h) as [h' r] eqn:H.
  destruct (read_cell h) as (h1 & H1 & S1). unfold processCallbackStack in H.
  rewrite (bind_ok _ _ _ _ _ H1) in H. rewrite blen_0, bool_decide_false in H by exact Hc. unfold bind at 1, lift in H. rewrite Hu in H. rewrite bind_gets in H. cbv zeta in H.
  destruct (stp_parts _ _ _ _ S1) as (_ & Hrt & _ & _ & _ & _ & Hst & Hrf). destruct (stp_gas _ _ _ _ S1) as [G1 B1].
  assert (Hf : find_context (ai_map info) (vi_caller (r_input (h_rt h1))) (e_order E (map fst (map_to_list (ai_map info)))) = Some id).
  { rewrite Hmap, map_to_list_singleton. cbn [map fst]. assert (Ho : e_order E [id] = [id]).
    { destruct HE as (_ & _ & Hperm). apply Permutation_length_1_inv. symmetry. apply Hperm. }
    rewrite Ho. cbn [find_context]. rewrite lookup_singleton, Hcalls. cbn [find_dest]. unfold beq. rewrite bool_decide_true by (rewrite Hrt; congruence).
    destruct (Z.ltb_spec 0 (blen id)) as [Hl|Hl]; [reflexivity|]. destruct id; [contradiction|]. unfold blen in Hl. cbn in Hl. lia. }
  rewrite Hf in H. rewrite Hmap, lookup_singleton, Hcalls in H. cbn [length Nat.sub Nat.eqb] in H. rewrite delete_singleton in H.
  rewrite bool_decide_true in H by reflexivity. cbn [negb] in H.
  pose proof (metered_stp _ _ _ _ S1 Hm) as M1. destruct M1 as ((i & x & Hx) & Hk & Hb & Hs).
  pose proof (stp_outcome _ _ _ _ S1) as O1.
  assert (Hcell : cell h1 (h_stoaddr h1) (async_key h) = async_cell h) by (rewrite (oc_cell _ _ _ _ O1), Hst; reflexivity).
  assert (HS : exists q, SetProtectedStorage (async_key h) [] h1 = (q, OOk StorageDeleted) /\
    q = set_h_stoprot true (with_inst i (pay (key_price (e_cost E) (async_key h)) x)
       (set_h_out (set_o_refund (Some (refund_after (e_cost E) z (async_cell h) [])) (out_write (h_stoaddr h1) (async_key h) [] (h_out h1))) h1))).
  { eexists. rewrite (SetProtected_run (async_key h) [] h1 i x z HE Hx); try assumption.
    - assert (Hkind : kind_of (async_cell h) [] = WDeleted) by (unfold kind_of; destruct (async_cell h); [contradiction|reflexivity]).
      rewrite Hcell. unfold value_price. rewrite Hkind, Z.add_0_r. split; reflexivity.
    - rewrite (spent_run _ _ _ Hx) in Hs. pose proof (Hk i x (proj2 Hx)). split; assumption.
    - unfold len_ok, blen, max_i64. cbn. lia.
    - rewrite Hcell. exact Hlc.
    - rewrite Hrt. exact Hro.
    - rewrite Hrf. exact Hz. }
  destruct HS as (h2 & HS & E2). rewrite (bind_ok _ _ _ _ _ HS) in H.
  destruct (store_run _ _ _ _ _ _ _ E2) as (C2 & A2 & D2 & R2 & B2 & N2 & W2).
  assert (Hx2 : running_as h2 i (pay (key_price (e_cost E) (async_key h)) x)) by (rewrite E2; split; [apply Hx|cbn; apply lookup_insert]).
  destruct (hasCode_run (ai_caller info) h2) as (h3 & H3 & S3). rewrite (bind_ok _ _ _ _ _ H3) in H.
  rewrite D2, (oc_code _ _ _ _ O1), negb_involutive in H.
  pose proof (key_price_nonneg E (async_key h) HE) as Hkp.
  assert (M2 : metered h2).
  { split; [exists i; eexists; exact Hx2|]. split.
    - intros j y Hj. rewrite E2 in Hj. cbn in Hj. destruct (decide (j = i)) as [->|Hn].
      + rewrite lookup_insert in Hj. injection Hj as <-. rewrite (spent_run _ _ _ Hx) in Hs. pose proof (Hk i x (proj2 Hx)). unfold pay. cbn. lia.
      + rewrite lookup_insert_ne in Hj by congruence. apply (Hk j y Hj).
    - rewrite B2. rewrite (spent_run _ _ _ Hx2). cbn. split; [exact Hb|]. lia. }
  assert (L2 : left_of h2 = Z.max 0 (left_of h - key_price (e_cost E) (async_key h))).
  { unfold left_of. rewrite B2, B1, <- G1, (spent_run _ _ _ Hx2), (spent_run _ _ _ Hx). cbn. pose proof (Hk i x (proj2 Hx)). rewrite B1 in Hb. lia. }
  destruct (stp_gas _ _ _ _ S3) as [G3 B3]. assert (L3 : left_of h3 = left_of h2) by (unfold left_of; rewrite G3, B3; reflexivity).
  pose proof (stp_outcome _ _ _ _ S3) as O3. pose proof (metered_stp _ _ _ _ S3 M2) as M3.
  assert (Hcells : cell_set (h_stoaddr h) (async_key h) [] h h3).
  { intros b k. rewrite (oc_cell _ _ _ _ O3), (C2 b k), Hst, (oc_cell _ _ _ _ O1). reflexivity. }
  assert (Hran : nothing_ran h h3) by (unfold nothing_ran; rewrite (oc_ran _ _ _ _ O3), N2; apply (oc_ran _ _ _ _ O1)).
  assert (Ht : forall b, oa_transfers (account_of h3 b) = oa_transfers (account_of h b)).
  { intros b. rewrite (oc_sent _ _ _ _ O3), (proj2 (A2 b)), (oc_sent _ _ _ _ O1). unfold none_sent. rewrite !app_nil_r. reflexivity. }
  assert (Hd : forall b, oa_delta (account_of h3 b) = oa_delta (account_of h b)).
  { intros b. rewrite (oc_paid _ _ _ _ O3), (proj1 (A2 b)), (oc_paid _ _ _ _ O1). unfold no_pay. lia. }
  assert (R3 : h_rt h3 = h_rt h) by (rewrite (oc_frame _ _ _ _ O3), R2; exact Hrt).
  exists h3. split; [exact Hcells|]. split; [exact Hran|]. split; [exact R3|]. split; [exact M3|]. split; [congruence|]. split; [exact Ht|]. split; [exact Hd|].
  symmetry. exact H.
Qed.
Lemma pending_last info h id ctx g z : env_ok E -> metered h -> r_ro (h_rt h) = false -> isElrondReservedKey (async_key h) = false ->
  len_ok (async_key h) -> len_ok (async_cell h) -> o_refund (h_out h) = Some z ->
  async_cell h <> [] -> e_unmarshal E (async_cell h) = ROk info ->
  ai_map info = {[ id := ctx ]} -> id <> [] -> ax_calls ctx = [g] -> gc_dest g = vi_caller (r_input (h_rt h)) ->
  code_now h (ai_caller info) = [] ->
  forall h' r, processCallbackStack h = (h', r) -> r <> OPanic ->
  cell_set (h_stoaddr h) (async_key h) [] h h' /\ nothing_ran h h' /\
  let v := vi_value (r_input (h_rt h)) in
  let a := r_addr (h_rt h) in
  let d := ai_caller info in
  (r = OOk tt /\
    (forall b, oa_transfers (account_of h' b) = oa_transfers (account_of h b) ++
       sends d (mkTransfer v (Z.max 0 (left_of h - key_price (e_cost E) (async_key h))) 0 (ai_retdata info) AsynchronousCallBack a) b) /\
    (forall b, oa_delta (account_of h' b) = oa_delta (account_of h b) + pays a d v b)) \/
  (exists e, r = OErr e /\ left_of h' = 0 /\
    (forall b, oa_transfers (account_of h' b) = oa_transfers (account_of h b)) /\ (forall b, oa_delta (account_of h' b) = oa_delta (account_of h b))).
Proof.
  intros HE Hm Hro Hres Hlk Hlc Hz Hc Hu Hmap Hid Hcalls Hdest Hcode h' r H Hr.
  destruct (pending_open info h id ctx g z HE Hm Hro Hres Hlk Hlc Hz Hc Hu Hmap Hid Hcalls Hdest) as (h3 & Hcells & Hran & R3 & M3 & L3 & Ht & Hd & Hp).
  rewrite Hp, Hcode in H. rewrite bool_decide_true in H by reflexivity.
  unfold sendStorageCallbackToDestination in H. rewrite bind_gets in H. unfold GasLeft at 1 in H. rewrite bind_gets, left_gas, L3, R3 in H.
  match type of H with bind (try (Transfer ?d ?a ?g ?l ?v ?dt ?ct)) _ _ = _ =>
    destruct (Transfer d a g l v dt ct h3) as [h4 r4] eqn:Hsend; assert (Htry : forall q, (r4 = OOk tt /\ q = inl tt \/ exists e, r4 = OErr e /\ q = inr e) -> try (Transfer d a g l v dt ct) h3 = (h4, OOk q));
    [intros q [[Q ->]|(e & Q & ->)]; unfold try; rewrite Hsend, Q; reflexivity|]
  end.
  destruct (stp_transfer _ _ _ _ _ _ _ _ _ _ Hsend) as [[Ho S4]|[(e & Ho & S4)|Ho]].
  - rewrite (bind_ok _ _ _ _ _ (Htry (inl tt) (or_introl (conj Ho eq_refl)))) in H. injection H as <- <-.
    pose proof (stp_outcome _ _ _ _ S4) as O4.
    split; [intros b k; rewrite (oc_cell _ _ _ _ O4); apply Hcells|]. split; [unfold nothing_ran; rewrite (oc_ran _ _ _ _ O4); exact Hran|].
    left. split; [reflexivity|]. split; intros b; [rewrite (oc_sent _ _ _ _ O4), Ht|rewrite (oc_paid _ _ _ _ O4), Hd]; reflexivity.
  - rewrite (bind_ok _ _ _ _ _ (Htry (inr e) (or_intror (ex_intro _ e (conj Ho eq_refl))))) in H.
    destruct (fail_run h4 e (metered_stp _ _ _ _ S4 M3)) as (h5 & F5 & L5 & O5). rewrite F5 in H. injection H as <- <-.
    pose proof (outcome_quiet _ _ _ _ _ (stp_outcome _ _ _ _ S4) O5) as O4.
    split; [intros b k; rewrite (oc_cell _ _ _ _ O4); apply Hcells|]. split; [unfold nothing_ran; rewrite (oc_ran _ _ _ _ O4); exact Hran|].
    right. exists e. split; [reflexivity|]. split; [exact L5|].
    split; intros b; [rewrite (oc_sent _ _ _ _ O4), Ht; unfold none_sent; apply app_nil_r|rewrite (oc_paid _ _ _ _ O4), Hd; unfold no_pay; lia].
  - unfold bind at 1, try in H. rewrite Hsend, Ho in H. injection H as <- <-. contradiction.
Qed.
(** ... is here: the host stops *)
Lemma output_stops h : snd (bind (GetVMOutput) (fun _ => panic (A := unit)) h) = OPanic.
Proof.
  destruct (EffWalkProofs.GetVMOutput_ok EffProofs.any_opts h) as (h1 & o & H1). rewrite (bind_ok _ _ _ _ _ H1). reflexivity.
Qed.
Lemma pending_local info h id ctx g z : env_ok E -> metered h -> r_ro (h_rt h) = false -> isElrondReservedKey (async_key h) = false ->
  len_ok (async_key h) -> len_ok (async_cell h) -> o_refund (h_out h) = Some z ->
  async_cell h <> [] -> e_unmarshal E (async_cell h) = ROk info ->
  ai_map info = {[ id := ctx ]} -> id <> [] -> ax_calls ctx = [g] -> gc_dest g = vi_caller (r_input (h_rt h)) ->
  code_now h (ai_caller info) <> [] ->
  snd (processCallbackStack h) = OPanic.
Proof.
  intros HE Hm Hro Hres Hlk Hlc Hz Hc Hu Hmap Hid Hcalls Hdest Hcode.
  destruct (pending_open info h id ctx g z HE Hm Hro Hres Hlk Hlc Hz Hc Hu Hmap Hid Hcalls Hdest) as (h3 & _ & _ & _ & _ & _ & _ & _ & Hp).
  rewrite Hp. rewrite bool_decide_false by exact Hcode. apply output_stops.
Qed.
End pending.
