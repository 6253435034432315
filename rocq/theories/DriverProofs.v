(** A driver's process can fail at any moment; what its node then makes of the
    pipes. *)
From Verif Require Import Base IpcModel IpcSpec IpcProofs DriverModel DriverSpec.
From Coq Require Import ZifyBool ZifyNat ZifyN.

(** * Cut frames *)

(** Nothing can be received from these pieces. *)
Definition unreadable (C : codec) (l : list bytes) : Prop :=
  forall n n' m l', Receive C n l <> (n', IOk m, l').

Lemma nothing_unreadable C l : concat l = [] -> unreadable C l.
Proof.
  intros H n n' m l' E. rewrite (receive_nothing C n l H) in E. discriminate.
Qed.

Lemma cut_unreadable C m b l b' :
  framed C m b -> 0 <= g_kind (g_content m) < 4294967296 ->
  b = concat l ++ b' -> b' <> [] -> unreadable C l.
Proof.
  intros (data & H1 & H2 & H3 & ->) Hk Hb Hne n n' m' l' E.
  pose proof (blen_nonneg data) as H0.
  assert (0 < blen b') as Hp by (destruct b'; [done|unfold blen; cbn; lia]).
  unfold Receive, Receiver_Receive, receiveMessageLengthAndKind, ReadFull in E.
  destruct (decide (8 <= blen (concat l))) as [H8|H8].
  2:{ rewrite fill_short in E by lia. discriminate. }
  destruct (fill_enough l 8 []) as (s1 & E1 & E2); [lia|].
  rewrite E1 in E. cbn [app] in E.
  set (h := PutUint32 (blen data) ++ PutUint32 (g_kind (g_content m))) in *.
  assert (length h = 8%nat) as Hh by done.
  assert (firstn 8 (concat l) = h) as Hf.
  { transitivity (firstn 8 (concat l ++ b')).
    - rewrite firstn_app. unfold blen in H8.
      replace (8 - length (concat l))%nat with O by lia.
      cbn [firstn]. rewrite app_nil_r. done.
    - rewrite <- Hb, firstn_app, Hh. cbn [firstn].
      rewrite <- Hh, firstn_all, Nat.sub_diag. cbn [firstn]. apply app_nil_r. }
  change (Z.to_nat 8) with 8%nat in *. rewrite Hf in E.
  replace (firstn 4 h) with (PutUint32 (blen data)) in E by done.
  replace (skipn 4 h) with (PutUint32 (g_kind (g_content m))) in E by done.
  rewrite !uint32_put in E by lia.
  unfold readMessage, ReadFull in E.
  rewrite fill_short in E; [discriminate|].
  assert (blen (h ++ data) = blen (concat l) + blen b') as Hl.
  { rewrite Hb, blen_app. done. }
  rewrite blen_app in Hl. rewrite E2.
  assert (blen (skipn 8 (concat l)) = blen (concat l) - 8).
  { unfold blen in *. rewrite skipn_length. lia. }
  assert (blen h = 8) by done. lia.
Qed.

Lemma unheard_not_heard {W} C (hook : W -> content -> W * content) w n n' q nd b :
  unheard q ->
  node_take C hook (mkNode n w NLoop) (n', IOk (mkMsg n' q)) = (nd, b) ->
  nd = node_end w (IErr EBadMessageFromArwen) /\ b = [].
Proof.
  intros Hu H. unfold node_take in H. cbn [g_content n_world] in H.
  unfold IsHookCall, IsVersionResponse, IsContractResponse, IsDiagnose,
    IsGasScheduleChangeResponse in H.
  destruct Hu as [E|[E|[E|[E|E]]]]; rewrite E in H; injection H as <- <-; done.
Qed.

(** * A dialogue in which anything can fail *)

Section Talks.
  Context {W S : Type} (c : setup W S) (fits : content -> Prop) (costs : S).
  Hypothesis HC : carries (c_codec c) fits.
  Let C := c_codec c.
  Let hook := c_hook c.
  Let vm := c_machine c costs.

  Definition gone (s : system W) : Prop := arwen_alive (s_arwen s) = false.

  Inductive inv (req : content) (T : W * content) (s : system W) : Prop :=
  | i_open w :
      s_node s = mkNode (next 0) w NLoop -> s_arwen s = mkArwen 0 AIdle ->
      framed C (mkMsg (next 0) req) (concat (to_arwen s)) ->
      concat (to_node s) = [] ->
      decent fits hook w (vm req) -> in_process hook w (vm req) = T ->
      inv req T s
  | i_ask w q k n :
      s_node s = mkNode n w NLoop ->
      s_arwen s = mkArwen (next n) (AAsk k) /\ concat (to_arwen s) = []
      \/ gone s ->
      framed C (mkMsg (next n) q) (concat (to_node s)) ->
      decent fits hook w (Ask q k) -> in_process hook w (Ask q k) = T ->
      inv req T s
  | i_say w r n :
      s_node s = mkNode n w NLoop ->
      s_arwen s = mkArwen 0 AIdle /\ concat (to_arwen s) = [] \/ gone s ->
      framed C (mkMsg (next n) r) (concat (to_node s)) ->
      passes fits r -> response r -> (w, r) = T ->
      inv req T s
  | i_answer w k a n :
      s_node s = mkNode (next n) w NLoop -> s_arwen s = mkArwen n (AAsk k) ->
      framed C (mkMsg (next n) a) (concat (to_arwen s)) -> passes fits a ->
      concat (to_node s) = [] ->
      decent fits hook w (k (IOk a)) -> in_process hook w (k (IOk a)) = T ->
      inv req T s
  | i_lost :
      n_at (s_node s) = NLoop -> gone s -> unreadable C (to_node s) ->
      inv req T s
  | i_failed e : n_at (s_node s) = NDone (IErr e) -> inv req T s
  | i_ok w r :
      s_node s = mkNode 0 w (NDone (IOk r)) -> (w, r) = T ->
      s_arwen s = mkArwen 0 AIdle /\ concat (to_arwen s) = [] \/ gone s ->
      concat (to_node s) = [] ->
      inv req T s.

  (** What the process writes when it goes on with [t], and where that leads:
      in full, or cut. *)
  Lemma advance_writes w n t a b :
    decent fits hook w t -> advance C n t = (a, b) ->
    match t with
    | Say r => a = mkArwen 0 AIdle /\ framed C (mkMsg (next n) r) b
               /\ passes fits r /\ response r
    | Ask q k => a = mkArwen (next n) (AAsk k) /\ framed C (mkMsg (next n) q) b
                 /\ passes fits q
    end.
  Proof.
    intros Hd Ha. destruct t as [r|q k].
    - destruct Hd as [Hp Hr]. cbn [advance] in Ha.
      destruct (send_ok C fits HC n r Hp) as (b1 & E1 & E2).
      rewrite E1 in Ha. injection Ha as <- <-. done.
    - destruct Hd as [Hp Hq]. cbn [advance] in Ha.
      destruct (send_ok C fits HC n q Hp) as (b1 & E1 & E2).
      rewrite E1 in Ha. injection Ha as <- <-. done.
  Qed.

  Lemma advance_inv req T w n t a b nd rest out pieces :
    decent fits hook w t -> in_process hook w t = T -> advance C n t = (a, b) ->
    nd = mkNode n w NLoop -> concat pieces = b -> concat rest = [] ->
    concat out = [] ->
    inv req T (mkSystem nd a rest (out ++ pieces)).
  Proof.
    intros Hd HT Ha -> Hp Hr Ho.
    pose proof (advance_writes w n t a b Hd Ha) as Hw. destruct t as [r|q k].
    - destruct Hw as (-> & Hf & Hpr & Hre).
      eapply i_say; cbn; [done|by left| |done|done|done].
      rewrite concat_app, Ho, Hp. exact Hf.
    - destruct Hw as (-> & Hf & Hpr).
      eapply i_ask; cbn [s_node s_arwen to_arwen to_node];
        [done|by left| |exact Hd|exact HT].
      rewrite concat_app, Ho, Hp. exact Hf.
  Qed.

  Lemma advance_cut req T w n t a b nd m rest out pieces b' :
    decent fits hook w t -> in_process hook w t = T -> advance C n t = (a, b) ->
    nd = mkNode n w NLoop -> b = concat pieces ++ b' ->
    concat out = [] ->
    inv req T (mkSystem nd (dead m) rest (out ++ pieces)).
  Proof.
    intros Hd HT Ha -> Hp Ho.
    pose proof (advance_writes w n t a b Hd Ha) as Hw.
    assert (concat (out ++ pieces) = concat pieces) as Hc
      by (rewrite concat_app, Ho; done).
    destruct (decide (b' = [])) as [->|Hne].
    - rewrite app_nil_r in Hp. destruct t as [r|q k].
      + destruct Hw as (_ & Hf & Hpr & Hre).
        eapply i_say; cbn; [done|by right| |done|done|done].
        rewrite Hc, <- Hp. exact Hf.
      + destruct Hw as (_ & Hf & Hpr).
        eapply i_ask; cbn [s_node s_arwen to_arwen to_node];
          [done|by right| |exact Hd|exact HT].
        rewrite Hc, <- Hp. exact Hf.
    - apply i_lost; [done|done|]. cbn [to_node].
      destruct t as [r|q k].
      + destruct Hw as (_ & Hf & (_ & Hpr) & Hre).
        eapply (cut_unreadable _ _ _ _ b' Hf); [by apply built_small| |done].
        rewrite Hc. exact Hp.
      + destruct Hw as (_ & Hf & (_ & Hpr)).
        eapply (cut_unreadable _ _ _ _ b' Hf); [by apply built_small| |done].
        rewrite Hc. exact Hp.
  Qed.

  (** A process that has nothing to read waits. *)
  Lemma idle_waits (s : system W) n r rest :
    concat (to_arwen s) = [] ->
    Receive C (a_nonce (s_arwen s)) (to_arwen s) = (n, r, rest) ->
    waits r = false -> False.
  Proof.
    intros H E Hw. rewrite (receive_nothing C _ _ H) in E.
    injection E as <- <- <-. discriminate.
  Qed.

  Lemma inv_arwen req T s n r rest a b :
    asks fits req -> inv req T s ->
    arwen_alive (s_arwen s) = true ->
    Receive C (a_nonce (s_arwen s)) (to_arwen s) = (n, r, rest) ->
    waits r = false ->
    arwen_take C vm (s_arwen s) (n, r) = (a, b) ->
    (forall pieces, concat pieces = b ->
       inv req T (mkSystem (s_node s) a rest (to_node s ++ pieces)))
    /\ (forall m pieces b', b = concat pieces ++ b' ->
       inv req T (mkSystem (s_node s) (dead m) rest (to_node s ++ pieces))).
  Proof.
    intros [Hp Hq] Hi Ha Hrec Hw Ht.
    destruct Hi as [w H1 H2 H3 H4 H5 H6|w q k n0 H1 H2 H3 H4 H5
      |w x n0 H1 H2 H3 H4 H5 H6|w k x n0 H1 H2 H3 H4 H5 H6 H7|H1 H2 H3|e H1
      |w x H1 H2 H3 H4].
    - rewrite H2 in Hrec, Ht. cbn [a_nonce] in Hrec.
      destruct (receive_next C fits 0 req _ (to_arwen s) Hp H3 eq_refl) as (rest' & E1 & E2).
      rewrite E1 in Hrec. injection Hrec as <- <- <-.
      apply request_reply in Ht; [|done|apply Hp].
      split.
      + intros pieces Hpc. eapply advance_inv; eauto.
      + intros m pieces b' Hb. eapply advance_cut; eauto.
    - destruct H2 as [[H2 H2']|H2]; [|unfold gone in H2; congruence].
      exfalso. eapply idle_waits; eauto.
    - destruct H2 as [[H2 H2']|H2]; [|unfold gone in H2; congruence].
      exfalso. eapply idle_waits; eauto.
    - rewrite H2 in Hrec, Ht. cbn [a_nonce] in Hrec.
      destruct (receive_next C fits n0 x _ (to_arwen s) H4 H3 eq_refl) as (rest' & E1 & E2).
      rewrite E1 in Hrec. injection Hrec as <- <- <-.
      unfold arwen_take in Ht. cbn [a_at g_content] in Ht.
      split.
      + intros pieces Hpc. eapply advance_inv; eauto.
      + intros m pieces b' Hb. eapply advance_cut; eauto.
    - unfold gone in H2. congruence.
    - split; intros; eapply i_failed; cbn; exact H1.
    - destruct H3 as [[H3 H3']|H3]; [|unfold gone in H3; congruence].
      exfalso. eapply idle_waits; eauto.
  Qed.

  Lemma inv_node req T s n r rest nd b pieces :
    inv req T s -> n_at (s_node s) = NLoop ->
    Receive C (n_nonce (s_node s)) (to_node s) = (n, r, rest) ->
    (waits r = false \/ arwen_alive (s_arwen s) = false) ->
    node_take C hook (s_node s) (n, r) = (nd, b) ->
    concat pieces = b ->
    inv req T (mkSystem nd (s_arwen s) (to_arwen s ++ pieces) rest).
  Proof.
    intros Hi Hl Hrec Hw Ht Hpc.
    destruct Hi as [w H1 H2 H3 H4 H5 H6|w q k n0 H1 H2 H3 H4 H5
      |w x n0 H1 H2 H3 H4 H5 H6|w k x n0 H1 H2 H3 H4 H5 H6 H7|H1 H2 H3|e H1
      |w x H1 H2 H3 H4].
    - rewrite (receive_nothing C _ _ H4) in Hrec. injection Hrec as <- <- <-.
      rewrite H2 in Hw. destruct Hw; discriminate.
    - rewrite H1 in Hrec, Ht. cbn [n_nonce] in Hrec.
      destruct H4 as [Hpq Hcase].
      destruct (receive_next C fits n0 q _ (to_node s) Hpq H3 eq_refl) as (rest' & E1 & E2).
      rewrite E1 in Hrec. injection Hrec as <- <- <-.
      destruct Hcase as [Hu|(Hqu & Hpa & Hd)].
      + destruct (unheard_not_heard C hook w _ _ q nd b Hu Ht) as [-> ->].
        eapply i_failed. cbn. done.
      + destruct (node_answer C fits hook HC w n0 q nd b Hpq Hqu Hpa Ht) as [-> Hf].
        destruct H2 as [[H2 H2']|H2].
        * eapply i_answer; cbn [s_node s_arwen to_arwen to_node].
          -- done.
          -- exact H2.
          -- rewrite concat_app, H2', Hpc. exact Hf.
          -- exact Hpa.
          -- exact E2.
          -- exact Hd.
          -- rewrite <- H5. cbn [in_process].
             destruct (hook w q) as [w1 a1]. done.
        * apply i_lost; [done|exact H2|]. cbn [to_node].
          by apply nothing_unreadable.
    - rewrite H1 in Hrec, Ht. cbn [n_nonce] in Hrec.
      destruct (receive_next C fits n0 x _ (to_node s) H4 H3 eq_refl) as (rest' & E1 & E2).
      rewrite E1 in Hrec. injection Hrec as <- <- <-.
      destruct (node_finish C hook w n0 x nd b H5 Ht) as [-> ->].
      eapply i_ok; cbn [s_node s_arwen to_arwen to_node]; [done|done| |done].
      destruct H2 as [[H2 H2']|H2]; [left|by right].
      split; [done|]. rewrite concat_app, H2', Hpc. done.
    - rewrite (receive_nothing C _ _ H5) in Hrec. injection Hrec as <- <- <-.
      rewrite H2 in Hw. destruct Hw; discriminate.
    - destruct r as [m|e]; [destruct (H3 _ _ _ _ Hrec)|].
      cbn [node_take] in Ht. injection Ht as <- <-.
      eapply i_failed. cbn. done.
    - congruence.
    - rewrite H1 in Hl. discriminate.
  Qed.

  Lemma inv_move calm req T s s' :
    asks fits req -> inv req T s -> move calm c costs s s' -> inv req T s'.
  Proof.
    intros Hq Hi Hm. destruct Hm as [s s' Hs|s n Hc Ha|s n r rest a b m pieces b' Hc Ha H1 H2 H3 H4|s Hc Hl].
    - destruct Hs as [s n r rest a b pieces A1 A2 A3 A4 A5|s n r rest nd b pieces A1 A2 A3 A4 A5].
      + destruct (inv_arwen req T s n r rest a b Hq Hi A1 A2 A3 A4) as [A _]. auto.
      + eapply inv_node; eauto.
    - destruct Hi as [w H1 H2 H3 H4 H5 H6|w q k n0 H1 H2 H3 H4 H5
      |w x n0 H1 H2 H3 H4 H5 H6|w k x n0 H1 H2 H3 H4 H5 H6 H7|H1 H2 H3|e H1
      |w x H1 H2 H3 H4].
      + apply i_lost; cbn; [rewrite H1; done|done|by apply nothing_unreadable].
      + eapply i_ask; cbn [s_node s_arwen to_arwen to_node]; eauto. by right.
      + eapply i_say; cbn [s_node s_arwen to_arwen to_node]; eauto. by right.
      + apply i_lost; cbn; [rewrite H1; done|done|by apply nothing_unreadable].
      + apply i_lost; cbn; done.
      + eapply i_failed; cbn; done.
      + eapply i_ok; cbn [s_node s_arwen to_arwen to_node]; eauto. by right.
    - destruct (inv_arwen req T s n r rest a b Hq Hi Ha H1 H2 H3) as [_ A].
      eapply A. exact H4.
    - eapply i_failed. cbn. done.
  Qed.

  Lemma inv_rtc calm req T s s' :
    asks fits req -> inv req T s -> rtc (move calm c costs) s s' -> inv req T s'.
  Proof.
    intros Hq Hi Hr. induction Hr as [|s s1 s2 H1 H2 IH]; [done|].
    apply IH. eapply inv_move; eauto.
  Qed.

  Lemma open_inv req w nd b ps s1 s2 :
    asks fits req -> decent fits hook w (vm req) ->
    StartLoop C 0 w req = (nd, b) -> concat ps = b ->
    concat s1 = [] -> concat s2 = [] ->
    inv req (in_process hook w (vm req))
      (mkSystem nd (mkArwen 0 AIdle) (s1 ++ ps) s2).
  Proof.
    intros [Hp Hq] Hd Hs Hb H1 H2. unfold StartLoop in Hs.
    destruct (send_ok C fits HC 0 req Hp) as (b1 & E1 & E2). rewrite E1 in Hs.
    injection Hs as <- <-.
    eapply i_open; cbn [s_node s_arwen to_arwen to_node]; try done.
    rewrite concat_app, H1, Hb. exact E2.
  Qed.

  (** Nobody is there any more, and nothing was said before. *)
  Lemma lost_rtc calm (s s' : system W) :
    n_at (s_node s) = NLoop \/ (exists e, n_at (s_node s) = NDone (IErr e)) ->
    gone s -> unreadable C (to_node s) ->
    rtc (move calm c costs) s s' ->
    (n_at (s_node s') = NLoop \/ (exists e, n_at (s_node s') = NDone (IErr e))) /\ gone s'.
  Proof.
    intros Hn Hg Hu Hr.
    assert (forall x, (n_at (s_node x) = NLoop /\ unreadable C (to_node x)
      \/ (exists e, n_at (s_node x) = NDone (IErr e))) -> gone x ->
      forall y, move calm c costs x y ->
      (n_at (s_node y) = NLoop /\ unreadable C (to_node y)
      \/ (exists e, n_at (s_node y) = NDone (IErr e))) /\ gone y) as Hstep.
    { clear. intros x Hx Hgx y Hm. unfold gone in Hgx.
      destruct Hm as [x y Hs|x n Hc Ha|x n r rest a b m pieces b' Hc Ha H1 H2 H3 H4|x Hc Hl].
      - destruct Hs as [x n r rest a b pieces A1 A2 A3 A4 A5|x n r rest nd b pieces A1 A2 A3 A4 A5]; [congruence|].
        destruct Hx as [[Hx1 Hx2]|[e Hx]]; [|congruence].
        destruct r as [m|e]; [destruct (Hx2 _ _ _ _ A2)|].
        cbn [node_take] in A4. injection A4 as <- <-. cbn. split; [|done]. right. eauto.
      - congruence.
      - congruence.
      - cbn. split; [|done]. right. eauto. }
    assert (n_at (s_node s) = NLoop /\ unreadable C (to_node s)
      \/ (exists e, n_at (s_node s) = NDone (IErr e))) as Hn'
      by (destruct Hn; auto).
    clear Hn Hu. revert Hn' Hg. induction Hr as [s|s s1 s2 H1 H2 IH]; intros Hn' Hg.
    - split; [|done]. destruct Hn' as [[? ?]|?]; auto.
    - destruct (Hstep _ Hn' Hg _ H1) as [A B]. auto.
  Qed.

  (** * A change of the gas schedule *)

  Lemma change_received req n b s :
    strips C (eq req) -> g_kind req = KGasScheduleChangeRequest ->
    Send C 0 req = (n, IOk b) -> concat s = b ->
    n = next 0 /\ exists rest,
      Receive C 0 s = (next 0, IOk (mkMsg (next 0) (mkContent TUndefined (g_kind req) (g_error req) [])), rest)
      /\ concat rest = [].
  Proof.
    intros HS Hk Hs Hb.
    destruct (HS (next 0) req (next_range 0) eq_refl) as (data & E1 & E2 & E3).
    unfold Send, Sender_Send in Hs. rewrite <- next_u32, E1 in Hs.
    cbn [g_content] in Hs. injection Hs as <- Hbb. symmetry in Hbb.
    change (b = (PutUint32 (u32 (blen data)) ++ PutUint32 (u32 (g_kind req))) ++ data) in Hbb.
    split; [done|].
    pose proof (blen_nonneg data) as H0.
    unfold Receive, Receiver_Receive, receiveMessageLengthAndKind, ReadFull.
    set (h := PutUint32 (u32 (blen data)) ++ PutUint32 (u32 (g_kind req))) in *.
    assert (length h = 8%nat) as Hh by done.
    destruct (fill_enough s 8 []) as (s1 & G1 & G2).
    { rewrite Hb, Hbb, blen_app. change (blen h) with 8. lia. }
    rewrite G1. cbn [app]. rewrite Hb, Hbb in G1, G2 |- *.
    change (Z.to_nat 8) with 8%nat in *.
    rewrite firstn_app, Hh, Nat.sub_diag, (firstn_all2 h) by lia.
    rewrite skipn_app, Hh, Nat.sub_diag, (skipn_all2 h), drop_0 in G2 by lia.
    cbn [firstn app] in G2 |- *. rewrite app_nil_r.
    replace (firstn 4 h) with (PutUint32 (u32 (blen data))) by done.
    replace (skipn 4 h) with (PutUint32 (u32 (g_kind req))) by done.
    rewrite (u32_id (blen data)) by (unfold in_u32; lia).
    rewrite (u32_id (g_kind req)) by (rewrite Hk; unfold in_u32, KGasScheduleChangeRequest; lia).
    rewrite !uint32_put by (rewrite ?Hk; unfold KGasScheduleChangeRequest; lia).
    unfold readMessage, ReadFull.
    destruct (fill_enough s1 (blen data) []) as (s2 & G3 & G4).
    { rewrite G2. lia. }
    rewrite G3. cbn [app]. rewrite G2 in G4 |- *.
    unfold blen in *. rewrite Nat2Z.id in *.
    rewrite firstn_all. rewrite E3.
    - cbn [g_nonce]. rewrite <- next_u32, Z.eqb_refl. cbn [negb].
      exists s2. split; [done|]. rewrite G4, skipn_all. done.
    - rewrite Hk. reflexivity.
  Qed.

  Lemma change_crashes req n :
    g_kind req = KGasScheduleChangeRequest ->
    arwen_take C vm (mkArwen 0 AIdle)
      (n, IOk (mkMsg n (mkContent TUndefined (g_kind req) (g_error req) [])))
    = (mkArwen n APanic, []).
  Proof.
    intros Hk. unfold arwen_take. cbn [a_at g_content].
    unfold IsStopRequest, replyToNodeRequest. cbn [g_kind g_type].
    rewrite Hk. reflexivity.
  Qed.

  Lemma failed_stays calm x y : rtc (move calm c costs) x y ->
    (exists e, n_at (s_node x) = NDone (IErr e)) ->
    exists e, n_at (s_node y) = NDone (IErr e).
  Proof.
    intros Hr. induction Hr as [|x y z Hm Hr IH]; [done|].
    intros [e He]. apply IH.
    destruct Hm as [x y Hs|x n Hc Ha|x n r rest a b m pieces b' Hc Ha A1 A2 A3 A4|x Hc Hl].
    - destruct Hs as [x n r rest a b pieces A1 A2 A3 A4 A5|x n r rest nd b pieces A1 A2 A3 A4 A5]; [|congruence].
      eauto.
    - eauto.
    - eauto.
    - congruence.
  Qed.

  Lemma change_rtc calm req w nd b ps s1 s2 s :
    strips C (eq req) -> g_kind req = KGasScheduleChangeRequest ->
    StartLoop C 0 w req = (nd, b) -> concat ps = b ->
    concat s1 = [] -> concat s2 = [] ->
    rtc (move calm c costs) (mkSystem nd (mkArwen 0 AIdle) (s1 ++ ps) s2) s ->
    n_at (s_node s) = NLoop \/ exists e, n_at (s_node s) = NDone (IErr e).
  Proof.
    intros HS Hk Hst Hb H1 H2 Hr. unfold StartLoop in Hst.
    destruct (Send C 0 req) as [n [b1|e]] eqn:Es.
    2:{ injection Hst as <- <-.
        right. eapply failed_stays; [exact Hr|]. cbn. eauto. }
    injection Hst as <- <-.
    assert (concat (s1 ++ ps) = b1) as Hin by (rewrite concat_app, H1, Hb; done).
    destruct (change_received req n b1 _ HS Hk Es Hin) as [-> (rest & F1 & F2)].
    unfold C in F1.
    inversion Hr as [|s' s'' s''' Hm Hr']; subst; [by left|].
    assert (forall m pcs, concat pcs = [] -> forall s, rtc (move calm c costs)
      (mkSystem (mkNode (next 0) w NLoop) m rest (s2 ++ pcs)) s ->
      arwen_alive m = false ->
      n_at (s_node s) = NLoop \/ exists e, n_at (s_node s) = NDone (IErr e)) as Hlost.
    { intros m pcs Hpcs x Hx Hm'.
      apply lost_rtc in Hx as [? _]; [done|by left|done|].
      cbn [to_node]. apply nothing_unreadable. rewrite concat_app, H2, Hpcs. done. }
    inversion Hm as [? ? Hs|? n Hc Ha|? n r rst a b m pieces b' Hc Ha A1 A2 A3 A4|? Hc Hl]; subst;
      cbn [s_node s_arwen to_arwen to_node a_nonce n_nonce] in *.
    - inversion Hs as [? n r rst a b pieces A1 A2 A3 A4 A5|? n r rst nd b pieces A1 A2 A3 A4 A5]; subst;
        cbn [s_node s_arwen to_arwen to_node a_nonce n_nonce] in *.
      + rewrite F1 in A2. injection A2 as <- <- <-.
        pose proof (change_crashes req (next 0) Hk) as K. unfold C, vm in K. rewrite K in A4. injection A4 as <- Hpcs.
        eapply Hlost; [by rewrite <- Hpcs|exact Hr'|done].
      + rewrite (receive_nothing (c_codec c) _ _ H2) in A2. injection A2 as <- <- <-.
        destruct A3; discriminate.
    - apply lost_rtc in Hr' as [? _]; [done|by left|done|].
      cbn [to_node]. by apply nothing_unreadable.
    - rewrite F1 in A1. injection A1 as <- <- <-.
      pose proof (change_crashes req (next 0) Hk) as K. unfold C, vm in K. rewrite K in A3. injection A3 as <- Hpcs.
      destruct (concat pieces) eqn:Ep; [|discriminate].
      eapply Hlost; [exact Ep|exact Hr'|done].
    - right. eapply failed_stays; [exact Hr'|]. cbn. eauto.
  Qed.
End Talks.
