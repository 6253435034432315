(** Proofs about the message pipes. *)
From Verif Require Import Base IpcModel IpcSpec.
From Coq Require Import ZifyBool ZifyNat ZifyN.
From stdpp Require Import relations.
Open Scope Z_scope.

(** * Reading is independent of the pieces *)

Lemma fill_enough s : forall need got,
  0 <= need <= blen (concat s) ->
  exists s', fill need got s
             = (IOk (got ++ firstn (Z.to_nat need) (concat s)), s')
             /\ concat s' = skipn (Z.to_nat need) (concat s).
Proof.
  induction s as [|c s IH]; intros need got Hn.
  - cbn in *. assert (need = 0) as -> by (unfold blen in *; cbn in *; lia).
    cbn. exists []. rewrite app_nil_r. done.
  - cbn [concat] in *. rewrite blen_app in Hn. cbn [fill].
    destruct (need <=? 0) eqn:E0.
    + assert (need = 0) as -> by lia. cbn. exists (c :: s).
      rewrite app_nil_r. done.
    + destruct (blen c <=? need) eqn:E1.
      * destruct (IH (need - blen c) (got ++ c)) as (s' & H1 & H2); [lia|].
        exists s'. rewrite H1. split.
        -- f_equal. f_equal. rewrite <- app_assoc. f_equal.
           rewrite (firstn_app _ c).
           rewrite (firstn_all2 c) by (unfold blen in *; lia).
           f_equal. f_equal. unfold blen in *; lia.
        -- rewrite H2. rewrite (skipn_app _ c).
           rewrite (skipn_all2 c) by (unfold blen in *; lia).
           cbn. f_equal. unfold blen in *; lia.
      * eexists. split.
        -- f_equal. f_equal. f_equal.
           rewrite firstn_app.
           replace (Z.to_nat need - length c)%nat with 0%nat
             by (unfold blen in *; lia).
           cbn. rewrite app_nil_r. done.
        -- cbn [concat]. rewrite skipn_app.
           replace (Z.to_nat need - length c)%nat with 0%nat
             by (unfold blen in *; lia). done.
Qed.

Lemma fill_short s : forall need got,
  blen (concat s) < need ->
  fill need got s
  = (IErr (match got ++ concat s with [] => EEof | _ => EUnexpectedEof end), []).
Proof.
  induction s as [|c s IH]; intros need got Hn.
  - cbn in *. unfold blen in Hn; cbn in Hn.
    destruct (need <=? 0) eqn:E; [lia|]. rewrite app_nil_r. done.
  - cbn [concat] in *. rewrite blen_app in Hn. cbn [fill].
    pose proof (blen_nonneg c). pose proof (blen_nonneg (concat s)).
    destruct (need <=? 0) eqn:E0; [lia|].
    destruct (blen c <=? need) eqn:E1; [|lia].
    rewrite IH by lia. rewrite <- app_assoc. done.
Qed.

Lemma uint32_put z : 0 <= z < 4294967296 -> Uint32 (PutUint32 z) = z.
Proof.
  intros Hz. unfold PutUint32, Uint32. rewrite !bz_zb.
  pose proof (Z.div_mod z 256). pose proof (Z.div_mod (z / 256) 256).
  pose proof (Z.div_mod (z / 65536) 256).
  assert (z / 65536 = z / 256 / 256) as E1
    by (rewrite Z.div_div by lia; done).
  assert (z / 16777216 = z / 65536 / 256) as E2
    by (rewrite Z.div_div by lia; done).
  rewrite (Z.mod_small (z / 16777216)).
  2:{ split; [apply Z.div_pos; lia|].
      apply Z.div_lt_upper_bound; lia. }
  lia.
Qed.

Lemma next_u32 n : next n = u32 (n + 1).
Proof. done. Qed.
Lemma next_range n : 0 <= next n < 4294967296.
Proof. apply Z.mod_pos_bound. lia. Qed.

(** * One message *)

(** The bytes of a message on the pipe. *)
Definition framed (C : codec) (m : msg) (b : bytes) : Prop :=
  exists data, Marshal C m = IOk data /\ blen data < 4294967296
  /\ (Unmarshal C (CreateMessage (g_kind (g_content m))) data = IOk m)
  /\ b = (PutUint32 (blen data) ++ PutUint32 (g_kind (g_content m))) ++ data.

Lemma built_blank c : built c ->
  blank (CreateMessage (g_kind c)) (g_type c) (g_kind c).
Proof.
  intros (Ht & Hr & Hu). unfold CreateMessage, blank.
  destruct (g_kind c <? KLastKind) eqn:E; [|lia].
  rewrite Ht.
  destruct (mem_kind (g_kind c) registered) eqn:Em; [done|].
  exfalso. apply Hu. unfold unregistered. clear Hu Ht E.
  unfold mem_kind in Em. cbn in Em.
  repeat (apply orb_false_iff in Em as [?%Z.eqb_neq Em]).
  unfold KLastKind in Hr.
  revert Hr. generalize dependent (g_kind c). intros k. intros.
  repeat match goal with H : k <> ?x |- _ => unfold x in H end.
  unfold KFirstKind, KGasScheduleChangeRequest, KGasScheduleChangeResponse,
    KBlockchainProcessBuiltinFunctionRequest,
    KBlockchainProcessBuiltinFunctionResponse, KUndefinedRequestOrResponse.
  lia.
Qed.

Lemma built_kind c : built c -> u32 (g_kind c) = g_kind c.
Proof.
  intros (_ & H & _). unfold KLastKind in H. apply u32_id. unfold in_u32. lia.
Qed.

Lemma frame_of C fits n c :
  carries C fits -> passes fits c -> 0 <= n < 4294967296 ->
  exists b, Sender_Send C (mkMsg n c) = IOk b /\ framed C (mkMsg n c) b.
Proof.
  intros HC [Hf Hb] Hn. destruct (HC n c Hn Hf) as (data & H1 & H2 & H3).
  unfold Sender_Send. rewrite H1. eexists. split; [done|].
  exists data. split_and!; [done..| |].
  - apply H3. apply built_blank. done.
  - cbn [g_content]. rewrite built_kind by done. rewrite u32_id; [done|].
    unfold in_u32. pose proof (blen_nonneg data). lia.
Qed.

Lemma frame_read C m b s tail :
  framed C m b -> concat s = b ++ tail ->
  0 <= g_kind (g_content m) < 4294967296 ->
  exists s', Receiver_Receive C s = (IOk m, s') /\ concat s' = tail.
Proof.
  intros (data & H1 & H2 & H3 & ->) Hs Hk.
  pose proof (blen_nonneg data) as H0.
  unfold Receiver_Receive, receiveMessageLengthAndKind, ReadFull.
  destruct (fill_enough s 8 []) as (s1 & E1 & E2).
  { rewrite Hs. rewrite !blen_app. unfold blen. cbn. lia. }
  rewrite E1. cbn [app].
  rewrite Hs in E1, E2 |- *.
  set (h := PutUint32 (blen data) ++ PutUint32 (g_kind (g_content m))) in *.
  assert (length h = 8%nat) as Hh by done.
  rewrite <- app_assoc in E1, E2 |- *.
  change (Z.to_nat 8) with 8%nat in *.
  rewrite firstn_app, Hh, Nat.sub_diag, (firstn_all2 h) by lia.
  rewrite skipn_app, Hh, Nat.sub_diag, (skipn_all2 h) in E2 by lia.
  cbn [firstn app] in E2 |- *. rewrite drop_0 in E2. rewrite app_nil_r.
  replace (firstn 4 h) with (PutUint32 (blen data)) by done.
  replace (skipn 4 h) with (PutUint32 (g_kind (g_content m))) by done.
  rewrite !uint32_put by lia.
  unfold readMessage, ReadFull.
  destruct (fill_enough s1 (blen data) []) as (s2 & E3 & E4).
  { rewrite E2, blen_app. pose proof (blen_nonneg tail). lia. }
  rewrite E3. cbn [app]. rewrite E2 in E4 |- *.
  unfold blen in *. rewrite Nat2Z.id in *.
  rewrite firstn_app, Nat.sub_diag, firstn_all. cbn [firstn].
  rewrite app_nil_r, H3.
  exists s2. split; [done|]. rewrite E4.
  rewrite skipn_app, Nat.sub_diag, skipn_all. done.
Qed.

Lemma receive_judged C n m b s tail :
  framed C m b -> concat s = b ++ tail ->
  0 <= g_kind (g_content m) < 4294967296 ->
  exists s', concat s' = tail /\
    Receive C n s
    = (if decide (g_nonce m = next n) then (next n, IOk m, s')
       else (n, IErr EInvalidMessageNonce, s')).
Proof.
  intros Hm Hs Hk. destruct (frame_read C m b s tail Hm Hs Hk) as (s' & H1 & H2).
  exists s'. split; [done|]. unfold Receive. rewrite H1, <- next_u32.
  destruct (decide _) as [Heq|Hne].
  - rewrite Heq, Z.eqb_refl. done.
  - rewrite (proj2 (Z.eqb_neq _ _) Hne). done.
Qed.

Lemma built_small c : built c -> 0 <= g_kind c < 4294967296.
Proof. intros (_ & H & _). unfold KLastKind in H. lia. Qed.

(** * Many messages *)

Lemma many_judged C ms : forall n s tail bs,
  Forall2 (fun m b => framed C m b /\ 0 <= g_kind (g_content m) < 4294967296)
    ms bs ->
  concat s = concat bs ++ tail ->
  exists n' s', ReceiveMany C n (length ms) s = (n', judged n ms, s')
             /\ concat s' = tail.
Proof.
  induction ms as [|m ms IH]; intros n s tail bs Hm Hs.
  - inversion Hm; subst. cbn. eexists _, _. split; [done|]. done.
  - inversion Hm as [|? b ? bs' [Hf Hk] Hm']; subst. cbn [concat] in Hs.
    rewrite <- app_assoc in Hs.
    destruct (receive_judged C n m b s _ Hf Hs Hk) as (s1 & H1 & H2).
    cbn [length ReceiveMany judged]. rewrite H2.
    destruct (decide (g_nonce m = next n)) as [Heq|Hne].
    + destruct (IH (next n) s1 tail bs' Hm' H1) as (n' & s' & H3 & H4).
      rewrite H3. eauto.
    + destruct (IH n s1 tail bs' Hm' H1) as (n' & s' & H3 & H4).
      rewrite H3. eauto.
Qed.

Lemma send_many C fits cs : forall n,
  carries C fits -> Forall (passes fits) cs ->
  exists n' bs, SendMany C n cs = (n', map IOk bs)
    /\ Forall2 (fun m b => framed C m b /\ 0 <= g_kind (g_content m) < 4294967296)
         (numbered n cs) bs
    /\ (forall s s' rs n'', ReceiveMany C n (length cs) s = (n'', rs, s') ->
          rs = map IOk (numbered n cs) -> n'' = n').
Proof.
  induction cs as [|c cs IH]; intros n HC Hp.
  - exists n, []. cbn. split_and!; [done|constructor|]. intros. congruence.
  - inversion Hp as [|? ? Hc Hcs]; subst.
    destruct (frame_of C fits (next n) c HC Hc (next_range n)) as (b & H1 & H2).
    destruct (IH (next n) HC Hcs) as (n' & bs & H3 & H4 & H5).
    exists n', (b :: bs). cbn [SendMany numbered map].
    unfold Send. rewrite <- next_u32, H1, H3. split_and!; [done| |].
    + constructor; [|done]. split; [done|]. apply built_small. apply Hc.
    + intros s s' rs n'' Hr ->. cbn [length ReceiveMany] in Hr.
      unfold Receive in Hr.
      destruct (Receiver_Receive C s) as [r s1].
      destruct r as [m|e]; [|destruct (ReceiveMany C n (length cs) s1) as [[? ?] ?]; congruence].
      rewrite <- next_u32 in Hr.
      destruct (g_nonce m =? next n) eqn:E; cbn [negb] in Hr.
      * destruct (ReceiveMany C (g_nonce m) (length cs) s1) as [[n2 rs2] s2] eqn:E2.
        injection Hr as <- Hm Hrs <-.
        assert (g_nonce m = next n) as Hn by lia. rewrite Hn in E2.
        eapply H5; [exact E2|done].
      * destruct (ReceiveMany C n (length cs) s1) as [[? ?] ?]; congruence.
Qed.

Lemma judged_numbered cs : forall n, judged n (numbered n cs) = map IOk (numbered n cs).
Proof.
  induction cs as [|c cs IH]; intros n; cbn [judged numbered map]; [done|].
  cbn [g_nonce]. rewrite decide_True by done. rewrite IH. done.
Qed.

Lemma numbered_length cs : forall n, length (numbered n cs) = length cs.
Proof. induction cs; intros; cbn; auto. Qed.

Lemma intact C fits n cs n' bs s tail :
  carries C fits -> Forall (passes fits) cs ->
  SendMany C n cs = (n', map IOk bs) -> concat s = concat bs ++ tail ->
  exists s', ReceiveMany C n (length cs) s
             = (n', map IOk (numbered n cs), s') /\ concat s' = tail.
Proof.
  intros HC Hp Hs Hcat.
  destruct (send_many C fits cs n HC Hp) as (n1 & bs1 & H1 & H2 & H3).
  rewrite Hs in H1. injection H1 as <- Hbs.
  assert (bs = bs1) as <-.
  { clear -Hbs. revert bs1 Hbs. induction bs as [|b bs IH]; intros [|b1 bs1] H;
      cbn in H; try discriminate; [done|]. injection H as -> H. f_equal. auto. }
  destruct (many_judged C (numbered n cs) n s tail bs H2 Hcat) as (n2 & s' & H4 & H5).
  rewrite numbered_length, judged_numbered in H4.
  exists s'. split; [|done]. rewrite H4. f_equal. f_equal.
  eapply H3; [exact H4|done].
Qed.

(** Every message can be sent. *)
Lemma send_total C fits cs n :
  carries C fits -> Forall (passes fits) cs ->
  exists n' bs, SendMany C n cs = (n', map IOk bs).
Proof.
  intros HC Hp. destruct (send_many C fits cs n HC Hp) as (n' & bs & H & _). eauto.
Qed.

Lemma last_cons_default (l : list Z) : forall x d, List.last (x :: l) d = List.last l x.
Proof.
  induction l as [|y l IH]; intros x d; [done|].
  change (List.last (y :: l) d = List.last (y :: l) x). rewrite !IH. done.
Qed.

(** Whatever arrives, the delivered messages are numbered without a gap. *)
Lemma delivered_following C k : forall n s n' rs s',
  ReceiveMany C n k s = (n', rs, s') ->
  map g_nonce (delivered rs) = following n (length (delivered rs))
  /\ n' = List.last (map g_nonce (delivered rs)) n.
Proof.
  induction k as [|k IH]; intros n s n' rs s' H; cbn [ReceiveMany] in H.
  - injection H as <- <- _. done.
  - unfold Receive in H. destruct (Receiver_Receive C s) as [r s1].
    destruct r as [m|e].
    + destruct (g_nonce m =? u32 (n + 1)) eqn:E; cbn [negb] in H.
      * destruct (ReceiveMany C (g_nonce m) k s1) as [[n2 rs2] s2] eqn:E2.
        injection H as <- <- <-. destruct (IH _ _ _ _ _ E2) as [H1 H2].
        assert (g_nonce m = next n) as Hn by (rewrite next_u32; lia).
        cbn [delivered map length following]. rewrite H1.
        rewrite Hn in *. split; [done|]. rewrite H2.
        rewrite H1. symmetry. apply last_cons_default.
      * destruct (ReceiveMany C n k s1) as [[n2 rs2] s2] eqn:E2.
        injection H as <- <- <-. exact (IH _ _ _ _ _ E2).
    + destruct (ReceiveMany C n k s1) as [[n2 rs2] s2] eqn:E2.
      injection H as <- <- <-. exact (IH _ _ _ _ _ E2).
Qed.

Lemma following_mod k : forall n i, (i < k)%nat ->
  following n k !! i = Some ((n + 1 + Z.of_nat i) mod 4294967296).
Proof.
  induction k as [|k IH]; intros n i Hi; [lia|].
  destruct i as [|i]; cbn [following lookup list_lookup].
  - unfold next. f_equal. f_equal. lia.
  - change (following (next n) k !! i = Some ((n + 1 + Z.of_nat (S i)) mod 4294967296)).
    rewrite IH by lia. f_equal. unfold next.
    rewrite <- (Zplus_mod_idemp_l (n + 1) (1 + Z.of_nat i)) at 1 || idtac.
    replace ((n + 1) mod 4294967296 + 1 + Z.of_nat i)
      with ((n + 1) mod 4294967296 + (1 + Z.of_nat i)) by lia.
    rewrite Zplus_mod_idemp_l. f_equal. lia.
Qed.

Lemma following_length k : forall n, length (following n k) = k.
Proof. induction k; intros; cbn; auto. Qed.

Lemma following_nodup n k : Z.of_nat k <= 4294967296 -> NoDup (following n k).
Proof.
  intros Hk. apply NoDup_alt. intros i j x Hi Hj.
  pose proof (lookup_lt_Some _ _ _ Hi) as Li.
  pose proof (lookup_lt_Some _ _ _ Hj) as Lj.
  rewrite following_length in Li, Lj.
  rewrite following_mod in Hi, Hj by done.
  injection Hi as Hi. injection Hj as Hj.
  rewrite <- Hj in Hi. clear Hj.
  pose proof (Z.div_mod (n + 1 + Z.of_nat i) 4294967296 ltac:(lia)) as A.
  pose proof (Z.div_mod (n + 1 + Z.of_nat j) 4294967296 ltac:(lia)) as B.
  rewrite Hi in A.
  set (q := (n + 1 + Z.of_nat i) / 4294967296) in *.
  set (q' := (n + 1 + Z.of_nat j) / 4294967296) in *.
  assert (q = q') by lia. lia.
Qed.

(** * A dialogue *)

Section Dialogue.
  Context {W : Type} (C : codec) (fits : content -> Prop)
    (hook : W -> content -> W * content) (vm : content -> talk).
  Hypothesis HC : carries C fits.

  Lemma receive_next n c b s :
    passes fits c -> framed C (mkMsg (next n) c) b -> concat s = b ->
    exists s', Receive C n s = (next n, IOk (mkMsg (next n) c), s')
               /\ concat s' = [].
  Proof.
    intros [Hf Hb] Hm Hs.
    destruct (receive_judged C n (mkMsg (next n) c) b s []) as (s' & H1 & H2).
    - done.
    - rewrite app_nil_r. done.
    - apply built_small. done.
    - cbn [g_nonce] in H2. rewrite decide_True in H2 by done. eauto.
  Qed.

  Lemma receive_nothing n s : concat s = [] ->
    Receive C n s = (n, IErr EEof, []).
  Proof.
    intros Hs. unfold Receive, Receiver_Receive, receiveMessageLengthAndKind,
      ReadFull. rewrite fill_short; [|rewrite Hs; unfold blen; cbn; lia].
    rewrite Hs. done.
  Qed.

  Lemma send_ok n c : passes fits c ->
    exists b, Send C n c = (next n, IOk b) /\ framed C (mkMsg (next n) c) b.
  Proof.
    intros Hc. destruct (frame_of C fits (next n) c HC Hc (next_range n))
      as (b & H1 & H2).
    exists b. unfold Send. rewrite <- next_u32, H1. done.
  Qed.

  (** The states of a dialogue: [t] is what the virtual machine still does,
      seen from the world [w]. *)
  Inductive phase (w : W) : talk -> system W -> Prop :=
  | ph_ask q k n s bn :
      s_node s = mkNode n w NLoop ->
      s_arwen s = mkArwen (next n) (AAsk k) ->
      concat (to_arwen s) = [] -> concat (to_node s) = bn ->
      framed C (mkMsg (next n) q) bn ->
      proper fits hook w (Ask q k) -> phase w (Ask q k) s
  | ph_say r n s bn :
      s_node s = mkNode n w NLoop ->
      s_arwen s = mkArwen 0 AIdle ->
      concat (to_arwen s) = [] -> concat (to_node s) = bn ->
      framed C (mkMsg (next n) r) bn ->
      passes fits r -> response r -> phase w (Say r) s
  | ph_done r s :
      s_node s = mkNode 0 w (NDone (IOk r)) ->
      s_arwen s = mkArwen 0 AIdle ->
      concat (to_arwen s) = [] -> concat (to_node s) = [] ->
      phase w (Say r) s.

  Inductive pending (w : W) (k : ires content -> talk) (a : content)
    : system W -> Prop :=
  | pn_answer n s ba :
      s_node s = mkNode (next n) w NLoop ->
      s_arwen s = mkArwen n (AAsk k) ->
      concat (to_arwen s) = ba -> concat (to_node s) = [] ->
      framed C (mkMsg (next n) a) ba -> passes fits a ->
      proper fits hook w (k (IOk a)) -> pending w k a s.

  Inductive opening (w : W) (req : content) : system W -> Prop :=
  | op_request n s ba :
      s_node s = mkNode (next n) w NLoop ->
      s_arwen s = mkArwen n AIdle ->
      concat (to_arwen s) = ba -> concat (to_node s) = [] ->
      framed C (mkMsg (next n) req) ba -> opening w req s.

  Lemma advance_phase w n t nd s pieces a b rest :
    proper fits hook w t ->
    nd = mkNode n w NLoop -> s_node s = nd ->
    advance C n t = (a, b) -> concat pieces = b ->
    concat (to_node s) = [] -> concat rest = [] ->
    phase w t (mkSystem nd a rest (to_node s ++ pieces)).
  Proof.
    intros Ht -> Hnd Hadv Hp Hn Hr. destruct t as [r|q k]; [destruct Ht as [Hr1 Hr2]|destruct Ht as (Hq1 & Hq2 & Ha & Hk)].
    - cbn [advance] in Hadv. destruct (send_ok n r Hr1) as (b1 & E1 & E2).
      rewrite E1 in Hadv. injection Hadv as <- <-.
      eapply ph_say; cbn; try done.
      rewrite concat_app, Hn, Hp. exact E2.
    - cbn [advance] in Hadv. destruct (send_ok n q Hq1) as (b1 & E1 & E2).
      rewrite E1 in Hadv. injection Hadv as <- <-.
      eapply ph_ask; cbn; try done.
      rewrite concat_app, Hn, Hp. exact E2.
  Qed.

  Lemma question_facts q : question q -> built q ->
    IsHookCall q = true /\ mem_kind (g_kind q) node_repliers = true.
  Proof.
    intros Hq _. unfold IsHookCall. unfold question in Hq.
    repeat (destruct Hq as [Hq|Hq]; [rewrite Hq; split; reflexivity|]).
    rewrite Hq; split; reflexivity.
  Qed.

  Lemma response_facts r : response r ->
    IsHookCall r = false
    /\ IsVersionResponse r || IsContractResponse r || IsDiagnose r
       || IsGasScheduleChangeResponse r = true.
  Proof.
    intros Hq. unfold IsHookCall, IsVersionResponse, IsContractResponse,
      IsDiagnose, IsGasScheduleChangeResponse.
    destruct Hq as [Hq|[Hq|Hq]]; rewrite Hq; split; reflexivity.
  Qed.

  Lemma node_answer w n q nd b :
    passes fits q -> question q -> passes fits (snd (hook w q)) ->
    node_take C hook (mkNode (W:=W) n w NLoop) (next n, IOk (mkMsg (next n) q)) = (nd, b) ->
    nd = mkNode (next (next n)) (fst (hook w q)) NLoop
    /\ framed C (mkMsg (next (next n)) (snd (hook w q))) b.
  Proof.
    intros Hp Hq Ha. destruct (question_facts q Hq (proj2 Hp)) as [E1 E2].
    unfold node_take. cbn [g_content n_world]. rewrite E1, E2.
    destruct Hp as [Hf (Ht & Hk & Hu)]. rewrite Ht, Z.eqb_refl.
    destruct (hook w q) as [w' a]. cbn [fst snd] in *.
    destruct (send_ok (next n) a Ha) as (b1 & E3 & E4). rewrite E3.
    intros H. injection H as <- <-. done.
  Qed.

  Lemma node_finish w n r nd b :
    response r ->
    node_take C hook (mkNode (W:=W) n w NLoop) (next n, IOk (mkMsg (next n) r)) = (nd, b) ->
    nd = mkNode 0 w (NDone (IOk r)) /\ b = [].
  Proof.
    intros Hr. destruct (response_facts r Hr) as [E1 E2].
    unfold node_take. cbn [g_content n_world]. rewrite E1, E2.
    intros H. injection H as <- <-. done.
  Qed.

  Lemma request_reply req n a b :
    request req -> built req ->
    arwen_take C vm (mkArwen n AIdle) (next n, IOk (mkMsg (next n) req)) = (a, b) ->
    advance C (next n) (vm req) = (a, b).
  Proof.
    intros Hr (Ht & _ & _). unfold arwen_take. cbn [a_at g_content].
    assert (IsStopRequest req = false /\ replyToNodeRequest vm req = Some (vm req))
      as [E1 E2].
    { unfold IsStopRequest, replyToNodeRequest. rewrite Ht.
      destruct Hr as [Hr|[Hr|[Hr|Hr]]]; rewrite Hr; split; reflexivity. }
    rewrite E1, E2. done.
  Qed.

  Definition goes_on (R : system W -> Prop) (s : system W) : Prop :=
    (exists s', step C hook vm s s') /\ forall s', step C hook vm s s' -> R s'.

  Lemma opening_step w req s :
    passes fits req -> request req -> proper fits hook w (vm req) ->
    opening w req s -> goes_on (phase w (vm req)) s.
  Proof.
    intros Hreq Hr Hv Hop. destruct Hop as [n s ba H1 H2 H3 H4 H5].
    destruct (receive_next n req ba (to_arwen s) Hreq H5 H3) as (rest & E1 & E2).
    split.
    - destruct (arwen_take C vm (s_arwen s) (next n, IOk (mkMsg (next n) req)))
        as [a b] eqn:Et.
      eexists. eapply (step_arwen C hook vm s (next n) _ rest a b [b]).
      + rewrite H2. done.
      + rewrite H2. exact E1.
      + done.
      + exact Et.
      + cbn. apply app_nil_r.
    - intros s' Hst. inversion Hst as [? n1 r1 rest1 a1 b1 p1 A1 A2 A3 A4 A5
        |? n1 r1 rest1 a1 b1 p1 A1 A2 A3 A4 A5]; subst.
      + rewrite H2 in A2. cbn [a_nonce] in A2. rewrite E1 in A2.
        injection A2 as <- <- <-. rewrite H2 in A4.
        apply request_reply in A4; [|done|apply Hreq].
        eapply (advance_phase w (next n) (vm req)); try done.
      + rewrite H1 in A2. cbn [n_nonce] in A2.
        rewrite (receive_nothing _ _ H4) in A2. injection A2 as <- <- <-.
        rewrite H2 in A3. destruct A3; discriminate.
  Qed.

  Lemma ask_step w q k n s bn :
    s_node s = mkNode n w NLoop ->
    s_arwen s = mkArwen (next n) (AAsk k) ->
    concat (to_arwen s) = [] -> concat (to_node s) = bn ->
    framed C (mkMsg (next n) q) bn ->
    proper fits hook w (Ask q k) ->
    goes_on (pending (fst (hook w q)) k (snd (hook w q))) s.
  Proof.
    intros H1 H2 H3 H4 H5 (Hq1 & Hq2 & Ha & Hk). subst.
    destruct (receive_next n q _ (to_node s) Hq1 H5 eq_refl) as (rest & E1 & E2).
    split.
    - destruct (node_take C hook (s_node s) (next n, IOk (mkMsg (next n) q)))
        as [nd b] eqn:Et.
      eexists. eapply (step_node C hook vm s (next n) _ rest nd b [b]).
      + rewrite H1. done.
      + rewrite H1. exact E1.
      + left. done.
      + exact Et.
      + cbn. apply app_nil_r.
    - intros s' Hst. inversion Hst as [? n1 r1 rest1 a1 b1 p1 A1 A2 A3 A4 A5
        |? n1 r1 rest1 a1 b1 p1 A1 A2 A3 A4 A5]; subst.
      + rewrite H2 in A2. cbn [a_nonce] in A2.
        rewrite (receive_nothing _ _ H3) in A2. injection A2 as <- <- <-.
        discriminate.
      + rewrite H1 in A2, A4. cbn [n_nonce] in A2. rewrite E1 in A2.
        injection A2 as <- <- <-.
        destruct (node_answer w n q a1 (concat p1) Hq1 Hq2 Ha A4) as [-> Hf].
        eapply pn_answer; cbn [s_node s_arwen to_arwen to_node];
          [done|exact H2| |exact E2|exact Hf|done|auto].
        rewrite concat_app, H3. done.
  Qed.

  Lemma answer_step w k a s :
    pending w k a s -> goes_on (phase w (k (IOk a))) s.
  Proof.
    intros [n s0 ba H1 H2 H3 H4 H5 Ha Hp]. clear s. rename s0 into s.
    destruct (receive_next n a _ (to_arwen s) Ha H5 H3) as (rest & E1 & E2).
    split.
    - destruct (arwen_take C vm (s_arwen s) (next n, IOk (mkMsg (next n) a)))
        as [x b] eqn:Et.
      eexists. eapply (step_arwen C hook vm s (next n) _ rest x b [b]).
      + rewrite H2. done.
      + rewrite H2. exact E1.
      + done.
      + exact Et.
      + cbn. apply app_nil_r.
    - intros s' Hst. inversion Hst as [? n1 r1 rest1 a1 b1 p1 A1 A2 A3 A4 A5
        |? n1 r1 rest1 a1 b1 p1 A1 A2 A3 A4 A5]; subst.
      + rewrite H2 in A2, A4. cbn [a_nonce] in A2. rewrite E1 in A2.
        injection A2 as <- <- <-. unfold arwen_take in A4.
        cbn [a_at g_content] in A4.
        eapply (advance_phase w (next n) (k (IOk a))); try done.
      + rewrite H1 in A2. cbn [n_nonce] in A2.
        rewrite (receive_nothing _ _ H4) in A2. injection A2 as <- <- <-.
        rewrite H2 in A3. destruct A3; discriminate.
  Qed.

  Definition finished (res : W * content) (s : system W) : Prop :=
    s_node s = mkNode 0 (fst res) (NDone (IOk (snd res)))
    /\ s_arwen s = mkArwen 0 AIdle
    /\ concat (to_arwen s) = [] /\ concat (to_node s) = [].

  Lemma finished_stuck res s s' :
    finished res s -> ~ step C hook vm s s'.
  Proof.
    intros (H1 & H2 & H3 & H4) Hst.
    inversion Hst as [? n1 r1 rest1 a1 b1 p1 A1 A2 A3 A4 A5
        |? n1 r1 rest1 a1 b1 p1 A1 A2 A3 A4 A5]; subst.
    - rewrite H2 in A2. rewrite (receive_nothing _ _ H3) in A2.
      injection A2 as <- <- <-. discriminate.
    - rewrite H1 in A1. discriminate.
  Qed.

  Lemma say_step w r n s bn :
    s_node s = mkNode n w NLoop ->
    s_arwen s = mkArwen 0 AIdle ->
    concat (to_arwen s) = [] -> concat (to_node s) = bn ->
    framed C (mkMsg (next n) r) bn ->
    passes fits r -> response r -> goes_on (finished (w, r)) s.
  Proof.
    intros H1 H2 H3 H4 H5 Hr1 Hr2.
    destruct (receive_next n r _ (to_node s) Hr1 H5 H4) as (rest & E1 & E2).
    split.
    - destruct (node_take C hook (s_node s) (next n, IOk (mkMsg (next n) r)))
        as [nd b] eqn:Et.
      eexists. eapply (step_node C hook vm s (next n) _ rest nd b [b]).
      + rewrite H1. done.
      + rewrite H1. exact E1.
      + left. done.
      + exact Et.
      + cbn. apply app_nil_r.
    - intros s' Hst. inversion Hst as [? n1 r1 rest1 a1 b1 p1 A1 A2 A3 A4 A5
        |? n1 r1 rest1 a1 b1 p1 A1 A2 A3 A4 A5]; subst.
      + rewrite H2 in A2. cbn [a_nonce] in A2.
        rewrite (receive_nothing _ _ H3) in A2. injection A2 as <- <- <-.
        discriminate.
      + rewrite H1 in A2, A4. cbn [n_nonce] in A2. rewrite E1 in A2.
        injection A2 as <- <- <-.
        destruct (node_finish w n r a1 (concat p1) Hr2 A4) as [-> Hf].
        split_and!; cbn [s_node s_arwen to_arwen to_node fst snd]; try done.
        rewrite concat_app, H3, Hf. done.
  Qed.

  Lemma phase_ends t : forall w s,
    phase w t s ->
    ends (step C hook vm) (finished (in_process hook w t)) s.
  Proof.
    induction t as [r|q k IH]; intros w s Hph.
    - inversion Hph as [|? n ? bn H1 H2 H3 H4 H5 H6 H7|? ? H1 H2 H3 H4]; subst.
      + destruct (say_step w r n s _ H1 H2 H3 eq_refl H5 H6 H7) as [E1 E2].
        apply ends_later; [done|]. intros s' Hs'. specialize (E2 s' Hs').
        apply ends_now; [done|]. intros s''. eapply finished_stuck. exact E2.
      + apply ends_now; [split_and!; done|].
        intros s''. eapply (finished_stuck (w, r)). split_and!; done.
    - inversion Hph as [? ? n ? bn H1 H2 H3 H4 H5 H6| |]; subst.
      destruct (ask_step w q k n s _ H1 H2 H3 eq_refl H5 H6) as [E1 E2].
      apply ends_later; [done|]. intros s' Hs'.
      destruct (answer_step _ _ _ _ (E2 s' Hs')) as [E3 E4].
      apply ends_later; [done|]. intros s'' Hs''.
      cbn [in_process]. specialize (IH (IOk (snd (hook w q))) _ _ (E4 s'' Hs'')).
      destruct (hook w q) as [w' a]. exact IH.
  Qed.

  Theorem dialogue w req nd b pieces :
    passes fits req -> request req -> proper fits hook w (vm req) ->
    StartLoop C 0 w req = (nd, b) -> concat pieces = b ->
    ends (step C hook vm)
      (finished (in_process hook w (vm req)))
      (mkSystem nd (mkArwen 0 AIdle) pieces []).
  Proof.
    intros Hp Hr Hv Hs Hb. unfold StartLoop in Hs.
    destruct (send_ok 0 req Hp) as (b1 & E1 & E2). rewrite E1 in Hs.
    injection Hs as <- <-.
    destruct (opening_step w req (mkSystem (mkNode (next 0) w NLoop) (mkArwen 0 AIdle) pieces []))
      as [A B]; [done..| |].
    - eapply op_request; cbn; done.
    - apply ends_later; [done|]. intros s' Hs'. apply phase_ends. auto.
  Qed.

  (** A question the node has a replier for but does not recognise. *)
  Lemma unheard_ends w req nd b pieces q k :
    passes fits req -> request req -> vm req = Ask q k ->
    passes fits q -> unheard q ->
    StartLoop C 0 w req = (nd, b) -> concat pieces = b ->
    ends (step C hook vm)
      (fun s => n_at (s_node s) = NDone (IErr EBadMessageFromArwen)
                /\ n_world (s_node s) = w)
      (mkSystem nd (mkArwen 0 AIdle) pieces []).
  Proof.
    intros Hp Hr Hv Hq Hu Hs Hb. unfold StartLoop in Hs.
    destruct (send_ok 0 req Hp) as (b1 & E1 & E2). rewrite E1 in Hs.
    injection Hs as <- <-.
    destruct (receive_next 0 req b1 pieces Hp E2 Hb) as (rest & F1 & F2).
    set (s0 := mkSystem _ _ _ _). apply ends_later.
    { destruct (arwen_take C vm (mkArwen 0 AIdle) (next 0, IOk (mkMsg (next 0) req)))
        as [x b2] eqn:Et.
      eexists. eapply (step_arwen C hook vm s0 (next 0) _ rest x b2 [b2]); try done.
      cbn. apply app_nil_r. }
    intros s' Hst. subst s0.
    inversion Hst as [? n1 r1 rest1 a1 b3 p1 A1 A2 A3 A4 A5
        |? n1 r1 rest1 a1 b3 p1 A1 A2 A3 A4 A5]; subst;
      cbn [s_node s_arwen to_arwen to_node a_nonce n_nonce] in *.
    2:{ rewrite receive_nothing in A2 by done. injection A2 as <- <- <-.
        destruct A3; discriminate. }
    rewrite F1 in A2. injection A2 as <- <- <-.
    apply request_reply in A4; [|done|apply Hp]. rewrite Hv in A4.
    cbn [advance] in A4.
    destruct (send_ok (next 0) q Hq) as (b4 & G1 & G2). rewrite G1 in A4.
    injection A4 as <- Hb4.
    set (nd := mkNode (next 0) w NLoop) in *.
    destruct (receive_next (next 0) q b4 p1 Hq G2 (eq_sym Hb4)) as (rest2 & I1 & I2).
    assert (node_take C hook nd (next (next 0), IOk (mkMsg (next (next 0)) q))
            = (node_end w (IErr EBadMessageFromArwen), [])) as Hn.
    { unfold node_take. cbn [g_content n_world nd].
      unfold IsHookCall, IsVersionResponse, IsContractResponse, IsDiagnose,
        IsGasScheduleChangeResponse.
      destruct Hu as [E|[E|[E|[E|E]]]]; rewrite E; reflexivity. }
    set (s1 := mkSystem _ _ _ _). apply ends_later.
    { eexists. eapply (step_node C hook vm s1 (next (next 0)) _ rest2 _ [] []);
        try done. left. done. }
    intros s' Hst2. subst s1.
    inversion Hst2 as [? n1 r1 rest3 a3 b5 p2 B1 B2 B3 B4 B5
        |? n1 r1 rest3 a3 b5 p2 B1 B2 B3 B4 B5]; subst;
      cbn [s_node s_arwen to_arwen to_node a_nonce n_nonce] in *.
    { rewrite receive_nothing in B2 by done. injection B2 as <- <- <-.
      discriminate. }
    change (n_nonce nd) with (next 0) in B2.
    rewrite app_nil_l in B2. rewrite I1 in B2. injection B2 as <- <- <-.
    rewrite Hn in B4. injection B4 as <- Hp2.
    apply ends_now; [done|]. intros s' Hst3.
    inversion Hst3 as [? n1 r1 rest4 a4 b6 p3 D1 D2 D3 D4 D5
        |? n1 r1 rest4 a4 b6 p3 D1 D2 D3 D4 D5]; subst;
      cbn [s_node s_arwen to_arwen to_node a_nonce n_nonce] in *.
    - rewrite receive_nothing in D2; [injection D2 as <- <- <-; discriminate|].
      rewrite concat_app, F2, <- Hp2. done.
    - discriminate.
  Qed.
End Dialogue.

(** * A message of a type nobody registered *)

Lemma gas_schedule_ends {W} C fits hook vm (w : W) req nd b pieces :
  strips C fits -> fits req ->
  g_type req = TOf KGasScheduleChangeRequest ->
  g_kind req = KGasScheduleChangeRequest ->
  StartLoop C 0 w req = (nd, b) -> concat pieces = b ->
  ends (step C hook vm)
    (fun s => n_at (s_node s) = NDone (IErr EEof) /\ a_at (s_arwen s) = APanic)
    (mkSystem nd (mkArwen 0 AIdle) pieces []).
Proof.
  intros HC Hf Ht Hk Hs Hb.
  destruct (HC (next 0) req (next_range 0) Hf) as (data & E1 & E2 & E3).
  unfold StartLoop, Send, Sender_Send in Hs. rewrite <- next_u32, E1 in Hs.
  cbn [g_content] in Hs. injection Hs as <- Hbb. symmetry in Hbb.
  change (b = (PutUint32 (u32 (blen data)) ++ PutUint32 (u32 (g_kind req))) ++ data) in Hbb.
  set (got := mkMsg (next 0) (mkContent TUndefined (g_kind req) (g_error req) [])).
  assert (exists rest, Receive C 0 pieces = (next 0, IOk got, rest)
                       /\ concat rest = []) as (rest & F1 & F2).
  { pose proof (blen_nonneg data) as H0.
    unfold Receive, Receiver_Receive, receiveMessageLengthAndKind, ReadFull.
    set (h := PutUint32 (u32 (blen data)) ++ PutUint32 (u32 (g_kind req))) in *.
    assert (length h = 8%nat) as Hh by done.
    destruct (fill_enough pieces 8 []) as (s1 & G1 & G2).
    { rewrite Hb, Hbb, blen_app. change (blen h) with 8. lia. }
    rewrite G1. cbn [app]. rewrite Hb, Hbb in G1, G2 |- *.
    change (Z.to_nat 8) with 8%nat in *.
    rewrite firstn_app, Hh, Nat.sub_diag, (firstn_all2 h) by lia.
    rewrite skipn_app, Hh, Nat.sub_diag, (skipn_all2 h), drop_0 in G2 by lia.
    cbn [firstn app] in G2 |- *. rewrite app_nil_r.
    replace (firstn 4 h) with (PutUint32 (u32 (blen data))) by done.
    replace (skipn 4 h) with (PutUint32 (u32 (g_kind req))) by done.
    rewrite (u32_id (blen data)) by (unfold in_u32; lia).
    rewrite (u32_id (g_kind req)) by (rewrite Hk; unfold in_u32, KGasScheduleChangeRequest; lia).
    rewrite !uint32_put by (rewrite ?Hk; unfold KGasScheduleChangeRequest; lia).
    unfold readMessage, ReadFull.
    destruct (fill_enough s1 (blen data) []) as (s2 & G3 & G4).
    { rewrite G2. lia. }
    rewrite G3. cbn [app]. rewrite G2 in G4 |- *.
    unfold blen in *. rewrite Nat2Z.id in *.
    rewrite firstn_all. rewrite E3.
    - cbn [g_nonce]. rewrite <- next_u32, Z.eqb_refl. cbn [negb].
      exists s2. split; [done|]. rewrite G4, skipn_all. done.
    - rewrite Hk. reflexivity. }
  assert (arwen_take C vm (mkArwen 0 AIdle) (next 0, IOk got)
          = (mkArwen (next 0) APanic, [])) as Hat.
  { unfold arwen_take. cbn [a_at g_content got].
    unfold IsStopRequest, replyToNodeRequest. cbn [g_kind g_type].
    rewrite Hk. reflexivity. }
  set (s0 := mkSystem _ _ _ _). apply ends_later.
  { eexists. eapply (step_arwen C hook vm s0 (next 0) _ rest _ [] []); done. }
  intros s' Hst. subst s0.
  inversion Hst as [? n1 r1 rest1 a1 b3 p1 A1 A2 A3 A4 A5
      |? n1 r1 rest1 a1 b3 p1 A1 A2 A3 A4 A5]; subst;
    cbn [s_node s_arwen to_arwen to_node a_nonce n_nonce] in *.
  2:{ rewrite receive_nothing in A2 by done. injection A2 as <- <- <-.
      destruct A3; discriminate. }
  rewrite F1 in A2. injection A2 as <- <- <-. rewrite Hat in A4.
  injection A4 as <- Hp1.
  set (nd := mkNode (next 0) w NLoop).
  set (s1 := mkSystem _ _ _ _).
  assert (Receive C (next 0) ([] ++ p1) = (next 0, IErr EEof, [])) as Hr.
  { apply receive_nothing. rewrite app_nil_l. done. }
  apply ends_later.
  { eexists. eapply (step_node C hook vm s1 (next 0) (IErr EEof) [] (node_end w (IErr EEof)) [] []);
      [done|exact Hr|right; done|done|done]. }
  intros s' Hst2. subst s1.
  inversion Hst2 as [? n1 r1 rest3 a3 b5 p2 B1 B2 B3 B4 B5
      |? n1 r1 rest3 a3 b5 p2 B1 B2 B3 B4 B5]; subst;
    cbn [s_node s_arwen to_arwen to_node a_nonce n_nonce] in *.
  { discriminate. }
  change (n_nonce nd) with (next 0) in B2. rewrite Hr in B2.
  injection B2 as <- <- <-. unfold node_take in B4.
  injection B4 as <- Hp2.
  apply ends_now; [done|]. intros s' Hst3.
  inversion Hst3; subst; cbn in *; discriminate.
Qed.

(** * Messages too long for their own length *)

Lemma long_received C m data j :
  Marshal C m = IOk data -> blen data = 4294967296 + j -> 0 <= j < 4294967296 ->
  0 <= g_kind (g_content m) < 4294967296 ->
  exists b, Sender_Send C m = IOk b /\
  exists s', Receiver_Receive C [b]
    = (Unmarshal C (CreateMessage (g_kind (g_content m))) (firstn (Z.to_nat j) data), s')
    /\ concat s' = skipn (Z.to_nat j) data.
Proof.
  intros H1 H2 Hj Hk. unfold Sender_Send. rewrite H1. eexists. split; [done|].
  set (h := PutUint32 (u32 (blen data)) ++ PutUint32 (u32 (g_kind (g_content m)))).
  assert (length h = 8%nat) as Hh by done.
  unfold Receiver_Receive, receiveMessageLengthAndKind, ReadFull.
  destruct (fill_enough [h ++ data] 8 []) as (s1 & G1 & G2).
  { cbn [concat]. rewrite !blen_app. change (blen h) with 8.
    unfold blen; cbn [length]. lia. }
  rewrite G1. cbn [concat] in G1, G2 |- *. rewrite app_nil_r in G1, G2 |- *.
  cbn [app]. change (Z.to_nat 8) with 8%nat in *.
  rewrite firstn_app, Hh, Nat.sub_diag, (firstn_all2 h) by lia.
  rewrite skipn_app, Hh, Nat.sub_diag, (skipn_all2 h), drop_0 in G2 by lia.
  cbn [firstn app] in G2 |- *. rewrite app_nil_r.
  replace (firstn 4 h) with (PutUint32 (u32 (blen data))) by done.
  replace (skipn 4 h) with (PutUint32 (u32 (g_kind (g_content m)))) by done.
  rewrite (u32_id (g_kind _)) by done.
  assert (u32 (blen data) = j) as ->.
  { rewrite H2. unfold u32. rewrite Z.add_comm.
    replace (j + 4294967296) with (j + 1 * 4294967296) by lia.
    rewrite Z.mod_add by lia. apply Z.mod_small. lia. }
  rewrite !uint32_put by lia.
  unfold readMessage, ReadFull.
  destruct (fill_enough s1 j []) as (s2 & G3 & G4).
  { rewrite G2. lia. }
  rewrite G3. cbn [app]. rewrite G2 in G4 |- *. eauto.
Qed.

(** * The rest of the runs *)

Lemma ends_run {S} (R : S -> S -> Prop) Q s s' :
  ends R Q s -> rtc R s s' -> ends R Q s'.
Proof.
  intros H Hr. revert H. induction Hr as [|x y z Hxy Hyz IH]; intros H; [done|].
  apply IH. destruct H as [_ Hn|_ Hl]; [exfalso; eapply Hn; eauto|eauto].
Qed.

Lemma any_judged C fits nonce ms frames pieces behind :
  carries C fits ->
  Forall (fun m => passes fits (g_content m) /\ 0 <= g_nonce m < 4294967296) ms ->
  Forall2 (fun m b => Sender_Send C m = IOk b) ms frames ->
  concat pieces = concat frames ++ behind ->
  exists nonce' rest,
    ReceiveMany C nonce (length ms) pieces = (nonce', judged nonce ms, rest)
    /\ concat rest = behind.
Proof.
  intros HC Hm Hf Hc. eapply many_judged; [|exact Hc].
  clear Hc. induction Hf as [|m b ms bs Hmb Hf IH]; [constructor|].
  inversion Hm as [|? ? [Hp Hn] Hm']; subst. constructor; [|auto].
  destruct m as [n c]. cbn [g_content g_nonce] in *.
  destruct (frame_of C fits n c HC Hp Hn) as (b' & H1 & H2).
  rewrite Hmb in H1. injection H1 as <-. split; [done|].
  apply built_small. apply Hp.
Qed.

Lemma replayed C fits req : carries C fits -> passes fits req ->
  exists frame, Send C 0 req = (1, IOk frame) /\
  exists rest, Receive C 0 [frame] = (1, IOk (mkMsg 1 req), rest) /\
  exists rest', Receive C ResetDialogue [frame] = (1, IOk (mkMsg 1 req), rest').
Proof.
  intros HC Hp. destruct (send_ok C fits HC 0 req Hp) as (b & H1 & H2).
  exists b. split; [exact H1|].
  destruct (receive_next C fits 0 req b [b] Hp H2) as (rest & H3 & _).
  { cbn. apply app_nil_r. }
  exists rest. split; [exact H3|]. exists rest. exact H3.
Qed.

Lemma stray {W} C fits (hook : W -> content -> W * content) vm nd n k m frame pieces behind out :
  carries C fits -> passes fits (g_content m) -> 0 <= g_nonce m < 4294967296 ->
  Sender_Send C m = IOk frame -> concat pieces = frame ++ behind -> g_nonce m <> next n ->
  let '(a, bytes) := advance C n (k (IErr ECannotReceiveHookCallResponse)) in
  exists rest, concat rest = behind /\
    step C hook vm (mkSystem nd (mkArwen n (AAsk k)) pieces out) (mkSystem nd a rest (out ++ [bytes])).
Proof.
  intros HC Hp Hr Hs Hc Hn. destruct (advance C n (k _)) as [a b] eqn:Ha.
  destruct (any_judged C fits n [m] [frame] pieces behind HC) as (n' & rest & H & Hrest).
  { constructor; [split; assumption|constructor]. }
  { constructor; [exact Hs|constructor]. }
  { cbn. rewrite app_nil_r. exact Hc. }
  cbn [length ReceiveMany judged] in H. destruct (decide (g_nonce m = next n)) as [E1|_]; [contradiction|].
  destruct (Receive C n pieces) as [[n1 r1] rest1] eqn:HR. injection H as -> -> ->.
  assert (n' = n) as ->.
  { revert HR. unfold Receive. repeat case_match; intros; simplify_eq; reflexivity. }
  exists rest. split; [exact Hrest|].
  refine (step_arwen C hook vm (mkSystem nd (mkArwen n (AAsk k)) pieces out) n _ rest a b [b] _ HR _ _ _); try reflexivity.
  - cbn [arwen_take a_at s_arwen]. exact Ha.
  - cbn. apply app_nil_r.
Qed.
