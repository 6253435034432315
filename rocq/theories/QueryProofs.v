(** Proofs for C59. *)
From Verif Require Import VmModel WpProofs CodecSpec CodecProofs MemSpec MemProofs BigSpec QuerySpec IdentSpec.
From Verif Require StoProofs.
From Coq Require Import ZifyBool ZifyNat ZifyN.

(** * The hosts reached by a function touching only memory, gas counter, handles
    and output *)
Section engine.
Context `{E : env} (ed : edf) (es : call_input -> M unit) (h : host) (i : nat) (x : inst) (H : running_as h i x).

Definition St (g : Z) (m : memory) (b : gmap Z Z) (o : vm_output) : host :=
  set_h_out o (set_h_big b (with_inst i (set_in_mem m (set_in_points g x)) h)).
Lemma St_start : h = St (in_points x) (in_mem x) (h_big h) (h_out h).
Proof.
  unfold St. replace (set_in_mem (in_mem x) (set_in_points (in_points x) x)) with x by (destruct x; reflexivity).
  rewrite (with_inst_same _ _ _ H). destruct h. reflexivity.
Qed.
Lemma St_running g m b o : running_as (St g m b o) i (set_in_mem m (set_in_points g x)).
Proof. apply (running_with_inst _ _ _ (set_in_mem m (set_in_points g x))) in H. exact H. Qed.
Lemma St_set g m b o g' m' :
  with_inst i (set_in_mem m' (set_in_points g' x)) (St g m b o) = St g' m' b o.
Proof.
  unfold St, with_inst. cbn [h_insts set_h_out set_h_big set_h_insts].
  change (h_insts (set_h_out o (set_h_big b (set_h_insts (<[i:=set_in_mem m (set_in_points g x)]> (h_insts h)) h))))
    with (<[i:=set_in_mem m (set_in_points g x)]> (h_insts h)).
  rewrite insert_insert. reflexivity.
Qed.

Lemma s_use g m b o q k : run_cmd ed es (use q k) (St g m b o) = run_cmd ed es k (St (more_points g q) m b o).
Proof.
  rewrite (run_use _ _ _ _ _ _ _ (St_running g m b o)).
  change (set_in_points (more_points (in_points (set_in_mem m (set_in_points g x))) q) (set_in_mem m (set_in_points g x)))
    with (set_in_mem m (set_in_points (more_points g q) x)).
  rewrite St_set. reflexivity.
Qed.
Lemma load_at (m : memory) off len d : bytes_at (m_data m) off len d -> in_i32 off -> in_i32 len -> blen (m_data m) <= max_i32 ->
  MemLoad m off len = ROk d.
Proof.
  intros [[-> ->]|(Hl & Ho & ->)] H1 H2 H3; [reflexivity|].
  destruct (c03_read m off len H1 H2 H3) as (He & Hd & Hp).
  destruct (MemLoad m off len) as [d|e|] eqn:Hm; [|exfalso; destruct (proj1 He (ex_intro _ e eq_refl)); lia|congruence].
  rewrite (Hd d eq_refl). reflexivity.
Qed.
Lemma s_load g m b o off len r k d : bytes_at (m_data m) off len d -> in_i32 off -> in_i32 len -> blen (m_data m) <= max_i32 ->
  run_cmd ed es (load off len r k) (St g m b o) = run_cmd ed es (k d) (St g m b o).
Proof.
  intros Hb H1 H2 H3. unfold load. rewrite run_get, (mem_load_run _ _ _ _ _ (St_running g m b o)).
  change (in_mem (set_in_mem m (set_in_points g x))) with m. rewrite (load_at _ _ _ _ Hb H1 H2 H3). reflexivity.
Qed.
Lemma s_store g m b o off d r k m' : MemStore m off d = (m', ROk tt) ->
  run_cmd ed es (store off d r k) (St g m b o) = run_cmd ed es k (St g m' b o).
Proof.
  intros Hs. unfold store. pose proof (St_running g m b o) as Hr.
  erewrite StoProofs.run_or_fault_ok; [|cbn [interp]; apply (StoProofs.mem_store_run _ i _ _ _ m' tt Hr); exact Hs].
  change (set_in_mem m' (set_in_mem m (set_in_points g x))) with (set_in_mem m' (set_in_points g x)). rewrite St_set. reflexivity.
Qed.
Lemma s_big_get g m b o y k : exists b', run_cmd ed es (act (QBigGet y) k) (St g m b o) = run_cmd ed es (k (bval b y)) (St g m b' o) /\
  forall z, bval b' z = bval b z.
Proof.
  unfold act. rewrite run_do. cbn [interp]. unfold big_op. change (h_big (St g m b o)) with b.
  unfold big_get. unfold bval at 1. destruct (b !! y) as [v|] eqn:Hy; [exists b; split; reflexivity|].
  exists (<[y := 0]> b). split; [reflexivity|]. intros z. unfold bval. destruct (decide (z = y)) as [->|Hn].
  - rewrite lookup_insert, Hy. reflexivity.
  - rewrite lookup_insert_ne by congruence. reflexivity.
Qed.
Lemma s_big_set g m b o y v k : run_cmd ed es (act (QBigSet y v) k) (St g m b o) = run_cmd ed es (k tt) (St g m (<[y := v]> b) o).
Proof. reflexivity. Qed.
Lemma bval_set (b : gmap Z Z) y v z : bval (<[y := v]> b) z = if z =? y then v else bval b z.
Proof.
  unfold bval. destruct (Z.eqb_spec z y) as [->|Hn]; [rewrite lookup_insert|rewrite lookup_insert_ne by congruence]; reflexivity.
Qed.
End engine.

(** * Byte forms *)
Lemma unsigned_bytes_is z d : unsigned_bytes z d <-> d = be_encode z.
Proof.
  split.
  - intros [Hv Hl]. assert (Hn : no_lead0 d) by (destruct d as [|a l]; [exact I|exact (Hl a l eq_refl)]).
    rewrite <-(be_encode_decode d Hn), be_decode_value, Hv. unfold be_encode. rewrite Z.abs_involutive. reflexivity.
  - intros ->. split; [rewrite <-be_decode_value; apply be_decode_encode|].
    intros a l Hd. pose proof (be_encode_lead z) as Hn. rewrite Hd in Hn. exact Hn.
Qed.
Lemma signed_bytes_is z d : signed_bytes z d <-> d = twos_encode z.
Proof.
  split.
  - intros [Hv Hl]. apply twos_inj_len; [|rewrite twos_decode_encode, twos_decode_value; exact Hv].
    assert (length (twos_encode z) <= length d)%nat by (apply twos_minimal; rewrite twos_decode_value; exact Hv).
    assert (length d <= length (twos_encode z))%nat by (apply Hl; rewrite <-twos_decode_value; apply twos_decode_encode). lia.
  - intros ->. split; [rewrite <-twos_decode_value; apply twos_decode_encode|]. intros l Hl. apply twos_minimal. rewrite twos_decode_value. exact Hl.
Qed.

(** * The queries *)
Section queries.
Context `{E : env} (ed : edf) (es : call_input -> M unit) (h : host) (i : nat) (x : inst) (H : running_as h i x) (o : vm_output).

Definition ends (k : cmd) (g : Z) (m : memory) (b : gmap Z Z) (hs : list (Z * Z)) (r : Z) (m' : memory) : Prop :=
  exists g' b', run_cmd ed es k (St h i x g m b o) = (St h i x g' m' b' o, OOk r) /\
    forall y, bval b' y = assigned hs (bval b) y.

Lemma e_ret g m b r : ends (CRet r) g m b [] r m.
Proof. exists g, b. split; reflexivity. Qed.
Lemma e_use q k g m b hs r m' : (forall g', ends k g' m b hs r m') -> ends (use q k) g m b hs r m'.
Proof. intros Hk. destruct (Hk (more_points g q)) as (g' & b' & H1 & H2). exists g', b'. rewrite (s_use _ _ _ _ _ H). split; assumption. Qed.
Lemma e_get {B} (f : host -> B) k g m b hs r m' : ends (k (f (St h i x g m b o))) g m b hs r m' -> ends (ApiModel.get f k) g m b hs r m'.
Proof. intros Hk. unfold ends. rewrite run_get. exact Hk. Qed.
Lemma e_load off len r0 k g m b hs r m' d : bytes_at (m_data m) off len d -> in_i32 off -> in_i32 len -> blen (m_data m) <= max_i32 ->
  ends (k d) g m b hs r m' -> ends (load off len r0 k) g m b hs r m'.
Proof. intros H1 H2 H3 H4 Hk. unfold ends. rewrite (s_load _ _ _ _ _ H _ _ _ _ _ _ _ _ _ H1 H2 H3 H4). exact Hk. Qed.
Lemma e_store off d r0 k g m b hs r m1 m' : MemStore m off d = (m1, ROk tt) -> ends k g m1 b hs r m' -> ends (store off d r0 k) g m b hs r m'.
Proof. intros H1 Hk. unfold ends. rewrite (s_store _ _ _ _ _ H _ _ _ _ _ _ _ _ _ H1). exact Hk. Qed.
Lemma assigned_ext hs v w : (forall y, v y = w y) -> forall y, assigned hs v y = assigned hs w y.
Proof. intros Hv y. unfold assigned. rewrite Hv. reflexivity. Qed.
Lemma e_big_get y k g m b hs r m' : (forall b', (forall z, bval b' z = bval b z) -> ends (k (bval b y)) g m b' hs r m') ->
  ends (act (QBigGet y) k) g m b hs r m'.
Proof.
  intros Hk. destruct (s_big_get ed es h i x g m b o y k) as (b1 & H1 & Hb). destruct (Hk b1 Hb) as (g' & b' & H2 & H3).
  exists g', b'. rewrite H1. split; [exact H2|]. intros z. rewrite H3. apply assigned_ext, Hb.
Qed.
Lemma e_big_set y v k g m b hs r m' : ends (k tt) g m (<[y := v]> b) hs r m' -> ends (act (QBigSet y v) k) g m b ((y, v) :: hs) r m'.
Proof.
  intros (g' & b' & H2 & H3). exists g', b'. rewrite s_big_set. split; [exact H2|].
  intros z. rewrite H3. unfold assigned. cbn [fold_left fst snd]. rewrite bval_set. reflexivity.
Qed.

Lemma e_res {B} (v : res B) w r0 k g m b hs r m' : v = ROk w -> ends (k w) g m b hs r m' -> ends (res_or_fault v r0 k) g m b hs r m'.
Proof. intros ->. exact (fun p => p). Qed.

Ltac norm := repeat match goal with
  | H : ?f |- _ => match type of H with
    | gives _ _ _ _ _ _ => destruct H as (-> & -> & ->)
    | number _ _ _ _ => destruct H as (-> & -> & ->)
    | token_of _ _ _ _ _ _ _ => destruct H as (? & ? & ? & ? & ?)
    | ex _ => destruct H
    | _ /\ _ => destruct H
    | all_stored _ [] _ => cbn [all_stored] in H; subst
    | all_stored _ (_ :: _) _ => cbn [all_stored] in H
    | unsigned_bytes _ _ => apply unsigned_bytes_is in H; subst
    | signed_bytes _ _ => apply signed_bytes_is in H; subst
    end end.
Ltac side := match goal with |- bytes_at _ _ _ _ => eassumption | |- in_i32 (i32 _) => apply i32_range
  | |- in_i32 _ => unfold in_i32, min_i32, max_i32; unfold AddressLen, blsPublicKeyLength, blsSignatureLength, ed25519PublicKeyLength, ed25519SignatureLength; lia
  | |- blen _ <= _ => assumption end.
Ltac step := first
  [ apply e_ret
  | apply e_use; intros ?
  | eapply e_load; [solve [side]|solve [side]|solve [side]|solve [side]|]
  | eapply e_store; [eassumption|]
  | apply e_big_get; intros ? ?
  | apply e_big_set
  | apply e_get
  | eapply e_res; [eassumption|] ].

Lemma query c g m ws hs r m' : blen (m_data m) <= max_i32 ->
  Z.of_nat (length (vi_args (r_input (h_rt h)))) <= max_i32 -> Z.of_nat (length (o_retdata o)) <= max_i32 -> h_out h = o ->
  answers h (m_data m) c ws hs r -> all_stored m ws m' -> ends (api c) g m (h_big h) hs r m'.
Proof.
  intros Hm Ha Hr Ho Hans Hst. rewrite <-Ho in Hr.
  destruct c; try contradiction Hans; cbn [answers] in Hans; cbn [api]; unfold address_at, data_at, hashed in *.
  all: norm; subst; norm; subst; unfold esdt_data, charge, charge_bytes.
  all: repeat step.
  all: try (rewrite Ho; apply e_ret).
  - (* getOwnerAddress *) eapply e_res; [|repeat step].
    unfold GetOwnerAddress, GetUserAccount. change (h_world (St _ _ _ _ _ _ _)) with (h_world h).
    change (r_addr (h_rt (St h i x g' m (h_big h) o))) with (r_addr (h_rt h)). rewrite H0. reflexivity.
  - (* getESDTTokenData *) destruct (ek_meta _) as [e|]; destruct H3 as [-> ->].
    + cbn [app all_stored] in Hst. destruct (em_uris e) as [|u us]; cbn [app all_stored] in Hst; norm; subst; repeat step.
    + norm; subst; repeat step.
  - (* getReturnDataSize *) change (h_out (St h i x g' m (h_big h) o)) with o. rewrite Ho in *.
    unfold zlen at 1. rewrite i32_id by (unfold in_i32, min_i32; lia).
    unfold gindex. destruct (Z.leb_spec (Z.of_nat (length (o_retdata o))) (i32 resultID)).
    + rewrite lookup_ge_None_2 by lia. apply e_ret.
    + replace (i32 resultID <? 0) with false by lia.
      destruct (o_retdata o !! Z.to_nat (i32 resultID)) as [d|] eqn:Hd; [apply e_ret|apply lookup_ge_None in Hd; lia].
  - (* getReturnData *) change (h_out (St h i x g' m (h_big h) o)) with o. rewrite Ho in *.
    unfold zlen at 1. rewrite i32_id by (unfold in_i32, min_i32; lia).
    unfold gindex. destruct (Z.leb_spec (Z.of_nat (length (o_retdata o))) (i32 resultID)).
    + rewrite lookup_ge_None_2 in * by lia. norm; subst. apply e_ret.
    + replace (i32 resultID <? 0) with false by lia.
      destruct (o_retdata o !! Z.to_nat (i32 resultID)) as [d|] eqn:Hd; [|apply lookup_ge_None in Hd; lia]. norm; subst. repeat step.
  - pose proof (c09_args _ (i32 id) Ha (i32_range _)) as Hc. replace (i32 id <? 0) with false in Hc by lia. rewrite H1 in Hc.
    eapply e_res; [etransitivity; [exact (proj1 Hc)|]|apply e_ret]. rewrite bool_decide_true by assumption. reflexivity.
  - pose proof (c09_args _ (i32 id) Ha (i32_range _)) as Hc. replace (i32 id <? 0) with false in Hc by lia. rewrite H1 in Hc.
    eapply e_res; [etransitivity; [exact (proj2 Hc)|]|apply e_ret]. rewrite bool_decide_true by assumption. reflexivity.
  - pose proof (c09_args _ (i32 id) Ha (i32_range _)) as Hc. replace (i32 id <? 0) with false in Hc by lia. rewrite H1 in Hc.
    eapply e_res; [etransitivity; [exact (proj2 Hc)|]|apply e_ret]. rewrite bool_decide_true by assumption. reflexivity.
  - unfold bigIntFromUnsignedBytes. rewrite be_decode_value. repeat step.
  - unfold bigIntFromSignedBytes. rewrite twos_decode_value. repeat step.
  - destruct (e_hash _ _ _); norm; subst; repeat step.
  - destruct (e_hash _ _ _); norm; subst; repeat step.
  - destruct (e_hash _ _ _); norm; subst; repeat step.
  - (* secp256k1 *) unfold secp256k1CompressedPublicKeyLength, secp256k1UncompressedPublicKeyLength.
    replace (negb (i32 keyLength =? 33) && negb (i32 keyLength =? 65)) with false
      by (destruct H0 as [-> | ->]; reflexivity).
    repeat step. cbn [lookup list_lookup]. pose proof (bz_range x3).
    rewrite (i32_id (bz x3 + 2)) by (unfold in_i32, min_i32, max_i32; lia).
    eapply e_load; [eassumption|apply i32_range|unfold in_i32, min_i32, max_i32; lia|assumption|]. apply e_ret.
Qed.
End queries.

Lemma c59 `{E : env} fuel c h m ws hs r m' :
  counting h -> cur_mem h = ROk m -> blen (m_data m) <= max_i32 ->
  Z.of_nat (length (vi_args (r_input (h_rt h)))) <= max_i32 -> Z.of_nat (length (o_retdata (h_out h))) <= max_i32 ->
  answers h (m_data m) c ws hs r -> all_stored m ws m' ->
  exists h', vmApi fuel c h = (h', OOk r) /\ cur_mem h' = ROk m' /\
    (forall y, bval (h_big h') y = assigned hs (bval (h_big h)) y) /\ only_own h h'.
Proof.
  intros (i & x & Hc & Hi & _) Hm Hb Ha Hr Hans Hst. assert (H : running_as h i x) by (split; assumption).
  rewrite (cur_mem_run _ _ _ H) in Hm. injection Hm as Hm.
  destruct (query (vmDest fuel) (vmSame fuel) h i x H (h_out h) c (in_points x) m ws hs r m' Hb Ha Hr eq_refl Hans Hst) as (g' & b' & H1 & H2).
  rewrite <-Hm in H1. rewrite <-(St_start _ _ _ H) in H1. exists (St h i x g' m' b' (h_out h)).
  split; [exact H1|]. split; [rewrite (cur_mem_run _ _ _ (St_running _ _ _ H g' m' b' (h_out h))); reflexivity|]. split; [exact H2|].
  exists i, x, m', g', b'. split; [exact Hc|]. split; [exact Hi|]. unfold St, with_inst. destruct h. reflexivity.
Qed.

(** * The gas left *)
From Verif Require Import GasSpec GasProofs GasApiProofs.

Lemma more_points_is p g : 0 <= p <= max_i64 -> 0 <= g <= max_u64 -> more_points p g = Z.min max_i64 (p + g).
Proof.
  intros Hp Hg. unfold more_points, AddUint64, AddUint64WithErr. cbv zeta. unfold u64, u64_mod, max_i64, max_u64 in *.
  destruct (Z.leb_spec (p + g) 18446744073709551615).
  - rewrite !Z.mod_small by lia.
    replace ((p <=? p + g) && (g <=? p + g)) with true by lia. destruct (Z.ltb_spec 9223372036854775807 (p + g)); lia.
  - assert (Hr : (p + g) mod 18446744073709551616 = p + g - 18446744073709551616)
      by (symmetry; apply Z.mod_unique_pos with 1; lia). rewrite Hr.
    replace ((p <=? p + g - 18446744073709551616) && (g <=? p + g - 18446744073709551616)) with false by lia.
    cbn. lia.
Qed.
Lemma left_run h i x : running_as h i x -> left_of h = Z.max 0 (budget h - in_points x).
Proof. intros H. unfold left_of. rewrite (spent_run _ _ _ H). reflexivity. Qed.

Lemma c59_gas `{E : env} fuel h : env_ok E -> metered h ->
  exists h', vmApi fuel A_getGasLeft h = (h', OOk (left_of h')) /\
    left_of h' = Z.max 0 (left_of h - e_cost E CGetGasLeft) /\
    only_own h h' /\ cur_mem h' = cur_mem h /\ h_big h' = h_big h.
Proof.
  intros HE ((i & x & Hc & Hi) & Hk & Hb & Hs). assert (H : running_as h i x) by (split; assumption).
  rewrite (spent_run _ _ _ H) in Hs. pose proof (Hk i x Hi) as Hx.
  exists (with_inst i (set_in_points (more_points (in_points x) (e_cost E CGetGasLeft)) x) h).
  set (h' := with_inst _ _ _). assert (H' : running_as h' i (set_in_points (more_points (in_points x) (e_cost E CGetGasLeft)) x))
    by (apply (running_with_inst _ _ _ _ H)).
  assert (Hcost : 0 <= e_cost E CGetGasLeft <= max_u64) by apply HE.
  split.
  { unfold vmApi. cbn [api]. unfold getGasLeft, charge. rewrite (run_use _ _ _ _ _ _ _ H). rewrite run_get. fold h'.
    rewrite left_gas. cbn [run_cmd]. unfold ret. f_equal. f_equal. apply i64_id.
    rewrite (left_run _ _ _ H'). change (budget h') with (budget h). cbn [in_points set_in_points].
    rewrite (more_points_is (in_points x)) by lia. unfold in_i64, min_i64, max_i64 in *. lia. }
  split.
  { rewrite (left_run _ _ _ H'), (left_run _ _ _ H). change (budget h') with (budget h). cbn [in_points set_in_points].
    rewrite (more_points_is (in_points x)) by lia. lia. }
  split; [|split; [rewrite (cur_mem_run _ _ _ H'), (cur_mem_run _ _ _ H); reflexivity|reflexivity]].
  exists i, x, (in_mem x), (more_points (in_points x) (e_cost E CGetGasLeft)), (h_big h).
  split; [exact Hc|]. split; [exact Hi|]. unfold h', with_inst.
  replace (set_in_mem (in_mem x) (set_in_points (more_points (in_points x) (e_cost E CGetGasLeft)) x))
    with (set_in_points (more_points (in_points x) (e_cost E CGetGasLeft)) x) by (destruct x; reflexivity).
  destruct h; reflexivity.
Qed.
