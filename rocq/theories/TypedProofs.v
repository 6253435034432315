(** Proofs for C62. *)
From Verif Require Import VmModel WpProofs CodecSpec CodecProofs MemSpec MemProofs BigSpec StoSpec StoProofs QuerySpec QueryProofs TypedSpec.
From Coq Require Import ZifyBool ZifyNat ZifyN.

Section typed.
Context `{E : env} (HE : env_ok E) (ed : edf) (es : call_input -> M unit).

Definition now_calling (h : host) (i : nat) (x : inst) : Prop := running_as h i x /\ pts_ok x /\ is_Some (o_refund (h_out h)).

Lemma set_end k d r1 h i x : now_calling h i x -> len_ok k -> len_ok d -> len_ok (cell h (h_stoaddr h) k) -> writable h k ->
  exists h' x', run_cmd ed es (or_fault (QSetStorage k d) r1 (fun s => CRet (status_num s))) h = (h', OOk (kind_num (kind_of (cell h (h_stoaddr h) k) d))) /\
    cell_set (h_stoaddr h) k d h h' /\ sto_frame h h' /\ h_big h' = h_big h /\ in_mem x' = in_mem x /\ h_stoprot h' = h_stoprot h /\ now_calling h' i x'.
Proof.
  intros (H & Hp & [z Hz]) Hk Hd Ho (Hro & Hres & Harw).
  erewrite run_or_fault_ok; [|cbn [interp]; eapply (SetStorage_run k d h i x z); assumption].
  cbn [run_cmd]. rewrite status_of_num. eexists _, _. split; [reflexivity|].
  split; [eapply cell_set_intro; reflexivity|].
  split; [eapply sto_frame_intro; [|reflexivity]; apply sbs_refund, sbs_write|]. split; [reflexivity|]. split; [|split; [reflexivity|split; [apply (running_with_inst _ _ _ _ H)|split; [|eexists; reflexivity]]]]; [reflexivity|].
  apply pay_ok; [exact Hp|]. pose proof (key_price_nonneg E k HE). pose proof (value_price_nonneg E (cell h (h_stoaddr h) k) d HE). lia.
Qed.
Lemma get_end k kk h i x : now_calling h i x -> len_ok k -> len_ok (cell h (h_stoaddr h) k) ->
  exists h' x', run_cmd ed es (act (QGetStorage k) kk) h = run_cmd ed es (kk (cell h (h_stoaddr h) k)) h' /\
    (forall a k', cell h' a k' = cell h a k') /\ sto_frame h h' /\ h_big h' = h_big h /\ in_mem x' = in_mem x /\ h_stoprot h' = h_stoprot h /\ now_calling h' i x'.
Proof.
  intros (H & Hp & Hz) Hk Ho.
  erewrite run_act; [|cbn [interp]; apply (GetStorage_run k h i x HE H Hp Hk Ho)].
  eexists _, _. split; [reflexivity|]. split; [intros a k'; rewrite !cell_ocell; apply ocell_read|].
  split; [split; [apply sbs_read|]; repeat split|]. split; [reflexivity|]. split; [|split; [reflexivity|split; [apply (running_with_inst _ _ _ _ H)|split; [|exact Hz]]]]; [reflexivity|].
  apply pay_ok; [exact Hp|]. pose proof (key_price_nonneg E k HE). pose proof (blen_nonneg (cell h (h_stoaddr h) k)). pose proof (cost_nonneg E DataCopyPerByte HE). nia.
Qed.

(** charging and reading the key *)
Lemma key_start c ko kl r0 kk k h i x : now_calling h i x -> bytes_at (m_data (in_mem x)) (i32 ko) (i32 kl) k -> blen (m_data (in_mem x)) <= max_i32 ->
  exists x', run_cmd ed es (charge c (load (i32 ko) (i32 kl) r0 kk)) h = run_cmd ed es (kk k) (with_inst i x' h) /\
    in_mem x' = in_mem x /\ now_calling (with_inst i x' h) i x' /\ len_ok k.
Proof.
  intros (H & Hp & Hz) Hk Hm. rewrite (run_charge _ _ HE _ _ _ _ _ H Hp).
  pose proof (cost_nonneg E c HE) as Hc. set (x1 := pay (e_cost E c) x).
  assert (Hk' : MemLoad (in_mem x) (i32 ko) (i32 kl) = ROk k) by (apply load_at; [exact Hk|apply i32_range|apply i32_range|exact Hm]).
  exists x1. split; [|split; [reflexivity|split; [split; [apply (running_with_inst _ _ _ _ H)|split; [apply pay_ok; assumption|exact Hz]]|]]].
  - rewrite (run_load _ _ _ _ _ _ _ k); [reflexivity|]. erewrite mem_load_with_inst; [|exact H|reflexivity]. rewrite (mem_load_run _ _ _ _ _ H). exact Hk'.
  - apply memload_len_ok in Hk'. exact Hk'.
Qed.

Lemma big_cells b h a k : cell (set_h_big b h) a k = cell h a k.
Proof. reflexivity. Qed.

Lemma typed_store c ko kl z d k h i x : now_calling h i x -> bytes_at (m_data (in_mem x)) (i32 ko) (i32 kl) k -> blen (m_data (in_mem x)) <= max_i32 ->
  keeps_number h c ko kl z d -> go_len d -> go_len (cell h (h_stoaddr h) k) -> writable h k ->
  exists h' x', run_cmd ed es (api c) h = (h', OOk (kind_num (kind_of (cell h (h_stoaddr h) k) d))) /\
    cell_set (h_stoaddr h) k d h h' /\ sto_frame_but_big h h' /\ (forall y, bval (h_big h') y = bval (h_big h) y) /\
    in_mem x' = in_mem x /\ h_stoprot h' = h_stoprot h /\ now_calling h' i x'.
Proof.
  intros Hn Hk Hm Hc Hd Ho Hw. destruct c; try contradiction Hc; cbn [keeps_number] in Hc; destruct Hc as (-> & -> & Hz & Hb); cbn [api].
  1-3: unfold smallIntStorageStoreUnsigned, smallIntStorageStoreSigned, smallInt_store;
    destruct (key_start CInt64StorageStore ko kl (-1) (fun key => or_fault (QSetStorage key d) (-1) (fun s => CRet (status_num s))) k h i x Hn Hk Hm) as (x1 & H1 & M1 & N1 & L1);
    destruct (set_end k d (-1) _ i x1 N1 L1 Hd Ho Hw) as (h' & x2 & H2 & C2 & F2 & B2 & M2 & S2 & N2);
    exists h', x2; split;
    [first [apply unsigned_bytes_is in Hb|apply signed_bytes_is in Hb]; subst z d; etransitivity; [exact H1|exact H2]|];
    (split; [exact C2|]; split; [unfold sto_frame_but_big; rewrite B2; exact F2|]; split; [rewrite B2; reflexivity|]; split; [congruence|split; [exact S2|exact N2]]).
  apply unsigned_bytes_is in Hb. subst z d. unfold bigIntStorageStoreUnsigned.
  match goal with |- context [load _ _ _ ?kk] => destruct (key_start CBigIntStorageStoreUnsigned ko kl 0 kk k h i x Hn Hk Hm) as (x1 & H1 & M1 & N1 & L1) end.
  rewrite H1. cbv beta. unfold act at 1. rewrite run_do. cbn [interp]. unfold big_op.
  change (h_big (with_inst i x1 h)) with (h_big h).
  destruct (big_get (h_big h) (i32 sourceHandle)) as [b v] eqn:Hg.
  assert (Hb : v = held h sourceHandle /\ forall y, bval b y = bval (h_big h) y).
  { unfold big_get in Hg. unfold held, bval at 1. destruct (h_big h !! i32 sourceHandle) as [w|] eqn:Hy; injection Hg as <- <-; (split; [reflexivity|]); intros y; [reflexivity|].
    unfold bval. destruct (decide (y = i32 sourceHandle)) as [->|Hne]; [rewrite lookup_insert, Hy; reflexivity|rewrite lookup_insert_ne by congruence; reflexivity]. }
  destruct Hb as [-> Hb].
  assert (N1' : now_calling (set_h_big b (with_inst i x1 h)) i x1) by exact N1.
  destruct (set_end k (be_encode (held h sourceHandle)) (-1) _ i x1 N1' L1 Hd Ho Hw) as (h' & x2 & H2 & C2 & F2 & B2 & M2 & S2 & N2).
  exists h', x2. split; [exact H2|]. split; [exact C2|].
  change (h_big (set_h_big b (with_inst i x1 h))) with b in B2.
  split; [unfold sto_frame_but_big; rewrite B2; exact F2|]. split; [rewrite B2; exact Hb|]. split; [congruence|split; [exact S2|exact N2]].
Qed.

Lemma load_unsigned_ok d : be_value d <= max_u64 -> smallIntLoadUnsigned d = ROk (i64 (be_value d)).
Proof.
  intros H. destruct (c09_load_range d) as (H1 & _ & H2 & _). unfold smallIntLoadUnsigned in *.
  destruct (is_uint64 (be_decode d)); [f_equal; apply H2; reflexivity|]. exfalso. pose proof (proj1 H1 eq_refl). lia.
Qed.
Lemma load_signed_ok d : in_i64 (twos_value d) -> smallIntLoadSigned d = ROk (twos_value d).
Proof.
  intros H. destruct (c09_load_range d) as (_ & H1 & _ & H2). unfold smallIntLoadSigned in *.
  destruct (is_int64 (twos_decode d)); [f_equal; apply H2; reflexivity|]. exfalso. apply (proj1 H1 eq_refl), H.
Qed.

Lemma typed_load c ko kl hs r k h i x : now_calling h i x -> bytes_at (m_data (in_mem x)) (i32 ko) (i32 kl) k -> blen (m_data (in_mem x)) <= max_i32 ->
  go_len (cell h (h_stoaddr h) k) -> reads_number (cell h (h_stoaddr h) k) c ko kl hs r ->
  exists h' x', run_cmd ed es (api c) h = (h', OOk r) /\
    (forall a k', cell h' a k' = cell h a k') /\ sto_frame_but_big h h' /\ (forall y, bval (h_big h') y = assigned hs (bval (h_big h)) y) /\
    in_mem x' = in_mem x /\ h_stoprot h' = h_stoprot h /\ now_calling h' i x'.
Proof.
  intros Hn Hk Hm Ho Hc. destruct c; try contradiction Hc; cbn [reads_number] in Hc.
  1-3: destruct Hc as (-> & -> & Hr & -> & ->); cbn [api]; unfold smallIntStorageLoadUnsigned, smallIntStorageLoadSigned;
    match goal with |- context [load _ _ _ ?kk] => destruct (key_start CInt64StorageLoad ko kl 0 kk k h i x Hn Hk Hm) as (x1 & H1 & M1 & N1 & L1) end;
    rewrite H1; cbv beta;
    match goal with |- context [act _ ?kk] => destruct (get_end k kk _ i x1 N1 L1 Ho) as (h' & x2 & H2 & C2 & F2 & B2 & M2 & S2 & N2) end;
    exists h', x2; rewrite H2; change (cell (with_inst i x1 h)) with (cell h); change (h_stoaddr (with_inst i x1 h)) with (h_stoaddr h);
    (split; [cbv beta; first [rewrite load_unsigned_ok by exact Hr|rewrite load_signed_ok by exact Hr]; reflexivity|]);
    (split; [exact C2|]; split; [unfold sto_frame_but_big; rewrite B2; exact F2|]; split; [rewrite B2; reflexivity|]; split; [congruence|split; [exact S2|exact N2]]).
  destruct Hc as (-> & -> & -> & ->). cbn [api]. unfold bigIntStorageLoadUnsigned.
  match goal with |- context [load _ _ _ ?kk] => destruct (key_start CBigIntStorageLoadUnsigned ko kl 0 kk k h i x Hn Hk Hm) as (x1 & H1 & M1 & N1 & L1) end.
  rewrite H1. cbv beta.
  match goal with |- context [act _ ?kk] => destruct (get_end k kk _ i x1 N1 L1 Ho) as (h' & x2 & H2 & C2 & F2 & B2 & M2 & S2 & N2) end.
  rewrite H2. change (cell (with_inst i x1 h)) with (cell h). change (h_stoaddr (with_inst i x1 h)) with (h_stoaddr h). cbv beta.
  set (v := cell h (h_stoaddr h) k) in *.
  exists (set_h_big (<[i32 destinationHandle := be_value v]> (h_big h')) h'), x2.
  split; [unfold bigIntFromUnsignedBytes; rewrite be_decode_value; reflexivity|].
  split; [exact C2|]. split; [destruct F2 as (F & W1 & W2 & W3 & W4 & W5 & W6 & W7 & W8 & W9 & W10 & W11); unfold sto_frame_but_big; split; [exact F|]; repeat split; assumption|].
  split; [|split; [congruence|split; [exact S2|exact N2]]].
  intros y. cbn [h_big set_h_big]. rewrite B2. rewrite bval_set. reflexivity.
Qed.
End typed.

(** ** The theorems *)
Lemma now_of h m : calling h -> cur_mem h = ROk m -> exists i x, now_calling h i x /\ in_mem x = m.
Proof.
  intros (i & x & Hc & Hi & Hp & Hz) Hm. exists i, x. assert (H : running_as h i x) by (split; assumption).
  rewrite (cur_mem_run _ _ _ H) in Hm. injection Hm as Hm. split; [|exact Hm]. split; [exact H|split; [exact Hp|exact Hz]].
Qed.
Lemma calling_of h i x : now_calling h i x -> calling h /\ cur_mem h = ROk (in_mem x).
Proof. intros (H & Hp & Hz). split; [exists i, x; destruct H; repeat split; try assumption; apply Hp|apply (cur_mem_run _ _ _ H)]. Qed.

Lemma c62_store `{E : env} fuel c ko kl z d k h m : env_ok E -> calling h -> cur_mem h = ROk m -> blen (m_data m) <= max_i32 ->
  data_at (m_data m) ko kl k -> keeps_number h c ko kl z d -> go_len d -> go_len (cell h (h_stoaddr h) k) -> writable h k ->
  exists h', vmApi fuel c h = (h', OOk (kind_num (kind_of (cell h (h_stoaddr h) k) d))) /\
    cell_set (h_stoaddr h) k d h h' /\ sto_frame_but_big h h' /\ (forall y, bval (h_big h') y = bval (h_big h) y) /\
    cur_mem h' = ROk m /\ h_stoprot h' = h_stoprot h /\ calling h'.
Proof.
  intros HE Hc Hm Hb Hk Hn Hd Ho Hw. destruct (now_of h m Hc Hm) as (i & x & Hx & <-).
  destruct (typed_store HE (vmDest fuel) (vmSame fuel) c ko kl z d k h i x Hx Hk Hb Hn Hd Ho Hw) as (h' & x' & H1 & H3 & H4 & H5 & H6 & H7 & H8).
  destruct (calling_of _ _ _ H8) as [G1 G2]. rewrite H6 in G2.
  exists h'. split; [exact H1|]. split; [exact H3|]. split; [exact H4|]. split; [exact H5|]. split; [exact G2|]. split; [exact H7|exact G1].
Qed.
Lemma c62_load `{E : env} fuel c ko kl hs r k h m : env_ok E -> calling h -> cur_mem h = ROk m -> blen (m_data m) <= max_i32 ->
  data_at (m_data m) ko kl k -> go_len (cell h (h_stoaddr h) k) -> reads_number (cell h (h_stoaddr h) k) c ko kl hs r ->
  exists h', vmApi fuel c h = (h', OOk r) /\
    (forall a k', cell h' a k' = cell h a k') /\ sto_frame_but_big h h' /\ (forall y, bval (h_big h') y = assigned hs (bval (h_big h)) y) /\
    cur_mem h' = ROk m /\ calling h'.
Proof.
  intros HE Hc Hm Hb Hk Ho Hn. destruct (now_of h m Hc Hm) as (i & x & Hx & <-).
  destruct (typed_load HE (vmDest fuel) (vmSame fuel) c ko kl hs r k h i x Hx Hk Hb Ho Hn) as (h' & x' & H1 & H3 & H4 & H5 & H6 & H7 & H8).
  destruct (calling_of _ _ _ H8) as [G1 G2]. rewrite H6 in G2.
  exists h'. split; [exact H1|]. split; [exact H3|]. split; [exact H4|]. split; [exact H5|]. split; [exact G2|exact G1].
Qed.

Lemma i64_u64 v : i64 (u64 (i64 v)) = i64 v.
Proof. unfold i64, u64, u64_mod. rewrite <-Zplus_mod_idemp_l. rewrite Zmod_mod. rewrite Zplus_mod_idemp_l. f_equal.
  replace ((v + 9223372036854775808) mod 18446744073709551616 - 9223372036854775808 + 9223372036854775808) with ((v + 9223372036854775808) mod 18446744073709551616) by lia.
  apply Zmod_mod. Qed.
Lemma u64_max z : 0 <= u64 z <= max_u64.
Proof. unfold u64, u64_mod, max_u64. pose proof (Z.mod_pos_bound z 18446744073709551616). lia. Qed.

Lemma c62_round_trip `{E : env} f1 f2 c c' ko kl ko' kl' z d k h m hs r : env_ok E -> calling h -> cur_mem h = ROk m -> blen (m_data m) <= max_i32 ->
  data_at (m_data m) ko kl k -> data_at (m_data m) ko' kl' k -> keeps_number h c ko kl z d -> go_len d -> go_len (cell h (h_stoaddr h) k) -> writable h k ->
  reads_back c c' ko' kl' z hs r ->
  exists h1 n h2 r2, vmApi f1 c h = (h1, OOk n) /\ vmApi f2 c' h1 = (h2, OOk r2) /\
    match r with Some r => r2 = r | None => True end /\ forall y, bval (h_big h2) y = assigned hs (bval (h_big h)) y.
Proof.
  intros HE Hc Hm Hb Hk Hk' Hn Hd Ho Hw Hr.
  destruct (c62_store f1 c ko kl z d k h m HE Hc Hm Hb Hk Hn Hd Ho Hw) as (h1 & H1 & C1 & F1 & B1 & M1 & _ & G1).
  assert (Ha : h_stoaddr h1 = h_stoaddr h) by apply F1.
  assert (Hcell : cell h1 (h_stoaddr h1) k = d).
  { rewrite Ha, C1. rewrite !bool_decide_true by reflexivity. reflexivity. }
  assert (Hread : exists r2, reads_number d c' ko' kl' hs r2 /\ match r with Some r => r2 = r | None => True end).
  { destruct c; try contradiction Hr; destruct c'; try contradiction Hr; cbn [reads_back] in Hr; cbn [keeps_number] in Hn; destruct Hn as (_ & _ & Hz & Hby); cbn [reads_number].
    - destruct Hr as (-> & -> & -> & ->). destruct Hby as [Hv _]. rewrite Hz in Hv. pose proof (u64_max (i64 value)). rewrite Z.abs_eq in Hv by lia.
      exists (i64 (be_value d)). rewrite Hv. split; [repeat split; lia|]. apply i64_u64.
    - destruct Hr as (-> & -> & -> & ->). destruct Hby as [Hv _]. subst z.
      exists (twos_value d). rewrite Hv. split; [repeat split; try apply i64_range|]. reflexivity.
    - destruct Hr as (-> & -> & -> & ->). destruct Hby as [Hv _]. rewrite Hz in Hv. pose proof (u64_max (i64 value)). rewrite Z.abs_eq in Hv by lia.
      exists (i64 (be_value d)). rewrite Hv. split; [repeat split; lia|]. apply i64_u64.
    - destruct Hr as (-> & -> & Hpos & -> & ->). destruct Hby as [Hv _]. rewrite Z.abs_eq in Hv by lia.
      exists (len32 d). rewrite Hv. split; [repeat split|exact I]. }
  destruct Hread as (r2 & Hread & Hr2). rewrite <-Hcell in Hread.
  destruct (c62_load f2 c' ko' kl' hs r2 k h1 m HE G1 M1 Hb Hk' ltac:(rewrite Hcell; exact Hd) Hread) as (h2 & H2 & _ & _ & B2 & _ & _).
  eexists h1, _, h2, r2. split; [exact H1|]. split; [exact H2|]. split; [exact Hr2|]. intros y. rewrite B2. apply assigned_ext, B1.
Qed.
