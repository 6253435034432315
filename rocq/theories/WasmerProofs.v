(** Arguments and results of exported functions, and sets of imports. *)
From Verif Require Import Base WasmerModel WasmerSpec.
From stdpp Require Import gmap.
From Coq Require Import ZifyBool ZifyNat ZifyN Lia.
Local Open Scope Z_scope.

Lemma i32_signed z : i32 z = signed 32 z.
Proof.
  unfold i32, signed. change (2 ^ 32) with 4294967296. change (2 ^ (32 - 1)) with 2147483648. cbv zeta.
  Z.to_euclidean_division_equations. destruct (_ <? _) eqn:E; lia.
Qed.
Lemma i64_signed z : i64 z = signed 64 z.
Proof.
  unfold i64, signed, u64_mod. change (2 ^ 64) with 18446744073709551616. change (2 ^ (64 - 1)) with 9223372036854775808. cbv zeta.
  Z.to_euclidean_division_equations. destruct (_ <? _) eqn:E; lia.
Qed.
Lemma signed_mod w z : signed w (z mod 2 ^ w) = signed w z.
Proof. unfold signed. rewrite Zmod_mod. reflexivity. Qed.
Lemma signed_fits w n : 1 <= w -> fits w n -> signed w n = n.
Proof.
  intros Hw [H1 H2]. unfold signed. cbv zeta. assert (Hp : 2 ^ w = 2 * 2 ^ (w - 1)).
  { rewrite <- Z.pow_succ_r by lia. f_equal. lia. }
  destruct (Z.leb_spec 0 n) as [H | H].
  - rewrite Z.mod_small by lia. destruct (Z.ltb_spec n (2 ^ (w - 1))); lia.
  - assert (n mod 2 ^ w = n + 2 ^ w) as ->.
    { rewrite <- (Z_mod_plus_full n 1 (2 ^ w)). rewrite Z.mod_small by lia. lia. }
    destruct (Z.ltb_spec (n + 2 ^ w) (2 ^ (w - 1))); lia.
Qed.
Lemma signed_fitting w z : 1 <= w -> fits w (signed w z).
Proof.
  intros Hw. unfold signed, fits. cbv zeta. assert (Hp : 2 ^ w = 2 * 2 ^ (w - 1)).
  { rewrite <- Z.pow_succ_r by lia. f_equal. lia. }
  assert (0 < 2 ^ (w - 1)) by (apply Z.pow_pos_nonneg; lia).
  pose proof (Z.mod_pos_bound z (2 ^ w) ltac:(lia)).
  destruct (Z.ltb_spec (z mod 2 ^ w) (2 ^ (w - 1))); lia.
Qed.
Lemma signed_signed w z : 1 <= w -> signed w (signed w z) = signed w z.
Proof. intros Hw. apply signed_fits; [exact Hw|apply signed_fitting; exact Hw]. Qed.

Definition write_input (t : wtag) (a : garg) : wres cvalue :=
  match t with cWasmI32 => writeInt32ToWasmInputs a | cWasmI64 => writeInt64ToWasmInputs a | _ => WErr end.
Lemma write32 a c : writeInt32ToWasmInputs a = WOk c -> takes cWasmI32 a /\ arrives a cWasmI32 c.
Proof.
  intros H. destruct a as [ty n|v|].
  - assert (Hc : takes cWasmI32 (GNum ty n) /\ c = mkCValue cWasmI32 (i32 n mod 2 ^ 32)).
    { destruct ty; cbn in H; try discriminate H; (split; [cbn; set_solver|congruence]). }
    destruct Hc as [Ht ->]. split; [exact Ht|]. split; [reflexivity|]. intros m [= <-] Hf. cbn [cv_bits width] in *.
    rewrite signed_mod, i32_signed, signed_signed by lia. apply signed_fits; [lia|exact Hf].
  - cbn in H. destruct (wv_type v) eqn:Ev; try discriminate H. injection H as <-. split; [exact Ev|].
    split; [reflexivity|]. intros m Hm Hf. cbn [number cv_bits width] in *. rewrite Ev in Hm. injection Hm as <-.
    unfold ToI32. rewrite signed_mod, i32_signed, signed_signed by lia. reflexivity.
  - discriminate H.
Qed.
Lemma write64 a c : writeInt64ToWasmInputs a = WOk c -> takes cWasmI64 a /\ arrives a cWasmI64 c.
Proof.
  intros H. destruct a as [ty n|v|].
  - assert (Hc : takes cWasmI64 (GNum ty n) /\ c = mkCValue cWasmI64 (i64 n mod 2 ^ 64)).
    { destruct ty; cbn in H; try discriminate H; (split; [cbn; set_solver|congruence]). }
    destruct Hc as [Ht ->]. split; [exact Ht|]. split; [reflexivity|]. intros m [= <-] Hf. cbn [cv_bits width] in *.
    rewrite signed_mod, i64_signed, signed_signed by lia. apply signed_fits; [lia|exact Hf].
  - cbn in H. destruct (wv_type v) eqn:Ev; try discriminate H. injection H as <-. split; [exact Ev|].
    split; [reflexivity|]. intros m Hm Hf. cbn [number cv_bits width] in *. rewrite Ev in Hm. injection Hm as <-.
    unfold ToI64. rewrite signed_mod, i64_signed, signed_signed by lia. reflexivity.
  - discriminate H.
Qed.
Lemma write_taken t a : takes t a -> exists c, write_input t a = WOk c.
Proof.
  destruct t, a as [ty n|v|]; cbn; try contradiction; intros H.
  - destruct ty; eauto; exfalso; repeat (apply elem_of_cons in H as [H | H]; [discriminate H|]); inversion H.
  - rewrite H. eauto.
  - destruct ty; eauto; exfalso; repeat (apply elem_of_cons in H as [H | H]; [discriminate H|]); inversion H.
  - rewrite H. eauto.
Qed.
Lemma write_ok t a c : write_input t a = WOk c -> takes t a /\ arrives a t c.
Proof. destruct t; cbn [write_input]; [apply write32|apply write64|discriminate|discriminate]. Qed.
Lemma write_no_panic t a : write_input t a <> WPanic.
Proof. destruct t, a as [ty n|v|]; cbn; try discriminate; try (destruct ty; discriminate); destruct (wv_type v); discriminate. Qed.

Lemma create_cons a args t sig : createWasmInputsFromArguments (a :: args) (t :: sig) =
  match write_input t a with
  | WOk v => match createWasmInputsFromArguments args sig with WOk l => WOk (v :: l) | r => r end
  | WErr => WErr
  | WPanic => WPanic
  end.
Proof. reflexivity. Qed.
Lemma create_exact sig : forall args, length args = length sig ->
  (forall l, createWasmInputsFromArguments args sig = WOk l ->
     Forall2 takes sig args /\ Forall2 (fun at_ c => arrives (fst at_) (snd at_) c) (combine args sig) l) /\
  (Forall2 takes sig args -> exists l, createWasmInputsFromArguments args sig = WOk l) /\
  createWasmInputsFromArguments args sig <> WPanic.
Proof.
  induction sig as [|t sig IH]; intros [|a args] Hl; try discriminate Hl.
  - split; [intros l [= <-]; split; constructor|]. split; [intros _; eexists; reflexivity|discriminate].
  - injection Hl as Hl. destruct (IH args Hl) as (I1 & I2 & I3). rewrite create_cons. split_and!.
    + intros l H. destruct (write_input t a) as [v| |] eqn:Ew; try discriminate H.
      destruct (createWasmInputsFromArguments args sig) as [l'| |] eqn:Ec; try discriminate H.
      injection H as <-. destruct (write_ok _ _ _ Ew) as [W1 W2]. destruct (I1 _ eq_refl) as [J1 J2].
      split; constructor; assumption.
    + intros H. inversion H as [|? ? ? ? H1 H2]; subst. destruct (write_taken _ _ H1) as [c ->].
      destruct (I2 H2) as [l ->]. eauto.
    + destruct (write_input t a) as [v| |] eqn:Ew; [|discriminate|destruct (write_no_panic _ _ Ew)].
      destruct (createWasmInputsFromArguments args sig); [discriminate|discriminate|contradiction].
Qed.

Lemma called_exact sig arity func args called r : wrapper sig arity func args = (called, r) ->
  ((exists inputs, called = Some inputs) <-> length args = length sig /\ Forall2 takes sig args) /\
  (forall inputs, called = Some inputs ->
     Forall2 (fun at_ c => arrives (fst at_) (snd at_) c) (combine args sig) inputs /\ length inputs = length sig /\
     (func inputs = None -> r = WErr)) /\
  (called = None -> r = WErr).
Proof.
  unfold wrapper, validateGivenArguments. destruct (Nat.eqb_spec (length sig) (length args)) as [Hl | Hl]; cbn [negb].
  - symmetry in Hl. destruct (create_exact sig args Hl) as (C1 & C2 & C3).
    destruct (createWasmInputsFromArguments args sig) as [l| |] eqn:Ec; [| |contradiction].
    + destruct (C1 l eq_refl) as [J1 J2].
      assert (Hlen : length l = length sig).
      { apply Forall2_length in J2. rewrite <- J2, combine_length. lia. }
      intros H. assert (Hc : called = Some l) by (destruct (func l); congruence). subst called. split_and!.
      * split; [auto|]. intros _. eauto.
      * intros inputs [= <-]. split; [exact J2|]. split; [exact Hlen|]. intros Hn. rewrite Hn in H. congruence.
      * discriminate.
    + intros [= <- <-]. split_and!.
      * split; [intros [x Hx]; discriminate Hx|]. intros [_ H]. destruct (C2 H) as [l Hl']. discriminate Hl'.
      * discriminate.
      * reflexivity.
  - intros [= <- <-]. split_and!.
    + split; [intros [x Hx]; discriminate Hx|]. intros [H _]. congruence.
    + discriminate.
    + reflexivity.
Qed.

Lemma wide_i32 z : fits 64 (signed 32 z).
Proof.
  destruct (signed_fitting 32 z ltac:(lia)) as [H1 H2]. unfold fits.
  change (2 ^ (32 - 1)) with 2147483648 in *. change (2 ^ (64 - 1)) with 9223372036854775808. lia.
Qed.
Lemma I32_back z : ToI32 (I32 (i32 z)) = signed 32 z /\ ToI64 (I32 (i32 z)) = signed 32 z.
Proof.
  unfold ToI32, ToI64, I32. cbn [wv_bits]. unfold u64, u64_mod. change 18446744073709551616 with (2 ^ 64).
  rewrite (i32_signed z), i64_signed, signed_mod, (signed_fits 64) by (try lia; apply wide_i32). split; [|reflexivity].
  rewrite i32_signed. transitivity (signed 32 (signed 32 z)); [|apply signed_signed; lia].
  generalize (signed 32 z). intros y. unfold signed. cbv zeta.
  assert ((y mod 2 ^ 64) mod 2 ^ 32 = y mod 2 ^ 32) as ->; [|reflexivity].
  change (2 ^ 64) with (2 ^ 32 * 2 ^ 32). rewrite Z.rem_mul_r by lia.
  rewrite Z.mul_comm, Z_mod_plus_full, Zmod_mod. reflexivity.
Qed.
Lemma I64_back z : ToI64 (I64 (i64 z)) = signed 64 z.
Proof.
  unfold ToI64, I64. cbn [wv_bits]. unfold u64, u64_mod. change 18446744073709551616 with (2 ^ 64).
  rewrite !i64_signed, signed_mod. apply signed_signed. lia.
Qed.

Lemma result_exact sig arity func args inputs r outs :
  wrapper sig arity func args = (Some inputs, r) -> func inputs = Some outs -> length outs = arity ->
  (outs = [] -> exists v, r = WOk v /\ wv_type v = TypeVoid) /\
  (forall c, outs = [c] -> cv_tag c = cWasmI32 -> exists v, r = WOk v /\ wv_type v = TypeI32 /\
     ToI32 v = signed 32 (cv_bits c) /\ ToI64 v = signed 32 (cv_bits c)) /\
  (forall c, outs = [c] -> cv_tag c = cWasmI64 -> exists v, r = WOk v /\ wv_type v = TypeI64 /\
     ToI64 v = signed 64 (cv_bits c)) /\
  (forall c, outs = [c] -> cv_tag c = cWasmF32 \/ cv_tag c = cWasmF64 -> r = WErr).
Proof.
  unfold wrapper. destruct (negb _); [discriminate|].
  destruct (createWasmInputsFromArguments args sig) as [l| |]; try discriminate.
  intros H Hf Hl. assert (l = inputs) as -> by (destruct (func l); congruence).
  rewrite Hf in H. injection H as <-. unfold convertWasmOutputToValue. split_and!.
  - intros ->. cbn in Hl. subst arity. exists Void. auto.
  - intros c -> Ht. cbn in Hl. subst arity. rewrite Ht. eexists. split; [reflexivity|]. split; [reflexivity|].
    apply I32_back.
  - intros c -> Ht. cbn in Hl. subst arity. rewrite Ht. eexists. split; [reflexivity|]. split; [reflexivity|].
    apply I64_back.
  - intros c -> [Ht | Ht]; cbn in Hl; subst arity; rewrite Ht; reflexivity.
Qed.

(** * Imports *)

Lemma typed_tag k t : kind_tag k = Some t <-> typed k t.
Proof.
  split.
  - destruct k; cbn; intros [= <-]; constructor.
  - intros []; reflexivity.
Qed.
Lemma typed_all ks ts : mapM kind_tag ks = Some ts <-> Forall2 typed ks ts.
Proof.
  rewrite mapM_Some. split; intros H; induction H; constructor; try assumption; apply typed_tag; assumption.
Qed.
Lemma append_exact name impl g i i' :
  Append name impl g i = Some i' <->
  exists ins outs tin tout, g = Func (KPointer :: ins) outs /\ Forall2 typed ins tin /\ Forall2 typed outs tout /\
    (length outs <= 1)%nat /\
    i' = mkImports (<[is_namespace i := <[name := mkImport impl tin tout (is_namespace i)]>
                        (default ∅ (is_imports i !! is_namespace i))]> (is_imports i)) (is_namespace i).
Proof.
  split.
  - unfold Append. destruct g as [|[|ctx ins] outs]; try discriminate. destruct ctx; try discriminate.
    destruct (mapM kind_tag ins) as [tin|] eqn:Hin; [|discriminate].
    assert (Hout : forall tout, mapM kind_tag outs = Some tout -> Forall2 typed outs tout) by (intros; apply typed_all; assumption).
    apply typed_all in Hin.
    destruct outs as [|o [|o' outs]]; [| |discriminate].
    + intros [= <-]. exists ins, [], tin, []. split_and!; try reflexivity; try assumption; [constructor|cbn; lia].
    + destruct (mapM kind_tag [o]) as [tout|] eqn:Ho; [|discriminate]. intros [= <-].
      exists ins, [o], tin, tout. split_and!; try reflexivity; try assumption. apply Hout. reflexivity.
  - intros (ins & outs & tin & tout & -> & Hin & Hout & Hlen & ->). unfold Append.
    apply typed_all in Hin, Hout. rewrite Hin.
    destruct outs as [|o [|o' outs]]; [| |cbn in Hlen; lia].
    + rewrite Hout. reflexivity.
    + rewrite Hout. reflexivity.
Qed.
Lemma append_at name impl g i i' : Append name impl g i = Some i' ->
  is_namespace i' = is_namespace i /\
  (exists im, import_at i' (is_namespace i) name = Some im /\ im_impl im = impl /\ im_namespace im = is_namespace i /\
     exists ins outs, g = Func (KPointer :: ins) outs /\ Forall2 typed ins (im_in im) /\ Forall2 typed outs (im_out im)) /\
  (forall ns name', ns <> is_namespace i \/ name' <> name -> import_at i' ns name' = import_at i ns name').
Proof.
  intros H. apply append_exact in H as (ins & outs & tin & tout & -> & Hin & Hout & _ & ->).
  cbn [is_namespace]. split; [reflexivity|]. unfold import_at. cbn [is_imports]. split.
  - rewrite lookup_insert, lookup_insert. eexists. split; [reflexivity|]. cbn. eauto 10.
  - intros ns name' Hne. destruct (decide (ns = is_namespace i)) as [-> | Hns].
    + rewrite lookup_insert. destruct Hne as [F | Hn]; [congruence|]. rewrite lookup_insert_ne by congruence.
      destruct (is_imports i !! is_namespace i) as [m|]; [reflexivity|]. apply lookup_empty.
    + rewrite lookup_insert_ne by congruence. reflexivity.
Qed.

Lemma names_spec i x : x ∈ Names i <-> exists ns im, import_at i ns x = Some im.
Proof.
  unfold Names, import_at. set (P := fun (s : gset bytes) (M : gmap bytes (gmap bytes import)) =>
    x ∈ s <-> exists ns im, match M !! ns with Some m => m !! x | None => None end = Some im).
  change (P (map_fold (fun _ m s => dom m ∪ s) ∅ (is_imports i)) (is_imports i)).
  apply map_fold_ind; unfold P.
  - split; [set_solver|]. intros (ns & im & H). rewrite lookup_empty in H. discriminate H.
  - intros ns m M s Hn IH. rewrite elem_of_union, IH, elem_of_dom. split.
    + intros [[im H] | (ns' & im & H)].
      * exists ns, im. rewrite lookup_insert. exact H.
      * exists ns', im. rewrite lookup_insert_ne; [exact H|]. intros <-. rewrite Hn in H. discriminate H.
    + intros (ns' & im & H). destruct (decide (ns = ns')) as [<- | Hne].
      * rewrite lookup_insert in H. left. eauto.
      * rewrite lookup_insert_ne in H by congruence. right. eauto.
Qed.

Lemma count_insert (M : gmap bytes (gmap bytes import)) ns m :
  (map_fold (fun _ m n => (size m + n)%nat) 0%nat (<[ns := m]> M) + size (default ∅ (M !! ns)) =
   map_fold (fun _ m n => (size m + n)%nat) 0%nat M + size m)%nat.
Proof.
  destruct (M !! ns) as [m0|] eqn:E; cbn [default id].
  - rewrite <- (insert_delete M ns m0 E) at 2. rewrite <- (insert_delete_insert M ns m).
    rewrite !map_fold_insert_L by (intros; lia || apply lookup_delete). lia.
  - rewrite map_fold_insert_L by (intros; lia || exact E). change (default ∅ None) with (∅ : gmap bytes import).
    cbn [default]. replace (size (∅ : gmap bytes import)) with 0%nat by (symmetry; apply map_size_empty). lia.
Qed.
Lemma count_append name impl g i i' : Append name impl g i = Some i' ->
  Count i' = match import_at i (is_namespace i) name with Some _ => Count i | None => S (Count i) end.
Proof.
  intros H. apply append_exact in H as (ins & outs & tin & tout & _ & _ & _ & _ & ->). unfold Count, import_at. cbn [is_imports].
  set (m := default ∅ (is_imports i !! is_namespace i)).
  pose proof (count_insert (is_imports i) (is_namespace i) (<[name := mkImport impl tin tout (is_namespace i)]> m)) as Hc.
  fold m in Hc. assert (Hm : match is_imports i !! is_namespace i with Some m => m !! name | None => None end = m !! name).
  { unfold m. destruct (is_imports i !! is_namespace i); [reflexivity|]. symmetry. apply lookup_empty. }
  rewrite Hm. destruct (m !! name) as [x|] eqn:E.
  - rewrite map_size_insert_Some in Hc by eauto. lia.
  - rewrite map_size_insert_None in Hc by exact E. lia.
Qed.
Lemma append_twice name impl impl' ins outs i i' :
  Append name impl (Func ins outs) i = Some i' ->
  exists i'', Append name impl' (Func ins outs) i' = Some i'' /\ Count i'' = Count i' /\
    exists im, import_at i'' (is_namespace i) name = Some im /\ im_impl im = impl'.
Proof.
  intros H. pose proof (append_at _ _ _ _ _ H) as (Hns & (im & Him & _) & _).
  apply append_exact in H as (ins' & outs' & tin & tout & Hg & H1 & H2 & H3 & _).
  destruct (Append name impl' (Func ins outs) i') as [i''|] eqn:E.
  - exists i''. split; [reflexivity|]. pose proof (count_append _ _ _ _ _ E) as Hc. rewrite Hns, Him in Hc.
    split; [exact Hc|]. destruct (append_at _ _ _ _ _ E) as (_ & (im' & H4 & H5 & _) & _). rewrite Hns in H4. eauto.
  - exfalso. assert (exists x, Append name impl' (Func ins outs) i' = Some x) as [x Hx]; [|congruence].
    eexists. apply append_exact. eauto 10.
Qed.
