(** Proofs about call data strings and function names. *)
From Verif Require Import CtxModel CallDataModel.
From Coq Require Import ZifyBool ZifyNat ZifyN.

Lemma hex_value_digit n : 0 <= n < 16 -> hex_value (hex_digit n) = Some n.
Proof.
  intros H. assert (n ∈ seqZ 0 16) as Hin by (apply elem_of_seqZ; lia).
  repeat (apply elem_of_cons in Hin as [->|Hin]; [vm_compute; reflexivity|]).
  apply elem_of_nil in Hin. contradiction.
Qed.

Lemma hex_digit_sep n : 0 <= n < 16 -> hex_digit n <> sepByte.
Proof.
  intros H. assert (n ∈ seqZ 0 16) as Hin by (apply elem_of_seqZ; lia).
  repeat (apply elem_of_cons in Hin as [->|Hin]; [vm_compute; discriminate|]).
  apply elem_of_nil in Hin. contradiction.
Qed.

Lemma hex_roundtrip l : hex_decode (hex_encode l) = Some l.
Proof.
  induction l as [|b l IH]; [reflexivity|].
  change (hex_encode (b :: l)) with (hex_digit (bz b `div` 16) :: hex_digit (bz b `mod` 16) :: hex_encode l).
  cbn [hex_decode]. pose proof (bz_range b) as Hb.
  rewrite !hex_value_digit, IH.
  - f_equal. f_equal. rewrite <- (zb_bz b) at 3. f_equal. pose proof (Z.div_mod (bz b) 16). lia.
  - apply Z.mod_pos_bound. lia.
  - split; [apply Z.div_pos; lia|]. apply Z.div_lt_upper_bound; lia.
Qed.

Lemma hex_no_sep l : Forall (fun b => b <> sepByte) (hex_encode l).
Proof.
  induction l as [|b l IH]; [constructor|].
  change (hex_encode (b :: l)) with (hex_digit (bz b `div` 16) :: hex_digit (bz b `mod` 16) :: hex_encode l).
  pose proof (bz_range b) as Hb.
  constructor; [|constructor; [|exact IH]]; apply hex_digit_sep.
  - split; [apply Z.div_pos; lia|]. apply Z.div_lt_upper_bound; lia.
  - apply Z.mod_pos_bound. lia.
Qed.

Lemma split_at_app l r : Forall (fun b => b <> sepByte) l ->
  split_at (l ++ sepByte :: r) = l :: split_at r.
Proof.
  induction 1 as [|b l Hb Hl IH].
  - cbn. rewrite bool_decide_true by reflexivity. reflexivity.
  - cbn [split_at app]. rewrite bool_decide_false by exact Hb. rewrite IH. reflexivity.
Qed.
Lemma split_at_end l : Forall (fun b => b <> sepByte) l -> split_at l = [l].
Proof.
  induction 1 as [|b l Hb Hl IH]; [reflexivity|].
  cbn [split_at]. rewrite bool_decide_false by exact Hb. rewrite IH. reflexivity.
Qed.

Lemma split_call f args : Forall (fun b => b <> sepByte) f ->
  split_at (makeCallData f args) = f :: map hex_encode args.
Proof.
  unfold makeCallData. revert f. induction args as [|a args IH]; intros f Hf.
  - cbn. rewrite app_nil_r. apply split_at_end, Hf.
  - change (args_data (a :: args)) with (sepByte :: hex_encode a ++ args_data args).
    rewrite (split_at_app f _ Hf). f_equal. apply IH, hex_no_sep.
Qed.

Lemma mapM_hex args : mapM hex_decode (map hex_encode args) = Some args.
Proof.
  induction args as [|a args IH]; [reflexivity|]. cbn [map mapM]. rewrite hex_roundtrip, IH. reflexivity.
Qed.

Lemma ParseData_make f args : f <> [] -> Forall (fun b => b <> sepByte) f ->
  ParseData (makeCallData f args) = ROk (f, args).
Proof.
  intros Hf Hs. unfold ParseData. rewrite (split_call _ _ Hs).
  destruct f as [|b f]; [contradiction|]. rewrite mapM_hex. reflexivity.
Qed.

(** * Function names *)
Lemma isASCII_spec s : isASCIIString s = true <-> Forall (fun b => bz b < 128) s.
Proof.
  unfold isASCIIString. induction s as [|b s IH]; cbn; [split; auto|].
  rewrite andb_true_iff, IH, Forall_cons. intuition lia.
Qed.

Lemma valid_name_spec `{E : env} n :
  verifyValidFunctionName n = ROk tt <->
  (n <> [] /\ (length n <= 255)%nat /\ Forall (fun b => bz b < 128) n /\
   e_apiname E n = false /\ e_isBuiltin E n = false /\ n <> str "upgradeContract").
Proof.
  unfold verifyValidFunctionName, isReservedName, beq, UpgradeFunctionName, blen.
  rewrite <- isASCII_spec.
  destruct (Z.of_nat (length n) =? 0) eqn:H1.
  { split; [discriminate|]. intros (H & _). destruct n; [contradiction|]. cbn in H1. lia. }
  destruct (256 <=? Z.of_nat (length n)) eqn:H2.
  { split; [discriminate|]. intros (_ & H & _). lia. }
  destruct (isASCIIString n); cbn [negb].
  2:{ split; [discriminate|]. intros (_ & _ & H & _). discriminate. }
  destruct (e_isBuiltin E n); cbn [orb]. { split; [discriminate|]. intros (_&_&_&_&H&_). discriminate. }
  destruct (e_apiname E n); cbn [orb]. { split; [discriminate|]. intros (_&_&_&H&_). discriminate. }
  destruct (bool_decide_reflect (n = str "upgradeContract")) as [H3|H3].
  { split; [discriminate|]. intros (_&_&_&_&_&H). contradiction. }
  split; [|reflexivity]. intros _. repeat split; try assumption; try lia. intros ->. cbn in H1. lia.
Qed.

Lemma valid_name_total `{E : env} n :
  verifyValidFunctionName n = ROk tt \/ verifyValidFunctionName n = RErr ErrInvalidFunctionName.
Proof.
  unfold verifyValidFunctionName.
  repeat match goal with |- context [if ?b then _ else _] => destruct b end; auto.
Qed.

Lemma verifyFunctionsIn_spec `{E : env} m ns :
  verifyFunctionsIn m ns = ROk tt <->
  Forall (fun n => verifyValidFunctionName n = ROk tt /\ wm_void m n = Some (0, 0)) ns.
Proof.
  induction ns as [|n ns IH]; cbn [verifyFunctionsIn]; [split; auto|].
  rewrite Forall_cons, <- IH. unfold verifyVoidFunction.
  destruct (verifyValidFunctionName n) as [[]|e|] eqn:Hv.
  - destruct (wm_void m n) as [[i o]|].
    + destruct ((i =? 0) && (o =? 0)) eqn:H.
      * assert (i = 0 /\ o = 0) as [-> ->] by lia. intuition congruence.
      * split; [discriminate|]. intros [[_ H2] _]. injection H2 as -> ->. discriminate.
    + split; [discriminate|]. intros [[_ ?] _]. discriminate.
  - split; [discriminate|]. intros [[? _] _]. discriminate.
  - split; [discriminate|]. intros [[? _] _]. discriminate.
Qed.

Lemma verifyFunctions_spec `{E : env} m : env_ok E ->
  verifyFunctions m = ROk tt <->
  Forall (fun n => verifyValidFunctionName n = ROk tt /\ wm_void m n = Some (0, 0)) (map fst (wm_exports m)).
Proof.
  intros (_ & _ & Hp). unfold verifyFunctions. rewrite verifyFunctionsIn_spec.
  rewrite (Hp (map fst (wm_exports m))). reflexivity.
Qed.
