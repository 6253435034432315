(** C43: when compiled code is saved. *)
From Verif Require Import MathProofs VmModel WpProofs EffProofs EffFrameProofs EffWalkProofs EffTopProofs CallSpec KeepProofs CallProofs
  CodeSpec DeploySpec DeployProofs StartProofs.
From Coq Require Import ZifyBool ZifyNat ZifyN.

Section Kept.
Context `{E : env}.

(** new code that compiles is in the cache after the start, refused or not *)
Lemma Start_kept code g m h h' r : e_compile E code = Some m -> (length (h_ist h) < maxWasmerInstances)%nat ->
  StartWasmerInstance code g true h = (h', r) -> h_cache h' !! e_sha256 E code = Some code.
Proof.
  intros Hm Hn H. unfold StartWasmerInstance in H. rewrite bind_gets in H.
  destruct (Nat.leb_spec maxWasmerInstances (length (h_ist h))) as [Hl|_]; [lia|].
  rewrite bind_gets in H. set (hash := GetCodeHash h (r_addr (h_rt h))) in *.
  assert (Hnew : makeInstanceFromContractByteCode code hash g true h = (h', r) ->
    h_cache h' !! e_sha256 E code = Some code).
  { intros H0. unfold makeInstanceFromContractByteCode in H0. rewrite Hm in H0.
    unfold bind at 1, new_instance in H0. cbv zeta beta iota in H0. rewrite bind_modify in H0. cbn [orb] in H0.
    set (h1 := set_h_cache _ _) in H0.
    assert (Hc1 : h_cache h1 !! e_sha256 E code = Some code) by (unfold h1; cbn; apply lookup_insert).
    clearbody h1.
    assert (Kc : keeps h_cache VerifyContractCode) by kp.
    assert (Kw : keeps h_cache CleanWasmerInstance).
    { intros hx hy ry Hy. unfold CleanWasmerInstance in Hy. destruct (h_cur hx); injection Hy as <- _; reflexivity. }
    assert (K : keeps h_cache (r <- try VerifyContractCode ;; match r with inl _ => ret tt | inr e => CleanWasmerInstance ;;; fail e end)).
    { apply keeps_bind; [apply keeps_try, Kc|]. intros [u|e]; [kp|]. apply keeps_bind; [exact Kw|kp]. }
    apply K in H0. congruence. }
  unfold bind in H. unfold makeInstanceFromCompiledCode in H. cbn [orb] in H.
  destruct (e_aot E); exact (Hnew H).
Qed.
End Kept.
