(** C63: every API call costs at least its price in the gas schedule. *)
From Verif Require Import VmModel CallSpec InvSpec GasSpec PriceSpec PriceProofs ExEnv ExCalls ExGas.

(** Whatever the call does and however it ends, the gas left is reduced by the
    price of its schedule entry and of the bytes it asks to have handled, or is
    used up.  Missing: the calls that deploy contracts (C31_refuted), the
    functions charged under another entry (below), and the two functions without
    an entry, for which this says only that gas is not given back. *)
Theorem C63_price_paid_partial : forall `{E : env}, frugal_builtins -> env_ok E -> forall n c h h' r,
  ~ is_deploy c -> subtraction_price c = false ->
  host_ok h -> metered h -> vmApi n c h = (h', r) -> r <> OFuel -> r <> OPanic ->
  left_of h' <= Z.max 0 (left_of h - price c).
Proof.
  intros E HB HE n c h h' r Hd Hs Hok Hm H Hf Hp. pose proof (c63_api HB HE n c h h' r Hd Hok Hm H Hf Hp) as Hl.
  rewrite Hs in Hl. exact Hl.
Qed.
Print Assumptions C63_price_paid_partial.

(** bigIntAdd, bigIntSetInt64, bigIntTMod, bigIntEDiv, bigIntEMod, bigIntAbs,
    bigIntNeg and the bitwise functions are charged the price of bigIntSub. *)
Theorem C63_subtraction_price : forall `{E : env}, frugal_builtins -> env_ok E -> forall n c h h' r,
  subtraction_price c = true ->
  host_ok h -> metered h -> vmApi n c h = (h', r) -> r <> OFuel -> r <> OPanic ->
  left_of h' <= Z.max 0 (left_of h - e_cost E CBigIntSub).
Proof.
  intros E HB HE n c h h' r Hs Hok Hm H Hf Hp.
  assert (Hd : ~ is_deploy c) by (destruct c; try discriminate Hs; exact (fun p => p)).
  pose proof (c63_api HB HE n c h h' r Hd Hok Hm H Hf Hp) as Hl. rewrite Hs in Hl. unfold price_under in Hl.
  destruct c; try discriminate Hs; cbn [data_bytes] in Hl; rewrite Z.add_0_r in Hl; exact Hl.
Qed.
Print Assumptions C63_subtraction_price.

Definition price_cs : list (string * list (string * prog)) := [("s"%string, [])].
Example C63_ex :
  let h := cHost price_cs in let r := vmApi (E := cEnv price_cs) 12 (A_finish 0 50) h in
  host_ok h /\ metered h /\ @frugal_builtins (cEnv price_cs) /\ env_ok (cEnv price_cs) /\
  price (E := cEnv price_cs) (A_finish 0 50) = 101 /\ left_of h = 100000 /\ snd r = OOk 0 /\ left_of (fst r) = 99899.
Proof.
  split; [split; [reflexivity|intros i [= <-]; vm_compute; lia]|]. split; [apply cHost_metered|]. split; [apply exEnv_frugal|].
  split; [apply exEnv_ok|]. vm_compute. tauto.
Qed.

(** C63 fails for bigIntAdd, and likewise for the others: its own price of 100
    is ignored, the price of bigIntSub (1) is charged. *)
Definition addEnv : env :=
  let E := cEnv price_cs in
  mkEnv (e_v2 E) (e_v3 E) (e_aot E) (e_dyn E) (e_esdt E) (fun c => match c with CBigIntAdd => 100 | _ => 1 end)
    (e_protected E) (e_isBuiltin E) (e_builtin E) (e_shard E) (e_isSC E)
    (e_isPayable E) (e_newAddress E) (e_missing_err E) (e_compile E) (e_sha256 E) (e_apiname E) (e_errmsg E) (e_codestr E) (e_order E)
    (e_marshal E) (e_unmarshal E) (e_esdtToken E) (e_blockhash E) (e_blockinfo E) (e_blockseed E) (e_stateroot E) (e_nftNonceKey E)
    (e_hash E) (e_verifySig E).
Theorem C63_add_refuted : exists (E : env) c h, env_ok E /\ metered h /\
  match vmApi 12 c h with
  | (h', OOk _) => ~ left_of h' <= Z.max 0 (left_of h - price c) /\ price c = 100 /\ left_of h - left_of h' = 1
  | _ => False
  end.
Proof.
  exists addEnv, (A_bigIntAdd 0 1 2), (cHost price_cs).
  split; [split; [intros c; unfold in_u64, max_u64; destruct c; cbn; lia|split; [discriminate|intros l; apply (exEnv_ok [])]]|].
  split; [apply cHost_metered|]. vm_compute. split; [congruence|split; reflexivity].
Qed.
Print Assumptions C63_add_refuted.

(** createAsyncCall and setAsyncContextCallback are free of charge: a contract
    stores 200 bytes of call data in its asynchronous context for nothing. *)
Theorem C63_async_context_refuted : exists (E : env) c1 c2 h, env_ok E /\ metered h /\
  match vmApi 12 c1 h with
  | (h1, OOk r1) => r1 = 0 /\ left_of h1 = left_of h /\ ai_map (r_actx (h_rt h)) !! [Byte.x00] = None /\
      match ai_map (r_actx (h_rt h1)) !! [Byte.x00] with
      | Some g => map (fun c => length (gc_data c)) (ax_calls g) = [200%nat]
      | None => False
      end /\
      match vmApi 12 c2 h1 with
      | (h2, OOk r2) => r2 = 0 /\ left_of h2 = left_of h
      | _ => False
      end
  | _ => False
  end.
Proof.
  exists (cEnv price_cs), (A_createAsyncCall 0 1 0 32 0 200 0 0 0 0 100), (A_setAsyncContextCallback 0 1 0 4), (cHost price_cs).
  split; [apply exEnv_ok|]. split; [apply cHost_metered|]. vm_compute. tauto.
Qed.
Print Assumptions C63_async_context_refuted.
