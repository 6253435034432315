(** An environment and a running contract for the examples of C56: hashes of at
    most 32 bytes, one returned value, one argument. *)
From Verif Require Import ExEnv SafeSpec SafeProofs.
From Coq Require Import ZifyBool ZifyNat ZifyN.

Definition safeEnv : env :=
  let E := exEnv [] in
  mkEnv (e_v2 E) (e_v3 E) (e_aot E) (e_dyn E) (e_esdt E) (e_cost E) (e_protected E) (e_isBuiltin E) (e_builtin E) (e_shard E) (e_isSC E)
    (e_isPayable E) (e_newAddress E) (e_missing_err E) (e_compile E) (e_sha256 E) (e_apiname E) (e_errmsg E) (e_codestr E) (e_order E)
    (e_marshal E) (e_unmarshal E) (e_esdtToken E) (e_blockhash E) (e_blockinfo E) (e_blockseed E) (e_stateroot E) (e_nftNonceKey E)
    (fun _ d => ROk (take 32 d)) (e_verifySig E).

Definition safeHost : host :=
  let h := ex_running (str "hello") (mkWorld {[addr "s" := sc_user (str "code") 7 {[str "key" := str "value"]}]} ∅) in
  set_h_big {[3 := 1000]} (set_h_rt (set_r_input (input_of (addr "u") [str "arg"] 5 1000) (h_rt h)) (set_h_out (set_o_retdata [str "ret"] (h_out h)) h)).

Lemma small_take n (b : bytes) : (n < 1000)%nat -> small (take n b).
Proof. intros H. unfold small, blen, max_i32. rewrite take_length. lia. Qed.
Lemma safeEnv_returns : hooks_return safeEnv.
Proof.
  split; [discriminate|]. split; [discriminate|]. split.
  { intros w a t n k [= <-]. split; [reflexivity|]. split; [discriminate|]. intros m Hm. discriminate Hm. }
  split; [intros n b [= <-]; discriminate|]. split; [intros b; discriminate|]. split; [discriminate|].
  split; [intros x d b [= <-]; apply small_take; lia|]. split; [discriminate|]. split; [|discriminate].
  intros a n b [= <-]. unfold small, blen, max_i32. rewrite app_length, take_length. cbn [length]. lia.
Qed.
Lemma safeHost_alive : alive safeHost.
Proof. split; [|discriminate]. exists 0%nat, (ex_inst (str "hello")). split; reflexivity. Qed.
Lemma safeHost_small : small_host safeHost.
Proof.
  split; [discriminate|]. split; [discriminate|]. split.
  { split; [discriminate|]. split; [intros a [->|[]%elem_of_nil]%elem_of_cons; discriminate|]. split; [reflexivity|]. split; [intros t []%elem_of_nil|discriminate]. }
  split. { split; [intros d [->|[]%elem_of_nil]%elem_of_cons; discriminate|]. intros a x Hx. change (o_accounts (h_out safeHost)) with (∅ : gmap bytes out_account) in Hx. rewrite lookup_empty in Hx. discriminate. }
  split.
  - intros a u Hu. change (w_accounts (h_world safeHost)) with ({[addr "s" := sc_user (str "code") 7 {[str "key" := str "value"]}]} : gmap bytes user_account) in Hu.
    apply lookup_singleton_Some in Hu as [_ <-]. split; [discriminate|]. split; [reflexivity|]. intros k v Hv. change (ua_storage _) with ({[str "key" := str "value"]} : gmap bytes bytes) in Hv.
    apply lookup_singleton_Some in Hv as [_ <-]. discriminate.
  - intros k v Hv. change (h_big safeHost) with ({[3 := 1000]} : gmap Z Z) in Hv. apply lookup_singleton_Some in Hv as [_ <-]. reflexivity.
Qed.
