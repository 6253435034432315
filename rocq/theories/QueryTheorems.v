(** C59: the API functions that answer questions answer with the node's and the
    call's own data, and change nothing else. *)
From Verif Require Import VmModel CodecSpec BigSpec IdentSpec GasSpec QuerySpec QueryProofs ExEnv ExSafe StoSpec NftProofs ExNft.

Theorem C59_queries_answer : forall `{E : env} fuel c h m ws hs r m',
  counting h -> cur_mem h = ROk m -> blen (m_data m) <= max_i32 ->
  Z.of_nat (length (vi_args (r_input (h_rt h)))) <= max_i32 -> Z.of_nat (length (o_retdata (h_out h))) <= max_i32 ->
  answers h (m_data m) c ws hs r -> all_stored m ws m' ->
  exists h', vmApi fuel c h = (h', OOk r) /\ cur_mem h' = ROk m' /\
    (forall y, bval (h_big h') y = assigned hs (bval (h_big h)) y) /\ only_own h h'.
Proof. intros E fuel c h m ws hs r m'. apply c59. Qed.
Print Assumptions C59_queries_answer.

(** the gas reported is what is left once the question has been paid for *)
Theorem C59_gas_left : forall `{E : env} fuel h, env_ok E -> metered h ->
  exists h', vmApi fuel A_getGasLeft h = (h', OOk (left_of h')) /\
    left_of h' = Z.max 0 (left_of h - e_cost E CGetGasLeft) /\
    only_own h h' /\ cur_mem h' = cur_mem h /\ h_big h' = h_big h.
Proof. intros E fuel h. apply c59_gas. Qed.
Print Assumptions C59_gas_left.

(** A contract whose memory reads "hello", with one returned value, 1000 in
    handle 3, asking for the returned value, for handle 3 and for a hash. *)
Example C59_ex :
  counting safeHost /\ metered safeHost /\ exists m, cur_mem safeHost = ROk m /\
  answers (E := safeEnv) safeHost (m_data m) (A_getReturnData 0 1) [(1, str "ret")] [] 3 /\
  answers (E := safeEnv) safeHost (m_data m) (A_bigIntGetUnsignedBytes 3 0) [(0, [zb 3; zb 232])] [] 2 /\
  answers (E := safeEnv) safeHost (m_data m) (A_sha256 1 3 0) [(0, str "ell")] [] 0 /\
  answers (E := safeEnv) safeHost (m_data m) (A_bigIntSetSignedBytes 7 1 2) [] [(7, 25964)] 0 /\
  exists m', all_stored m [(1, str "ret")] m' /\ m_data m' = str "hreto".
Proof.
  split; [exists 0%nat, (ex_inst (str "hello")); repeat split; discriminate|].
  split. { split; [exists 0%nat, (ex_inst (str "hello")); split; reflexivity|]. split; [|split; discriminate].
    intros c x Hx. change (h_insts safeHost) with ({[0%nat := ex_inst (str "hello")]} : gmap nat inst) in Hx.
    apply lookup_singleton_Some in Hx as [_ <-]. discriminate. }
  exists (in_mem (ex_inst (str "hello"))). split; [reflexivity|].
  split; [vm_compute; repeat split; discriminate|].
  split; [exists [zb 3; zb 232]; split; [apply unsigned_bytes_is; vm_compute; reflexivity|repeat split]|].
  split; [exists (str "ell"); split; [right; repeat split; vm_compute; intuition discriminate|vm_compute; repeat split]|].
  split; [exists (str "el"); split; [right; repeat split; vm_compute; intuition discriminate|vm_compute; repeat split]|].
  eexists. split; [eexists; split; [vm_compute; reflexivity|reflexivity]|]. reflexivity.
Qed.

(** The last nonce of a token of an account: the number the node keeps for it (of
    which 64 bits are returned), and nothing else changes; 0 for an account whose
    storage the contract may not read. *)
Theorem C59_nft_nonce : forall `{E : env} fuel ao to tl a t h,
  env_ok E -> calling h ->
  mem_load h (i32 ao) 32 = ROk a -> mem_load h (i32 to) (i32 tl) = ROk t ->
  reserved_key (e_nftNonceKey E) -> go_len (e_nftNonceKey E ++ t) ->
  let v := node_value (h_world h) a (e_nftNonceKey E ++ t) in
  go_len v -> may_read_from h a ->
  exists h', vmApi fuel (A_getCurrentESDTNFTNonce ao to tl) h = (h', OOk (i64 (be_value v mod 2 ^ 64))) /\
    cur_mem h' = cur_mem h /\ h_out h' = h_out h /\ sto_frame h h'.
Proof. exact @nft_nonce. Qed.
Print Assumptions C59_nft_nonce.

Theorem C59_nft_nonce_denied : forall `{E : env} fuel ao to tl a t h,
  env_ok E -> calling h ->
  mem_load h (i32 ao) 32 = ROk a -> mem_load h (i32 to) (i32 tl) = ROk t ->
  go_len (e_nftNonceKey E ++ t) -> ~ may_read_from h a ->
  exists h', vmApi fuel (A_getCurrentESDTNFTNonce ao to tl) h = (h', OOk 0) /\
    cur_mem h' = cur_mem h /\ h_out h' = h_out h /\ sto_frame h h'.
Proof. exact @nft_denied. Qed.
Print Assumptions C59_nft_nonce_denied.

Example C59_nft_nonce_ex :
  let E := exEnv [] in
  calling nft_host /\ mem_load nft_host 4 32 = ROk (addr "s") /\ mem_load nft_host 0 4 = ROk (str "TK-1") /\
  reserved_key (e_nftNonceKey E) /\ may_read_from nft_host (addr "s") /\ ~ may_read_from nft_host (addr "p") /\
  be_value (node_value (h_world nft_host) (addr "s") (e_nftNonceKey E ++ str "TK-1")) = 260 /\
  snd (vmApi 0 (A_getCurrentESDTNFTNonce 4 0 4) nft_host) = OOk 260 /\
  snd (vmApi 0 (A_getCurrentESDTNFTNonce 36 0 4) nft_host) = OOk 0.
Proof.
  cbv zeta. split.
  { eexists _, _. split; [reflexivity|]. split; [reflexivity|]. split; [vm_compute; split; discriminate|]. eexists. reflexivity. }
  split; [vm_compute; reflexivity|]. split; [vm_compute; reflexivity|]. split; [exists (str "nft"); reflexivity|].
  split; [left; reflexivity|]. split.
  { intros [H|(u & Hu & Hr)]; [vm_compute in H; discriminate|]. vm_compute in Hu. injection Hu as <-. destruct Hr as (x & y & Hm & Hb). vm_compute in Hm. injection Hm as <- <-. vm_compute in Hb. discriminate. }
  split_and!; vm_compute; reflexivity.
Qed.
