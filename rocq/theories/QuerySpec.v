(** Vocabulary for C59: what the API functions that only answer questions must
    answer.  [h] is the host, [m] the bytes of the asking contract's memory. *)
From Verif Require Import VmTypes CodecSpec MemSpec BigSpec MemModel.

(** the contract's memory holds [d] in the [len] bytes at [off]; the offset must
    lie in the memory, bytes past its end read as zero *)
Definition bytes_at (m : bytes) (off len : Z) (d : bytes) : Prop :=
  (len = 0 /\ d = []) \/ (0 < len /\ 0 <= off <= blen m /\ d = window m off len).

(** the shortest big-endian form of the absolute value, and the shortest two's
    complement form *)
Definition unsigned_bytes (z : Z) (d : bytes) : Prop :=
  be_value d = Z.abs z /\ forall x rest, d = x :: rest -> bz x <> 0.
Definition signed_bytes (z : Z) (d : bytes) : Prop :=
  twos_value d = z /\ forall l, twos_value l = z -> (length d <= length l)%nat.

(** [answers h m c ws hs r]: the call [c] puts the bytes [ws] into memory (offset
    and bytes, in this order), assigns the handles [hs] and returns [r]. *)
Section answers.
Context `{E : env} (h : host) (m : bytes).

Definition held (x : Z) : Z := bval (h_big h) (i32 x).
Definition address_at (o : Z) (a : bytes) : Prop := bytes_at m (i32 o) 32 a.
Definition data_at (o l : Z) (d : bytes) : Prop := bytes_at m (i32 o) (i32 l) d.
(** the node's entry for a token of an account named in memory *)
Definition token_of (ao to tl n : Z) (k : esdt_token) : Prop :=
  exists a t, address_at ao a /\ data_at to tl t /\ e_esdtToken E (h_world h) a t (u64 (i64 n)) = ROk k.
Definition len32 {A} (l : list A) : Z := i32 (Z.of_nat (length l)).

Definition number (ws : list (Z * bytes)) (hs : list (Z * Z)) (r v : Z) : Prop := ws = [] /\ hs = [] /\ r = v.
Definition gives (ws : list (Z * bytes)) (hs : list (Z * Z)) (r o : Z) (d : bytes) (v : Z) : Prop :=
  ws = [(o, d)] /\ hs = [] /\ r = v.
Definition hashed (name : string) (o l ro : Z) (ws : list (Z * bytes)) (hs : list (Z * Z)) (r : Z) : Prop :=
  exists d, data_at o l d /\
    match e_hash E name d with
    | ROk x => gives ws hs r ro x 0
    | _ => number ws hs r 1
    end.
Definition verified (name : string) (key message sig : bytes) : Z :=
  if e_verifySig E name key message sig then 0 else -1.

Definition answers (c : api_call) (ws : list (Z * bytes)) (hs : list (Z * Z)) (r : Z) : Prop :=
  match c with
  (* the running contract and its call *)
  | A_getSCAddress o => gives ws hs r o (r_addr (h_rt h)) 0
  | A_getOwnerAddress o =>
      exists u, w_accounts (h_world h) !! r_addr (h_rt h) = Some u /\ gives ws hs r o (ua_owner u) 0
  | A_getFunction o => gives ws hs r o (r_fn (h_rt h)) (len32 (r_fn (h_rt h)))
  | A_getOriginalTxHash o => gives ws hs r o (vi_origtx (r_input (h_rt h))) 0
  | A_smallIntGetUnsignedArgument id =>
      exists a, 0 <= i32 id /\ vi_args (r_input (h_rt h)) !! Z.to_nat (i32 id) = Some a /\
        be_value a <= max_u64 /\ number ws hs r (i64 (be_value a))
  | A_smallIntGetSignedArgument id | A_int64getArgument id =>
      exists a, 0 <= i32 id /\ vi_args (r_input (h_rt h)) !! Z.to_nat (i32 id) = Some a /\
        in_i64 (twos_value a) /\ number ws hs r (twos_value a)
  (* what nested calls and the contract itself have returned so far *)
  | A_getNumReturnData => number ws hs r (len32 (o_retdata (h_out h)))
  | A_getReturnDataSize id =>
      0 <= i32 id /\
      number ws hs r (match o_retdata (h_out h) !! Z.to_nat (i32 id) with Some d => len32 d | None => 0 end)
  | A_getReturnData id o =>
      0 <= i32 id /\
      match o_retdata (h_out h) !! Z.to_nat (i32 id) with
      | Some d => gives ws hs r o d (len32 d)
      | None => number ws hs r 0
      end
  (* addresses *)
  | A_getShardOfAddress o => exists a, address_at o a /\ number ws hs r (i32 (e_shard E a))
  | A_isSmartContract o => exists a, address_at o a /\ number ws hs r (if e_isSC E a then 1 else 0)
  (* blocks *)
  | A_getBlockHash n o =>
      (* nothing is written for a negative nonce or a block the node does not know *)
      gives ws hs r o (if i64 n <? 0 then [] else match e_blockhash E (i64 n) with ROk d => d | _ => [] end) 0
  | A_getBlockTimestamp => number ws hs r (i64 (e_blockinfo E true "timestamp"))
  | A_getBlockNonce => number ws hs r (i64 (e_blockinfo E true "nonce"))
  | A_getBlockRound => number ws hs r (i64 (e_blockinfo E true "round"))
  | A_getBlockEpoch => number ws hs r (i64 (e_blockinfo E true "epoch"))
  | A_getPrevBlockTimestamp => number ws hs r (i64 (e_blockinfo E false "timestamp"))
  | A_getPrevBlockNonce => number ws hs r (i64 (e_blockinfo E false "nonce"))
  | A_getPrevBlockRound => number ws hs r (i64 (e_blockinfo E false "round"))
  | A_getPrevBlockEpoch => number ws hs r (i64 (e_blockinfo E false "epoch"))
  | A_getBlockRandomSeed o => gives ws hs r o (e_blockseed E true) 0
  | A_getPrevBlockRandomSeed o => gives ws hs r o (e_blockseed E false) 0
  | A_getStateRootHash o => gives ws hs r o (e_stateroot E) 0
  (* tokens *)
  | A_getESDTBalance ao to tl n o =>
      exists k d, token_of ao to tl n k /\ unsigned_bytes (ek_value k) d /\ gives ws hs r o d (len32 d)
  | A_bigIntGetESDTExternalBalance ao to tl n x =>
      exists k, token_of ao to tl n k /\ ws = [] /\ hs = [(i32 x, ek_value k)] /\ r = 0
  | A_getESDTNFTNameLength ao to tl n =>
      exists k, token_of ao to tl n k /\
        number ws hs r (match ek_meta k with Some e => len32 (em_name e) | None => 0 end)
  | A_getESDTNFTAttributeLength ao to tl n =>
      exists k, token_of ao to tl n k /\
        number ws hs r (match ek_meta k with Some e => len32 (em_attributes e) | None => 0 end)
  | A_getESDTNFTURILength ao to tl n =>
      exists k, token_of ao to tl n k /\
        number ws hs r (match ek_meta k with
                        | Some e => match em_uris e with u :: _ => len32 u | [] => 0 end
                        | None => 0 end)
  | A_getESDTTokenData ao to tl n vx po ho no ato co rx uo =>
      exists k d, token_of ao to tl n k /\ unsigned_bytes (ek_value k) d /\ r = len32 d /\
        match ek_meta k with
        | None => ws = [(po, ek_properties k)] /\ hs = [(i32 vx, ek_value k)]
        | Some e =>
            ws = [(po, ek_properties k); (ho, em_hash e); (no, em_name e); (ato, em_attributes e); (co, em_creator e)] ++
                 (match em_uris e with u :: _ => [(uo, u)] | [] => [] end) /\
            hs = [(i32 vx, ek_value k); (i32 rx, em_royalties e)]
        end
  (* handles and bytes *)
  | A_bigIntUnsignedByteLength x => exists d, unsigned_bytes (held x) d /\ number ws hs r (len32 d)
  | A_bigIntSignedByteLength x => exists d, signed_bytes (held x) d /\ number ws hs r (len32 d)
  | A_bigIntGetUnsignedBytes x o => exists d, unsigned_bytes (held x) d /\ gives ws hs r o d (len32 d)
  | A_bigIntGetSignedBytes x o => exists d, signed_bytes (held x) d /\ gives ws hs r o d (len32 d)
  | A_bigIntSetUnsignedBytes x o l => exists d, data_at o l d /\ ws = [] /\ hs = [(i32 x, be_value d)] /\ r = 0
  | A_bigIntSetSignedBytes x o l => exists d, data_at o l d /\ ws = [] /\ hs = [(i32 x, twos_value d)] /\ r = 0
  (* cryptography *)
  | A_sha256 o l ro => hashed "sha256" o l ro ws hs r
  | A_keccak256 o l ro => hashed "keccak256" o l ro ws hs r
  | A_ripemd160 o l ro => hashed "ripemd160" o l ro ws hs r
  | A_verifyBLS ko mo ml so =>
      exists k d s, bytes_at m (i32 ko) 96 k /\ data_at mo ml d /\ bytes_at m (i32 so) 48 s /\
        number ws hs r (verified "bls" k d s)
  | A_verifyEd25519 ko mo ml so =>
      exists k d s, bytes_at m (i32 ko) 32 k /\ data_at mo ml d /\ bytes_at m (i32 so) 64 s /\
        number ws hs r (verified "ed25519" k d s)
  | A_verifySecp256k1 ko kl mo ml so =>
      (* a DER signature: its length is two more than its second byte *)
      exists k d b0 b1 s, (i32 kl = 33 \/ i32 kl = 65) /\ bytes_at m (i32 ko) (i32 kl) k /\ data_at mo ml d /\
        bytes_at m (i32 so) 2 [b0; b1] /\ bytes_at m (i32 so) (bz b1 + 2) s /\
        number ws hs r (verified "secp256k1" k d s)
  | _ => False
  end.
End answers.

(** the memory after writing all of [ws] (C04 says what each write does) *)
Fixpoint all_stored (m : memory) (ws : list (Z * bytes)) (m' : memory) : Prop :=
  match ws with
  | [] => m' = m
  | (o, d) :: ws => exists m1, MemStore m (i32 o) d = (m1, ROk tt) /\ all_stored m1 ws m'
  end.
(** the values of the handles after the assignments [hs] *)
Definition assigned (hs : list (Z * Z)) (v : Z -> Z) (y : Z) : Z :=
  fold_left (fun z p => if y =? fst p then snd p else z) hs (v y).
