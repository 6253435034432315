(** A small marshalizer and some messages, for the examples. *)
From Verif Require Import Base IpcModel IpcSpec IpcProofs.
From Coq Require Import ZifyBool ZifyNat ZifyN.

(** Nonce, kind, length of the error, error, fields. *)
Definition tinyMarshal (m : msg) : ires bytes :=
  let c := g_content m in
  IOk (PutUint32 (g_nonce m) ++ PutUint32 (g_kind c)
       ++ PutUint32 (blen (g_error c)) ++ g_error c ++ g_body c).
Definition tinyUnmarshal (into : msg) (data : bytes) : ires msg :=
  match data with
  | n1 :: n2 :: n3 :: n4 :: k1 :: k2 :: k3 :: k4
    :: e1 :: e2 :: e3 :: e4 :: rest =>
      let e := Z.to_nat (Uint32 [e1; e2; e3; e4]) in
      IOk (mkMsg (Uint32 [n1; n2; n3; n4])
             (mkContent (g_type (g_content into)) (Uint32 [k1; k2; k3; k4])
                (firstn e rest)
                (match g_type (g_content into) with
                 | TOf _ => skipn e rest
                 | _ => []
                 end)))
  | _ => IErr EDecode
  end.
Definition tiny : codec := mkCodec tinyMarshal tinyUnmarshal.

(** What it can carry. *)
Definition small (c : content) : Prop :=
  (exists k, g_type c = TOf k) /\ 0 <= g_kind c < 4294967296
  /\ blen (g_error c) + blen (g_body c) + 12 < 4294967296.

Lemma tiny_decodes n c into :
  0 <= n < 4294967296 -> 0 <= g_kind c < 4294967296 ->
  blen (g_error c) < 4294967296 ->
  exists data, Marshal tiny (mkMsg n c) = IOk data
  /\ blen data = 12 + blen (g_error c) + blen (g_body c)
  /\ Unmarshal tiny into data
     = IOk (mkMsg n (mkContent (g_type (g_content into)) (g_kind c) (g_error c)
              (match g_type (g_content into) with
               | TOf _ => g_body c | _ => [] end))).
Proof.
  intros Hn Hk He. eexists. split; [reflexivity|]. split.
  - cbn [g_content g_nonce]. rewrite !blen_app. unfold blen. cbn [length PutUint32]. lia.
  - cbn [g_content g_nonce]. unfold Unmarshal, tiny, tinyUnmarshal, PutUint32.
    cbn [app].
    fold (PutUint32 n). fold (PutUint32 (g_kind c)).
    fold (PutUint32 (blen (g_error c))).
    rewrite !uint32_put by (try done; pose proof (blen_nonneg (g_error c)); lia).
    unfold blen. rewrite Nat2Z.id.
    rewrite firstn_app, Nat.sub_diag, firstn_all. cbn [firstn].
    rewrite app_nil_r. rewrite skipn_app, Nat.sub_diag, skipn_all.
    done.
Qed.

Lemma tiny_carries : carries tiny small.
Proof.
  intros n c Hn ((k & Ht) & Hk & Hl).
  pose proof (blen_nonneg (g_body c)). pose proof (blen_nonneg (g_error c)).
  destruct (tiny_decodes n c NewUndefinedMessage Hn Hk) as (data & H1 & H2 & _); [lia|].
  exists data. split_and!; [done|lia|].
  intros m Hm.
  destruct (tiny_decodes n c m Hn Hk) as (data' & H3 & H4 & H5); [lia|].
  rewrite H1 in H3. injection H3 as <-. rewrite H5, Hm. cbn [g_type].
  rewrite Ht. destruct c; cbn in *; subst; done.
Qed.

Lemma tiny_strips : strips tiny small.
Proof.
  intros n c Hn ((k & Ht) & Hk & Hl).
  pose proof (blen_nonneg (g_body c)). pose proof (blen_nonneg (g_error c)).
  destruct (tiny_decodes n c NewUndefinedMessage Hn Hk) as (data & H1 & H2 & _); [lia|].
  exists data. split_and!; [done|lia|].
  intros m Hm.
  destruct (tiny_decodes n c m Hn Hk) as (data' & H3 & H4 & H5); [lia|].
  rewrite H1 in H3. injection H3 as <-. rewrite H5, Hm. done.
Qed.

(** A content of some kind. *)
Definition some (k : Z) (b : string) : content := mkContent (TOf k) k [] (str b).

Definition knownb (k : Z) : bool :=
  (0 <=? k) && (k <? KLastKind)
  && negb (existsb (Z.eqb k)
        [KFirstKind; KGasScheduleChangeRequest; KGasScheduleChangeResponse;
         KBlockchainProcessBuiltinFunctionRequest;
         KBlockchainProcessBuiltinFunctionResponse; KUndefinedRequestOrResponse]).

Lemma known_built k e b : knownb k = true -> built (mkContent (TOf k) k e b).
Proof.
  unfold knownb, built, unregistered. cbn [g_type g_kind existsb]. intros H.
  split; [done|]. lia.
Qed.

Lemma known_passes k e b :
  knownb k = true -> blen e + blen b < 1000 -> passes small (mkContent (TOf k) k e b).
Proof.
  intros Hk Hb. split; [|by apply known_built].
  unfold knownb, KLastKind in Hk. split_and!; cbn [g_kind g_type g_error g_body];
    [by exists k|lia..].
Qed.

Lemma some_passes k b :
  knownb k = true -> blen (str b) < 1000 -> passes small (some k b).
Proof. intros Hk Hb. apply known_passes; [done|]. change (blen []) with 0. lia. Qed.

(** A virtual machine that reads two cells and says what it found. *)
Definition asking_vm (_ : content) : talk :=
  Ask (some KBlockchainGetStorageDataRequest "a") (fun x =>
  Ask (some KBlockchainGetStorageDataRequest "b") (fun y =>
  match x, y with
  | IOk x, IOk y =>
      Say (mkContent (TOf KContractResponse) KContractResponse []
             (firstn 100 (g_body x) ++ firstn 100 (g_body y)))
  | _, _ => Say (some KContractResponse "failed")
  end)).

(** A hook that counts the questions and echoes them. *)
Definition echo (w : nat) (q : content) : nat * content :=
  (S w, mkContent (TOf KBlockchainGetStorageDataResponse)
          KBlockchainGetStorageDataResponse [] (firstn 50 (g_body q) ++ firstn 50 (g_body q))).

(** A virtual machine that takes a snapshot first. *)
Definition snapshot_vm (_ : content) : talk :=
  Ask (some KBlockchainGetSnapshotRequest "") (fun _ => Say (some KContractResponse "done")).

Lemma echo_passes w q : passes small (snd (echo w q)).
Proof.
  unfold echo. cbn [snd]. apply known_passes; [vm_compute; done|].
  rewrite blen_app. unfold blen. rewrite !firstn_length. cbn [length]. lia.
Qed.

Lemma asking_proper w c : proper small echo w (asking_vm c).
Proof.
  unfold asking_vm. cbn [proper].
  do 3 (split; [first [apply echo_passes|apply some_passes; vm_compute; done|right; left; done]|]).
  do 3 (split; [first [apply echo_passes|apply some_passes; vm_compute; done|right; left; done]|]).
  split; [|left; done]. cbn [snd echo].
  apply known_passes; [vm_compute; done|].
  rewrite blen_app. unfold blen. rewrite !firstn_length. cbn [length]. lia.
Qed.

(** A message that encodes to exactly four gigabytes. *)
Definition huge : msg :=
  mkMsg 1 (mkContent (TOf KContractCallRequest) KContractCallRequest []
             (zeros 4294967284)).

Lemma cut_short :
  exists C m data frame,
  Marshal C m = IOk data
  /\ Unmarshal C (CreateMessage (g_kind (g_content m))) data = IOk m
  /\ built (g_content m)
  /\ Sender_Send C m = IOk frame
  /\ fst (Receiver_Receive C [frame]) = IErr EDecode.
Proof.
  exists tiny, huge. unfold huge.
  assert (blen (zeros 4294967284) = 4294967284) as Hz by (apply blen_zeros; lia).
  generalize dependent (zeros 4294967284). intros z Hz.
  set (c := mkContent (TOf KContractCallRequest) KContractCallRequest [] z).
  destruct (tiny_decodes 1 c (CreateMessage KContractCallRequest))
    as (data & H1 & H2 & H3); [lia|vm_compute; intuition congruence|vm_compute; done|].
  destruct (long_received tiny (mkMsg 1 c) data 0 H1) as (b & H4 & s' & H5 & H6);
    [rewrite H2; cbn [c g_error g_body]; rewrite Hz; change (blen []) with 0; lia|lia|vm_compute; intuition congruence|].
  exists data, b. split_and!; [exact H1|exact H3| |exact H4|].
  - apply known_built. vm_compute. done.
  - rewrite H5. reflexivity.
Qed.
