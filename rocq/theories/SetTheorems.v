(** The property theorems about setState steps. *)
From Verif Require Import Base ScenModel WorldModel WorldSpec SetSpec SetProofs ExWorld ExSet.
From stdpp Require Import gmap.
Local Open Scope Z_scope.

(** C75: a checkState step that declares, value by value, what a setState step
    has set passes right after it, for accounts whose tokens have amounts, no
    metadata where there is no nonce, 32-bit royalties, a last nonce only with
    instances, and keys that can be told apart. *)
Theorem C75_set_then_check_partial :
  forall (W : wenv) c c' l prev cur hashes mocks checkGas w w' more,
  codec_ok W -> codec_keeps W -> Forall sound_account l ->
  NoDup (map (fun t => jb_value (a_address t)) l) ->
  more = true \/ mw_accts w = ∅ ->
  ExecuteStep checkGas (SetState c l prev cur hashes mocks) w = (w', SOk tt) ->
  ExecuteStep checkGas (CheckState c' (Some (mkCheckAccounts (map mirror l) more))) w' = (w', SOk tt).
Proof.
  intros W c c' l prev cur hashes mocks g w w' more.
  exact (set_check W c c' l prev cur hashes mocks g w w' more).
Qed.
Print Assumptions C75_set_then_check_partial.

Example C75_set_then_check_partial_ex :
  codec_ok silent /\ codec_keeps silent /\ Forall sound_account the_accounts /\
  NoDup (map (fun t => jb_value (a_address t)) the_accounts) /\ mw_accts empty_world = ∅ /\
  snd (ExecuteStep (W := silent) false (SetState [] the_accounts None None [] []) empty_world) = SOk tt.
Proof.
  split; [apply machine_codec|]. split; [apply machine_keeps|]. split; [apply accounts_sound|].
  split; [apply accounts_nodup|]. split; [reflexivity|]. vm_compute. reflexivity.
Qed.

(** C75: none of the conditions on tokens can be left out.  The last nonce of a
    token without instances is not set. *)
Theorem C75_last_nonce_refuted :
  exists (W : wenv) t, codec_ok W /\ codec_keeps W /\
  t = with_tokens [mkEsdtData (jb (str "GEM")) [] (ju 7) [] (ju 0)] /\
  let r := ExecuteStep false (SetState [] [t] None None [] []) empty_world in
  snd r = SOk tt /\
  snd (ExecuteStep false (CheckState [] (Some (mkCheckAccounts [mirror t] false))) (fst r)) = SErr.
Proof.
  exists silent. eexists. split; [apply machine_codec|]. split; [apply machine_keeps|]. split; [reflexivity|].
  cbv zeta. split; vm_compute; reflexivity.
Qed.
Print Assumptions C75_last_nonce_refuted.

(** C75: the creator of a token without nonce is set, and not found again. *)
Theorem C75_no_nonce_refuted :
  exists (W : wenv) t, codec_ok W /\ codec_keeps W /\
  t = with_tokens [mkEsdtData (jb (str "GEM"))
        [mkEsdtInst (ju 0) (jz 50) (jb bob) (ju 0) (jb []) (jt []) (jb [])] (ju 0) [] (ju 0)] /\
  let r := ExecuteStep false (SetState [] [t] None None [] []) empty_world in
  snd r = SOk tt /\
  snd (ExecuteStep false (CheckState [] (Some (mkCheckAccounts [mirror t] false))) (fst r)) = SErr.
Proof.
  exists silent. eexists. split; [apply machine_codec|]. split; [apply machine_keeps|]. split; [reflexivity|].
  cbv zeta. split; vm_compute; reflexivity.
Qed.
Print Assumptions C75_no_nonce_refuted.

(** C75: instance 66 of token "A" and the token "AB" share their key, as the
    byte 66 is the letter B: one takes the place of the other. *)
Theorem C75_same_key_refuted :
  exists (W : wenv) t, codec_ok W /\ codec_keeps W /\
  t = with_tokens [mkEsdtData (jb (str "A")) [plain_instance 66 10] (ju 66) [] (ju 0);
                   mkEsdtData (jb (str "AB")) [plain_instance 0 20] (ju 0) [] (ju 0)] /\
  let r := ExecuteStep false (SetState [] [t] None None [] []) empty_world in
  snd r = SOk tt /\
  snd (ExecuteStep false (CheckState [] (Some (mkCheckAccounts [mirror t] false))) (fst r)) = SErr.
Proof.
  exists silent. eexists. split; [apply machine_codec|]. split; [apply machine_keeps|]. split; [reflexivity|].
  cbv zeta. split; vm_compute; reflexivity.
Qed.
Print Assumptions C75_same_key_refuted.

(** C75: royalties are cut to 32 bits. *)
Theorem C75_royalties_refuted :
  exists (W : wenv) t, codec_ok W /\ codec_keeps W /\
  t = with_tokens [mkEsdtData (jb (str "GEM"))
        [mkEsdtInst (ju 1) (jz 50) (jb bob) (ju (2 ^ 32)) (jb []) (jt []) (jb [])] (ju 1) [] (ju 0)] /\
  let r := ExecuteStep false (SetState [] [t] None None [] []) empty_world in
  snd r = SOk tt /\
  snd (ExecuteStep false (CheckState [] (Some (mkCheckAccounts [mirror t] false))) (fst r)) = SErr.
Proof.
  exists silent. eexists. split; [apply machine_codec|]. split; [apply machine_keeps|]. split; [reflexivity|].
  cbv zeta. split; vm_compute; reflexivity.
Qed.
Print Assumptions C75_royalties_refuted.
