(** The world a setState step leaves, field by field: no function of WorldModel
    is used. *)
From Verif Require Export SetSpec.

(** The account in the world is the one the step declares. *)
Definition placed (t : account) (a : waccount) : Prop :=
  wa_address a = jb_value (a_address t) /\ wa_nonce a = ju_value (a_nonce t) /\
  Some (wa_balance a) = jz_value (a_balance t) /\ wa_username a = jb_value (a_username t) /\
  wa_code a = jb_value (a_code t) /\ wa_owner a = jb_value (a_owner t) /\
  wa_async a = a_async t /\ wa_shard a = ju_value (a_shard t) mod 2 ^ 32 /\
  wa_delta a = 0 /\ wa_reward a = 0 /\ (wa_is_sc a = true <-> jb_value (a_code t) <> []) /\
  (forall k, ~ reserved k ->
     (forall d, last_with (fun d : jbytes * jtree => jb_value (fst d)) (a_storage t) k d ->
        wa_storage a !! k = Some (jt_value (snd d))) /\
     (none_with (fun d : jbytes * jtree => jb_value (fst d)) (a_storage t) k ->
        wa_storage a !! k = None)).

(** The metadata of an instance with a nonce are those declared. *)
Definition declared_meta (d : esdt_data) (i : esdt_inst) : token_meta :=
  if ju_value (ei_nonce i) =? 0 then mkTokMeta 0 (jb_value (ed_token d)) [] 0 [] [] []
  else mkTokMeta (ju_value (ei_nonce i)) (jb_value (ed_token d)) (jb_value (ei_creator i))
         (ju_value (ei_royalties i)) (jb_value (ei_hash i)) [jt_value (ei_uri i)]
         (jb_value (ei_attributes i)).

(** The header of a block: 48 bytes of seed, zeros if none is declared. *)
Definition block_placed (b : block_info) (x : wblock) : Prop :=
  wb_timestamp x = ju_value (bi_timestamp b) /\ wb_nonce x = ju_value (bi_nonce b) /\
  wb_round x = ju_value (bi_round b) /\ wb_epoch x = ju_value (bi_epoch b) mod 2 ^ 32 /\
  length (wb_seed x) = 48%nat /\
  (forall s, bi_seed b = Some s -> length (jt_value s) = 48%nat -> wb_seed x = jt_value s) /\
  (bi_seed b = None -> wb_seed x = repeat Byte.x00 48).
Definition header_placed (b : option block_info) (x : option wblock) : Prop :=
  match b, x with
  | None, None => True
  | Some b, Some x => block_placed b x
  | _, _ => False
  end.
Definition mock_placed (n : new_address) (m : wmock) : Prop :=
  m = mkWMock (jb_value (na_creator n)) (ju_value (na_nonce n)) (jb_value (na_new n)).
