(** A checkState step that declares what a setState step sets, value by value,
    and the accounts for which this is consistent: no function of WorldModel is
    used. *)
From Verif Require Export WorldSpec.

Definition exact_bytes (b : bytes) : cbytes := mkCBytes b false (Some (JStr [])) false.
Definition exact_number (n : Z) : cuint := mkCUint n false [] false.
Definition exact_amount (z : option Z) : cbig := mkCBig z false [] false.

Definition mirror_instance (i : esdt_inst) : check_inst :=
  mkCheckInst (exact_number (ju_value (ei_nonce i))) (exact_amount (jz_value (ei_balance i)))
    (exact_bytes (jb_value (ei_creator i))) (exact_number (ju_value (ei_royalties i)))
    (exact_bytes (jb_value (ei_hash i))) (exact_bytes (jt_value (ei_uri i)))
    (exact_bytes (jb_value (ei_attributes i))).
Definition mirror_token (d : esdt_data) : check_esdt :=
  mkCheckEsdt (ed_token d) (map mirror_instance (ed_instances d))
    (exact_number (ju_value (ed_last d))) (ed_roles d) (exact_number (ju_value (ed_frozen d))).
Definition mirror (t : account) : check_account :=
  mkCheckAccount (a_address t) [] (exact_number (ju_value (a_nonce t)))
    (exact_amount (jz_value (a_balance t))) (exact_bytes (jb_value (a_username t)))
    (map (fun kv : jbytes * jtree => (fst kv, exact_bytes (jt_value (snd kv)))) (a_storage t)) false false
    (exact_bytes (jb_value (a_code t))) (exact_bytes (jb_value (a_owner t)))
    (exact_bytes (a_async t)) (map mirror_token (a_esdt t)) false false.

(** An instance with an amount, a 64-bit nonce and 32-bit royalties; without a
    nonce there are no metadata. *)
Definition sound_instance (i : esdt_inst) : Prop :=
  (exists v, jz_value (ei_balance i) = Some v /\ 0 < v) /\
  0 <= ju_value (ei_nonce i) < 2 ^ 64 /\ 0 <= ju_value (ei_royalties i) < 2 ^ 32 /\
  (ju_value (ei_nonce i) = 0 ->
   jb_value (ei_creator i) = [] /\ ju_value (ei_royalties i) = 0 /\ jb_value (ei_hash i) = [] /\
   jt_value (ei_uri i) = [] /\ jb_value (ei_attributes i) = []).
Definition sound_token (d : esdt_data) : Prop :=
  Forall sound_instance (ed_instances d) /\ 0 <= ju_value (ed_last d) < 2 ^ 64 /\
  (ed_instances d = [] -> ju_value (ed_last d) = 0).
(** No name followed by a nonce can be taken for another name with another
    nonce. *)
Definition told_apart (l : list esdt_data) : Prop :=
  forall d d' i i' nb nb', d ∈ l -> d' ∈ l -> i ∈ ed_instances d -> i' ∈ ed_instances d' ->
  nonce_bytes (ju_value (ei_nonce i)) nb -> nonce_bytes (ju_value (ei_nonce i')) nb' ->
  jb_value (ed_token d) ++ nb = jb_value (ed_token d') ++ nb' ->
  jb_value (ed_token d) = jb_value (ed_token d') /\
  ju_value (ei_nonce i) = ju_value (ei_nonce i').
Definition sound_account (t : account) : Prop :=
  (forall kv, kv ∈ a_storage t -> ~ reserved (jb_value (fst kv))) /\
  Forall sound_token (a_esdt t) /\
  NoDup (map (fun d => jb_value (ed_token d)) (a_esdt t)) /\ told_apart (a_esdt t).

(** Protobuf gives back what it encodes, for tokens with an amount. *)
Definition codec_keeps (W : wenv) : Prop :=
  (forall t, tk_value t <> None -> (forall m, tk_meta t = Some m -> 0 <= tm_nonce m < 2 ^ 64) ->
     we_marshal W t <> [] /\ we_unmarshal W (we_marshal W t) = Some t) /\
  (forall l, we_marshal_roles W l = [] /\ l = [] \/
     we_marshal_roles W l <> [] /\ we_unmarshal_roles W (we_marshal_roles W l) = Some l).
