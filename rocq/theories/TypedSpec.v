(** Vocabulary for C62: numbers kept in storage. *)
From Verif Require Import VmTypes CodecSpec BigSpec StoSpec QuerySpec.

(** [keeps_number h c ko kl z d]: the call [c] keeps the number [z] as the bytes
    [d] under the key of length [kl] at [ko].  The int64 functions are those for
    unsigned numbers: a 64-bit integer is kept as its unsigned reading. *)
Definition keeps_number (h : host) (c : api_call) (ko kl z : Z) (d : bytes) : Prop :=
  match c with
  | A_smallIntStorageStoreUnsigned o l v | A_int64storageStore o l v =>
      o = ko /\ l = kl /\ z = u64 (i64 v) /\ unsigned_bytes z d
  | A_smallIntStorageStoreSigned o l v => o = ko /\ l = kl /\ z = i64 v /\ signed_bytes z d
  | A_bigIntStorageStoreUnsigned o l x => o = ko /\ l = kl /\ z = held h x /\ unsigned_bytes z d
  | _ => False
  end.

(** [reads_number d c ko kl hs r]: given that the bytes [d] are kept under the
    key at [ko], the call [c] assigns the handles [hs] and returns [r].  Numbers
    that do not fit the type of the result are not covered (C09). *)
Definition reads_number (d : bytes) (c : api_call) (ko kl : Z) (hs : list (Z * Z)) (r : Z) : Prop :=
  match c with
  | A_smallIntStorageLoadUnsigned o l | A_int64storageLoad o l =>
      o = ko /\ l = kl /\ be_value d <= max_u64 /\ hs = [] /\ r = i64 (be_value d)
  | A_smallIntStorageLoadSigned o l => o = ko /\ l = kl /\ in_i64 (twos_value d) /\ hs = [] /\ r = twos_value d
  | A_bigIntStorageLoadUnsigned o l x => o = ko /\ l = kl /\ hs = [(i32 x, be_value d)] /\ r = len32 d
  | _ => False
  end.

(** the call reading back what [c] keeps, from the key at [ko]; what it returns
    and assigns if [c] kept [z] *)
Definition reads_back (c c' : api_call) (ko kl z : Z) (hs : list (Z * Z)) (r : option Z) : Prop :=
  match c, c' with
  | A_smallIntStorageStoreUnsigned _ _ v, A_smallIntStorageLoadUnsigned o l
  | A_int64storageStore _ _ v, A_int64storageLoad o l
  | A_smallIntStorageStoreSigned _ _ v, A_smallIntStorageLoadSigned o l =>
      o = ko /\ l = kl /\ hs = [] /\ r = Some (i64 v)
  | A_bigIntStorageStoreUnsigned _ _ x, A_bigIntStorageLoadUnsigned o l y =>
      o = ko /\ l = kl /\ 0 <= z /\ hs = [(i32 y, z)] /\ r = None
  | _, _ => False
  end.

(** what the call leaves alone: everything but cells, memory, gas and handles *)
Definition sto_frame_but_big (h h' : host) : Prop := sto_frame (set_h_big (h_big h') h) h'.
