(** What the notations of scenario files mean; no interpreter here.  Numbers are
    [Z], [be_value] and [twos_value] (CodecSpec) give byte strings their values. *)
From Coq Require Import Sorted.
From Verif Require Import Base CodecSpec JsonModel.

(** * Digits *)

Definition hex_char (c : byte) (v : Z) : Prop :=
  (48 <= bz c <= 57 /\ v = bz c - 48)
  \/ (97 <= bz c <= 102 /\ v = bz c - 87)
  \/ (65 <= bz c <= 70 /\ v = bz c - 55).

(** Two hexadecimal digits for every byte. *)
Inductive hex_text : bytes -> bytes -> Prop :=
| ht_nil : hex_text [] []
| ht_byte a b x y z h l :
    hex_char a x -> hex_char b y -> bz z = 16 * x + y -> hex_text h l ->
    hex_text (a :: b :: h) (z :: l).

(** The value of digits in a base, most significant first. *)
Fixpoint place_value (base : Z) (vs : list Z) : Z :=
  match vs with
  | [] => 0
  | v :: r => v * base ^ Z.of_nat (length r) + place_value base r
  end.
Definition numeral (base : Z) (ds : bytes) (n : Z) : Prop :=
  ds <> [] /\ exists vs,
    Forall2 (fun c v => bz c = 48 + v /\ 0 <= v < base) ds vs /\ n = place_value base vs.
(** Digits with an optional sign. *)
Definition signed_numeral (base : Z) (t : bytes) (z : Z) : Prop :=
  numeral base t z
  \/ (exists ds, t = Byte.x2b :: ds /\ numeral base ds z)
  \/ (exists ds n, t = Byte.x2d :: ds /\ numeral base ds n /\ z = - n).

(** [t] is [ds] with underscores and commas strewn in. *)
Inductive grouped : bytes -> bytes -> Prop :=
| gr_nil : grouped [] []
| gr_char c t ds : c <> Byte.x5f -> c <> Byte.x2c -> grouped t ds -> grouped (c :: t) (c :: ds)
| gr_group c t ds : c = Byte.x5f \/ c = Byte.x2c -> grouped t ds -> grouped (c :: t) ds.

(** Big-endian bytes without a leading zero. *)
Definition shortest (b : bytes) (n : Z) : Prop :=
  be_value b = n /\ head b <> Some Byte.x00.

(** * Numbers *)

(** Unsigned: bytes in hexadecimal (a missing first digit is a zero), numbers in
    binary or decimal. *)
Inductive magnitude : bytes -> bytes -> Prop :=
| mag_hex x h b : x = Byte.x78 \/ x = Byte.x58 -> hex_text h b ->
    magnitude (Byte.x30 :: x :: h) b
| mag_hex_odd x h b : x = Byte.x78 \/ x = Byte.x58 -> hex_text (Byte.x30 :: h) b ->
    magnitude (Byte.x30 :: x :: h) b
| mag_bin x t ds z b : x = Byte.x62 \/ x = Byte.x42 -> grouped t ds ->
    signed_numeral 2 ds z -> shortest b (Z.abs z) ->
    magnitude (Byte.x30 :: x :: t) b
| mag_dec t ds z b : grouped t ds -> signed_numeral 10 ds z -> 0 <= z -> shortest b z ->
    magnitude t b.

(** The number that a sign and a magnitude make. *)
Definition signed_number (t : bytes) (z : Z) : Prop :=
  exists c r m, t = c :: r /\ magnitude r m
    /\ ((c = Byte.x2b /\ z = be_value m) \/ (c = Byte.x2d /\ z = - be_value m)).

(** Without a width: a magnitude as it is, a signed number in the shortest two's
    complement. *)
Inductive number : bytes -> bytes -> Prop :=
| nu_unsigned t b : magnitude t b -> head t <> Some Byte.x2b -> head t <> Some Byte.x2d ->
    number t b
| nu_signed t z b : signed_number t z -> twos_value b = z ->
    (forall b', twos_value b' = z -> (length b <= length b')%nat) -> number t b.

(** In [w] bytes: filled up with zeros on the left. *)
Definition widened (w : nat) (m b : bytes) : Prop :=
  exists k, b = replicate k Byte.x00 ++ m /\ length b = w.
Inductive wide_unsigned (w : nat) : bytes -> bytes -> Prop :=
| wu t m b : magnitude t m -> widened w m b -> wide_unsigned w t b.
Inductive wide_signed (w : nat) : bytes -> bytes -> Prop :=
| ws_unsigned t m b : magnitude t m -> head t <> Some Byte.x2b -> head t <> Some Byte.x2d ->
    widened w m b -> wide_signed w t b
| ws_signed t z b : signed_number t z -> twos_value b = z -> length b = w ->
    wide_signed w t b.

(** Length in four bytes (modulo 2^32), then the bytes. *)
Definition nested_as (b r : bytes) : Prop :=
  exists l, r = l ++ b /\ length l = 4%nat /\ be_value l = blen b mod 2 ^ 32.

(** * Addresses *)

Definition filled (n : nat) (name : bytes) : bytes :=
  take n (name ++ replicate n Byte.x5f).
(** Thirty-two bytes: [z] zeros and the name, filled up with underscores; a
    shard, if given, is the last byte. *)
Inductive address_text (z : nat) : bytes -> bytes -> Prop :=
| at_plain name : Byte.x23 ∉ name ->
    address_text z name (replicate z Byte.x00 ++ filled (32 - z) name)
| at_shard name h s : Byte.x23 ∉ name -> hex_text h [s] ->
    address_text z (name ++ Byte.x23 :: h)
      (replicate z Byte.x00 ++ filled (31 - z) name ++ [s]).

(** * Expressions *)

Definition bar : byte := Byte.x7c.
Fixpoint joined (parts : list bytes) : bytes :=
  match parts with
  | [] => []
  | [t] => t
  | t :: r => t ++ bar :: joined r
  end.
Definition starts (p t : bytes) : Prop := exists r, t = p ++ r.

(** A text that ends a part with a signed width and nothing behind it. *)
Definition bare_width (t : bytes) : Prop :=
  exists a w r, t = a ++ w ++ r
    /\ (w = str "i8:" \/ w = str "i16:" \/ w = str "i32:" \/ w = str "i64:")
    /\ (r = [] \/ exists r', r = bar :: r').

(** The fixed widths: unsigned prefix, signed prefix, bytes. *)
Inductive width : bytes -> bytes -> nat -> Prop :=
| width_8 : width (str "u8:") (str "i8:") 1
| width_16 : width (str "u16:") (str "i16:") 2
| width_32 : width (str "u32:") (str "i32:") 4
| width_64 : width (str "u64:") (str "i64:") 8.

Section Expr.
  Context (files : bytes -> option bytes) (keccak : bytes -> bytes).

  (** [expr t b]: the text [t] denotes [b]. *)
  Inductive expr : bytes -> bytes -> Prop :=
  | ex_empty : expr [] []
  | ex_file name b : files name = Some b -> expr (str "file:" ++ name) b
  | ex_keccak t b : expr t b -> expr (str "keccak256:" ++ t) (keccak b)
  | ex_concat parts bs :
      (2 <= length parts)%nat -> Forall (fun t => bar ∉ t) parts ->
      ~ starts (str "file:") (joined parts) -> ~ starts (str "keccak256:") (joined parts) ->
      exprs parts bs -> expr (joined parts) (concat bs)
  | ex_atom t b : bar ∉ t -> atom t b -> expr t b
  with atom : bytes -> bytes -> Prop :=
  | at_false : atom (str "false") []
  | at_true : atom (str "true") [Byte.x01]
  | at_string p s : p = str "str:" \/ p = str "``" \/ p = str "''" -> atom (p ++ s) s
  | at_address t b : address_text 0 t b -> atom (str "address:" ++ t) b
  | at_sc t b : address_text 8 t b -> atom (str "sc:" ++ t) b
  | at_u64 t b : wide_unsigned 8 t b -> atom (str "u64:" ++ t) b
  | at_u32 t b : wide_unsigned 4 t b -> atom (str "u32:" ++ t) b
  | at_u16 t b : wide_unsigned 2 t b -> atom (str "u16:" ++ t) b
  | at_u8 t b : wide_unsigned 1 t b -> atom (str "u8:" ++ t) b
  | at_i64 t b : wide_signed 8 t b -> atom (str "i64:" ++ t) b
  | at_i32 t b : wide_signed 4 t b -> atom (str "i32:" ++ t) b
  | at_i16 t b : wide_signed 2 t b -> atom (str "i16:" ++ t) b
  | at_i8 t b : wide_signed 1 t b -> atom (str "i8:" ++ t) b
  | at_biguint t m b : magnitude t m -> nested_as m b -> atom (str "biguint:" ++ t) b
  | at_nested t m b : expr t m -> nested_as m b -> atom (str "nested:" ++ t) b
  | at_number t b : number t b -> atom t b
  with exprs : list bytes -> list bytes -> Prop :=
  | exs_nil : exprs [] []
  | exs_cons t b ts bs : expr t b -> exprs ts bs -> exprs (t :: ts) (b :: bs).

  (** Subtrees of a scenario: lists in their order, maps in the order of their
      keys. *)
  Definition key_before (a b : bytes * json) : Prop :=
    exists p x y r s, fst a = p ++ x /\ fst b = p ++ y :: s
      /\ (x = [] \/ exists u, x = u :: r /\ bz u < bz y).
  Inductive tree : json -> bytes -> Prop :=
  | tr_string s b : expr s b -> tree (JStr s) b
  | tr_list l bs : trees l bs -> tree (JList l) (concat bs)
  | tr_map m m' bs : Permutation m m' -> StronglySorted key_before m' ->
      trees (map snd m') bs -> tree (JMap m) (concat bs)
  with trees : list json -> list bytes -> Prop :=
  | trs_nil : trees [] []
  | trs_cons v b vs bs : tree v b -> trees vs bs -> trees (v :: vs) (b :: bs).
End Expr.
