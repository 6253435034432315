(** Specification vocabulary for number encodings (no model functions here). *)
From Verif Require Export Base.

(** Positional value of a big-endian byte string. *)
Fixpoint be_value (l : bytes) : Z :=
  match l with
  | [] => 0
  | x :: r => bz x * 256 ^ blen r + be_value r
  end.

(** Two's-complement value: the top bit counts negatively. *)
Definition twos_value (l : bytes) : Z :=
  match l with
  | [] => 0
  | x :: _ => be_value l - (if 128 <=? bz x then 256 ^ blen l else 0)
  end.

(** Value of a LEB128 string: 7 bits per byte, least significant group first. *)
Fixpoint leb_value (l : bytes) : Z :=
  match l with
  | [] => 0
  | b :: r => bz b mod 128 + 128 * leb_value r
  end.

(** Well-formed LEB128: the continuation bit is set on every byte but the last. *)
Fixpoint leb_wf (l : bytes) : Prop :=
  match l with
  | [] => False
  | [b] => bz b < 128
  | b :: r => 128 <= bz b /\ leb_wf r
  end.
