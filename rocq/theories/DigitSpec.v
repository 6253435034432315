(** The text of call data, for C49. *)
From Verif Require Import GoRt.

(** the digits A-F as a-f, every other byte as it is *)
Definition lower (b : byte) : byte := if (65 <=? bz b) && (bz b <=? 70) then zb (bz b + 32) else b.
