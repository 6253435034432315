(** What numbers are, on both sides of a call. *)
From Verif Require Import Base WasmerModel.
From stdpp Require Import gmap.
Local Open Scope Z_scope.

Definition width (t : wtag) : Z := match t with cWasmI32 | cWasmF32 => 32 | cWasmI64 | cWasmF64 => 64 end.
(** The number that the low [w] of these bits stand for, in two's complement. *)
Definition signed (w b : Z) : Z := let m := b mod 2 ^ w in if m <? 2 ^ (w - 1) then m else m - 2 ^ w.
Definition fits (w n : Z) : Prop := - 2 ^ (w - 1) <= n < 2 ^ (w - 1).

(** The number that an argument is. *)
Definition number (a : garg) : option Z :=
  match a with
  | GNum _ n => Some n
  | GValue v => match wv_type v with
                | TypeI32 => Some (signed 32 (wv_bits v))
                | TypeI64 => Some (signed 64 (wv_bits v))
                | TypeVoid => None
                end
  | GOther => None
  end.

(** Which arguments can be given for a parameter of this type. *)
Definition takes (t : wtag) (a : garg) : Prop :=
  match t, a with
  | cWasmI32, GNum ty _ => ty ∈ [Gint8; Guint8; Gint16; Guint16; Gint32; Gint; Guint]
  | cWasmI64, GNum ty _ => ty ∈ [Gint8; Guint8; Gint16; Guint16; Gint32; Guint32; Gint64; Gint; Guint]
  | cWasmI32, GValue v => wv_type v = TypeI32
  | cWasmI64, GValue v => wv_type v = TypeI64
  | _, _ => False
  end.
(** An argument arrives. *)
Definition arrives (a : garg) (t : wtag) (c : cvalue) : Prop :=
  cv_tag c = t /\ forall n, number a = Some n -> fits (width t) n -> signed (width t) (cv_bits c) = n.

(** Functions that can be imported: a pointer to the context, any number of
    integers, at most one integer as result. *)
Inductive typed : gkind -> wtag -> Prop :=
| ty_32 : typed KInt32 cWasmI32
| ty_64 : typed KInt64 cWasmI64.

(** The function that is imported under a name from a namespace. *)
Definition import_at (i : imports) (ns name : bytes) : option import :=
  match is_imports i !! ns with Some m => m !! name | None => None end.
