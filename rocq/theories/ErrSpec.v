(** Vocabulary for C38. *)
From Verif Require Import ErrModel.

(** errors are the same if they are of the same kind and were made at once *)
Inductive identity := INew (id : N) | IFmt (id : N) | IWrap (ptr : N).
Definition identity_of (e : gerr) : identity :=
  match e with GNew a => INew a | GFmt a _ => IFmt a | GWrap a _ => IWrap a end.

(** the error [t] is [e] or was wrapped into [e], at any depth *)
Inductive occurs (t : gerr) : gerr -> Prop :=
| occurs_self e : identity_of e = identity_of t -> occurs t e
| occurs_fmt id e : occurs t e -> occurs t (GFmt id e)
| occurs_wrap p l e : In (Some e) l -> occurs t e -> occurs t (GWrap p l).

(** every wrapper inside [e] holds at least two errors *)
Inductive two_or_more : gerr -> Prop :=
| tm_new id : two_or_more (GNew id)
| tm_fmt id e : two_or_more e -> two_or_more (GFmt id e)
| tm_wrap p l : (2 <= length l)%nat -> (forall e, In (Some e) l -> two_or_more e) -> two_or_more (GWrap p l).
(** ... or [e] itself is a wrapper holding such errors: its entries are taken over *)
Definition wrappable (e : gerr) : Prop :=
  match e with
  | GWrap _ l => forall x, In (Some x) l -> two_or_more x
  | _ => two_or_more e
  end.

(** a base error wrapped with [added], one after the other; nil errors add nothing *)
Definition wrapped (ptr : N) (base : gerr) (added : list (option gerr)) : list (option gerr) :=
  match WrapError ptr (Some base) with
  | GWrap _ l => fold_left wrapWithError added l
  | _ => []
  end.
(** the errors given *)
Definition given (base : gerr) (added : list (option gerr)) : list gerr :=
  base :: omap (fun o => o) added.
(** [t] was given, or is inside an error that was given; a wrapper is not kept
    as such, only what it holds *)
Definition given_inside (t : gerr) (errs : list gerr) : Prop :=
  exists e, In e errs /\ match e with
                         | GWrap _ l => exists x, In (Some x) l /\ occurs t x
                         | _ => occurs t e
                         end.
(** nobody hands on a wrapper without errors *)
Definition not_empty (e : gerr) : Prop := match e with GWrap _ [] => False | _ => True end.
(** what the host's record holds after these errors, one after the other *)
Definition record (ptr : N) (errs : list gerr) : option gerr := fold_left (fun s e => AddError ptr s (Some e)) errs None.
