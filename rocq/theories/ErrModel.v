(** Wrappable errors (arwen/errorWrapping.go) under Go's errors.Is. *)
From Verif Require Export Base GoRt.

(** A Go error value that is not nil.  Identities stand for pointers: two
    [errors.New] values are equal when their identities are, and so are two
    [*wrappableError]. *)
Inductive gerr : Type :=
| GNew (id : N)                               (* errors.New *)
| GFmt (id : N) (inner : gerr)                (* an error with Unwrap, as from fmt.Errorf with %w *)
| GWrap (ptr : N) (errs : list (option gerr)). (* *wrappableError; the locations and infos are left out *)

(** err == target *)
Definition same_err (e t : gerr) : bool :=
  match e, t with
  | GNew a, GNew b => (a =? b)%N
  | GFmt a _, GFmt b _ => (a =? b)%N
  | GWrap a _, GWrap b _ => (a =? b)%N
  | _, _ => false
  end.

(** errorWrapping.go:156-163 Is: the entries in order; [rs] are the answers of
    errors.Is for each entry *)
Fixpoint scan (rs : list (res bool)) : res bool :=
  match rs with
  | [] => ROk false
  | r :: rs => b ← r; if b : bool then ROk true else scan rs
  end.

(** The loop of errors.Is on a [*wrappableError] with the first [k] of the
    entries whose answers are [rs]: Is (156-163), then Unwrap
    (errorWrapping.go:137-153), which drops the last entry, gives the error of
    a single remaining entry instead of the wrapper, and dereferences nil when
    there were no entries.  The wrappers made by Unwrap are new and equal to no
    target. *)
Fixpoint unwrapping (rs : list (res bool)) (k : nat) : res bool :=
  b ← scan (take k rs);
  if b : bool then ROk true else
  match k with
  | O => RPanic
  | S k' => if (k' =? 1)%nat then default RPanic (head rs) else unwrapping rs k'
  end.

(** errors.Is (Go standard library) for a target that is not nil; a nil entry
    gives false *)
Fixpoint errors_Is (target e : gerr) : res bool :=
  if same_err e target then ROk true else
  match e with
  | GNew _ => ROk false
  | GFmt _ inner => errors_Is target inner
  | GWrap _ errs =>
      unwrapping (map (fun o => match o with Some e => errors_Is target e | None => ROk false end) errs) (length errs)
  end.

(** errorWrapping.go:156-163 Is, as a method *)
Definition werr_Is (errs : list (option gerr)) (target : gerr) : res bool :=
  scan (map (fun o => match o with Some e => errors_Is target e | None => ROk false end) errs).

(** errorWrapping.go:42-50 WrapError, [ptr] being the new pointer *)
Definition WrapError (ptr : N) (e : option gerr) : gerr :=
  match e with
  | Some (GWrap p l) => GWrap p l
  | e => GWrap ptr [e]
  end.

(** errorWrapping.go:89-108 wrapWithErrorWithSkipLevels: the entries of the result *)
Definition wrapWithError (errs : list (option gerr)) (e : option gerr) : list (option gerr) :=
  match e with
  | None => errs
  | Some (GWrap _ l) => errs ++ l
  | Some e => errs ++ [Some e]
  end.

(** errorWrapping.go:68-87; indexing an empty slice panics *)
Definition GetBaseError (errs : list (option gerr)) : res (option gerr) :=
  match head errs with Some e => ROk e | None => RPanic end.
Definition GetLastError (errs : list (option gerr)) : res (option gerr) :=
  match last errs with Some e => ROk e | None => RPanic end.
Definition GetAllErrors (errs : list (option gerr)) : list (option gerr) := errs.

(** runtime.go:936-944 AddError: the host's list of errors; [None] is the nil
    WrappableError *)
Definition AddError (ptr : N) (errors : option gerr) (e : option gerr) : option gerr :=
  match e with
  | None => errors
  | Some _ =>
      match errors with
      | None => Some (WrapError ptr e)
      | Some (GWrap _ errs) => Some (GWrap ptr (wrapWithError errs e))
      | Some x => Some x
      end
  end.
