(** A function and a set of imports for the examples. *)
From Verif Require Import Base WasmerModel.
From stdpp Require Import gmap.
Local Open Scope Z_scope.

(** Gives back its second argument. *)
Definition second : list cvalue -> option (list cvalue) :=
  fun l => match l with _ :: c :: _ => Some [c] | _ => None end.
Definition some_args : list garg := [GNum Guint8 200; GNum Gint (-5)].

Definition finish : given := Func [KPointer; KInt32; KInt32] [].
Definition one_import : imports := default NewImports (Append (str "finish") (str "f") finish NewImports).
Definition two_imports : imports := default NewImports (Append (str "finish") (str "g") finish (Namespace (str "other") one_import)).
