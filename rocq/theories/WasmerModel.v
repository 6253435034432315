(** The Go side of the calls into and out of a wasm instance: wasmer/value.go,
    function_wrapper_helpers.go, the wrapper of instance_helpers.go, and the set
    of imports of import.go.

    The functions behind cgo are parameters: the wasm function is any function
    from its inputs to nothing (it failed) or to its outputs.  Reading the
    signature of an exported function is taken to succeed. *)
From Verif Require Import Base.
From stdpp Require Import gmap.
Local Open Scope Z_scope.

(** wasmer/value.go:8-31 *)
Inductive vtype : Type := TypeI32 | TypeI64 | TypeVoid.
Record wvalue : Type := mkWValue { wv_bits : Z; wv_type : vtype }.
(** value.go:34-39, I32; value.go:42-47, I64; value.go:50-55, Void *)
Definition I32 (v : Z) : wvalue := mkWValue (u64 v) TypeI32.
Definition I64 (v : Z) : wvalue := mkWValue (u64 v) TypeI64.
Definition Void : wvalue := mkWValue 0 TypeVoid.
(** value.go:64-66, ToI32; value.go:70-72, ToI64 *)
Definition ToI32 (v : wvalue) : Z := i32 (wv_bits v).
Definition ToI64 (v : wvalue) : Z := i64 (wv_bits v).

(** bridge.go: the types of wasm, and a value of C: a tag and the bits of the
    union *)
Inductive wtag : Type := cWasmI32 | cWasmI64 | cWasmF32 | cWasmF64.
Record cvalue : Type := mkCValue { cv_tag : wtag; cv_bits : Z }.

(** What is in an [interface{}]: a number of one of Go's types, a [Value], or
    anything else. *)
Inductive gtype : Type := Gint8 | Guint8 | Gint16 | Guint16 | Gint32 | Guint32 | Gint64 | Guint64 | Gint | Guint.
Inductive garg : Type := GNum (t : gtype) (n : Z) | GValue (v : wvalue) | GOther.

Inductive wres (A : Type) : Type := WOk (a : A) | WErr | WPanic.
Arguments WOk {A}. Arguments WErr {A}. Arguments WPanic {A}.

(** function_wrapper_helpers.go:149-181, writeInt32ToWasmInputs: the four low
    bytes of a union that was zero (little endian) *)
Definition writeInt32ToWasmInputs (a : garg) : wres cvalue :=
  match a with
  | GNum t n =>
      match t with
      | Gint8 | Guint8 | Gint16 | Guint16 | Gint32 | Gint | Guint =>
          WOk (mkCValue cWasmI32 (i32 n mod 2 ^ 32))
      | _ => WErr
      end
  | GValue v =>
      match wv_type v with TypeI32 => WOk (mkCValue cWasmI32 (ToI32 v mod 2 ^ 32)) | _ => WErr end
  | GOther => WErr
  end.

(** function_wrapper_helpers.go:183-219, writeInt64ToWasmInputs *)
Definition writeInt64ToWasmInputs (a : garg) : wres cvalue :=
  match a with
  | GNum t n =>
      match t with
      | Gint8 | Guint8 | Gint16 | Guint16 | Gint32 | Guint32 | Gint64 | Gint | Guint =>
          WOk (mkCValue cWasmI64 (i64 n mod 2 ^ 64))
      | _ => WErr
      end
  | GValue v =>
      match wv_type v with TypeI64 => WOk (mkCValue cWasmI64 (ToI64 v mod 2 ^ 64)) | _ => WErr end
  | GOther => WErr
  end.

(** function_wrapper_helpers.go:41-55, validateGivenArguments *)
Definition validateGivenArguments (args : list garg) (sig : list wtag) : bool :=
  (length sig =? length args)%nat.

(** function_wrapper_helpers.go:94-122, createWasmInputsFromArguments; an index
    beyond the signature panics, inputs without argument stay zero *)
Fixpoint createWasmInputsFromArguments (args : list garg) (sig : list wtag) : wres (list cvalue) :=
  match args with
  | [] => WOk (map (fun _ => mkCValue cWasmI32 0) sig)
  | a :: args =>
      match sig with
      | [] => WPanic
      | t :: sig =>
          match match t with
                | cWasmI32 => writeInt32ToWasmInputs a
                | cWasmI64 => writeInt64ToWasmInputs a
                | _ => WErr
                end with
          | WOk v =>
              match createWasmInputsFromArguments args sig with
              | WOk l => WOk (v :: l)
              | r => r
              end
          | WErr => WErr
          | WPanic => WPanic
          end
      end
  end.

(** function_wrapper_helpers.go:124-147, convertWasmOutputToValue; the slice has
    as many elements as there are outputs *)
Definition convertWasmOutputToValue (arity : nat) (outs : list cvalue) : wres wvalue :=
  match arity with
  | O => WOk Void
  | S _ =>
      match outs with
      | [] => WPanic
      | v :: _ =>
          match cv_tag v with
          | cWasmI32 => WOk (I32 (i32 (cv_bits v)))
          | cWasmI64 => WOk (I64 (i64 (cv_bits v)))
          | _ => WErr
          end
      end
  end.

(** instance_helpers.go:133-160, the wrapper of an exported function with
    signature [sig] and [arity] outputs: with what the function was called, if it
    was, and what the wrapper returns *)
Definition wrapper (sig : list wtag) (arity : nat) (func : list cvalue -> option (list cvalue)) (args : list garg)
  : option (list cvalue) * wres wvalue :=
  if negb (validateGivenArguments args sig) then (None, WErr)
  else match createWasmInputsFromArguments args sig with
       | WErr => (None, WErr)
       | WPanic => (None, WPanic)
       | WOk inputs =>
           match func inputs with
           | None => (Some inputs, WErr)
           | Some outs => (Some inputs, convertWasmOutputToValue arity outs)
           end
       end.

(** * Imports: wasmer/import.go *)

(** import.go:35-55.  [im_impl] stands for the implementation and its pointer. *)
Record import : Type := mkImport { im_impl : bytes; im_in : list wtag; im_out : list wtag; im_namespace : bytes }.
Record imports : Type := mkImports { is_imports : gmap bytes (gmap bytes import); is_namespace : bytes }.

(** The kinds of Go types that matter here, and what is given to Append. *)
Inductive gkind : Type := KInt32 | KInt64 | KPointer | KElse.
Inductive given : Type := NotFunc | Func (ins outs : list gkind).

(** import.go:67-72, NewImports; 75-79, Namespace; 81-87, Count; 89-98, Names *)
Definition NewImports : imports := mkImports ∅ (str "env").
Definition Namespace (ns : bytes) (i : imports) : imports := mkImports (is_imports i) ns.
Definition Count (i : imports) : nat := map_fold (fun _ m n => (size m + n)%nat) 0%nat (is_imports i).
Definition Names (i : imports) : gset bytes := map_fold (fun _ m s => dom m ∪ s) ∅ (is_imports i).

Definition kind_tag (k : gkind) : option wtag :=
  match k with KInt32 => Some cWasmI32 | KInt64 => Some cWasmI64 | _ => None end.

(** import.go:101-166, Append; [None] is an error, and the set is as before *)
Definition Append (name impl : bytes) (g : given) (i : imports) : option imports :=
  match g with
  | NotFunc => None
  | Func [] _ => None
  | Func (ctx :: ins) outs =>
      match ctx with
      | KPointer =>
          match mapM kind_tag ins with
          | None => None
          | Some tin =>
              match outs with
              | _ :: _ :: _ => None
              | _ =>
                  match mapM kind_tag outs with
                  | None => None
                  | Some tout =>
                      let ns := is_namespace i in
                      let m := default ∅ (is_imports i !! ns) in
                      Some (mkImports (<[ns := <[name := mkImport impl tin tout ns]> m]> (is_imports i)) ns)
                  end
              end
          end
      | _ => None
      end
  end.
