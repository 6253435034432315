(** The ordered JSON of the scenario files (mandos-go/orderedjson). *)
From Verif Require Export Base.

(** mandos-go/orderedjson/ojModel.go:8-35.  A map is its list of key-value
    pairs; its key set holds the keys of the list and is not kept apart.  A
    missing value ([nil]) in a map is not modelled; the parser makes none. *)
Inductive json : Type :=
| JStr (s : bytes)
| JBool (b : bool)
| JList (l : list json)
| JMap (m : list (bytes * json)).

(** ojModel.go:43-51, Put: does nothing if the key exists. *)
Definition Put (m : list (bytes * json)) (k : bytes) (v : json)
  : list (bytes * json) :=
  if existsb (fun kv => bool_decide (fst kv = k)) m then m else m ++ [(k, v)].

(** The characters that matter. *)
Definition cQuote : byte := Byte.x22.
Definition cBackslash : byte := Byte.x5c.
Definition cComma : byte := Byte.x2c.
Definition cColon : byte := Byte.x3a.
Definition cOpenList : byte := Byte.x5b.
Definition cCloseList : byte := Byte.x5d.
Definition cOpenMap : byte := Byte.x7b.
Definition cCloseMap : byte := Byte.x7d.
Definition cNewline : byte := Byte.x0a.
Definition cSpace : byte := Byte.x20.

Definition is (c d : byte) : bool := Byte.eqb c d.

(** * Parsing: mandos-go/orderedjson/ojParse.go *)

(** ojParse.go:34-36, isWhitespace. *)
Definition isWhitespace (c : byte) : bool :=
  is c cSpace || is c cNewline || is c Byte.x0d || is c Byte.x09.

(** ojParse.go:9-32: the states on the stack.  [SKV key 0], [1], [2] are the
    numbers of jsonStateMapKeyValue. *)
Inductive kv_at : Type := InKey | InColon | InValue.
Inductive jstate : Type :=
| SPlace
| SSingle (buffer : bytes) (stringEscape : bool)
| SMap (m : list (bytes * json))
| SKV (key : bytes) (at_ : kv_at)
| SList (l : list json).

(** The errors, by their texts; [EFuel] is not one: it marks a model that
    stopped short and never happens. *)
Inductive jerr : Type :=
| EUnexpectedAtEnd | EInvalidState | EMisplaced | EInvalidValue
| EInvalidMapState | EKeyQuote | EColonExpected | EMissingValue
| EKeyNotString | ENoMapUnderneath | EStackNotEmpty | EFuel.
Inductive jres (A : Type) : Type := JOk (a : A) | JErr (e : jerr).
Arguments JOk {A}. Arguments JErr {A}.

Definition machine : Type := list jstate * option json.

Definition hasQuotes (s : bytes) : bool :=
  match s, rev s with
  | a :: _, b :: _ => is a cQuote && is b cQuote
  | _, _ => false
  end.
(** str[1 : len(str)-1] of a string in quotes; a string of one quote has no
    such slice, and no state holds one when it is asked for. *)
Definition unquoted (s : bytes) : bytes :=
  match s with [] => [] | _ :: r => removelast r end.

(** ojParse.go:202-217, finalize. *)
Definition finalize (s : bytes) : jres json :=
  if hasQuotes s then JOk (JStr (unquoted s))
  else if bool_decide (s = str "true") then JOk (JBool true)
  else if bool_decide (s = str "false") then JOk (JBool false)
  else JErr EInvalidValue.

Definition closer (c : byte) : bool :=
  is c cCloseList || is c cCloseMap || is c cComma.

(** ojParse.go:45-191: one turn of the inner loop on character [c], with [prev]
    the character before it ([input[i-1]]).  The flag is [done]. *)
Definition turn (prev c : byte) (s : machine) : jres (machine * bool) :=
  let '(stack, pending) := s in
  match stack with
  | [] =>
      if isWhitespace c then JOk (s, true) else JErr EUnexpectedAtEnd
  | SPlace :: st =>
      match pending with
      | Some _ => JErr EInvalidState
      | None =>
          if isWhitespace c then JOk (s, true)
          else if is c cOpenMap then JOk ((SMap [] :: st, None), true)
          else if is c cOpenList then JOk ((SList [] :: st, None), true)
          else if closer c then JErr EMisplaced
          else JOk ((SSingle [] false :: st, None), false)
      end
  | SSingle buf esc :: st =>
      match buf with
      | [] => JOk ((SSingle [c] (is c cQuote) :: st, pending), true)
      | _ =>
          if esc then
            if is c cQuote && negb (is prev cBackslash) then
              match finalize (buf ++ [c]) with
              | JErr e => JErr e
              | JOk v => JOk ((st, Some v), true)
              end
            else JOk ((SSingle (buf ++ [c]) esc :: st, pending), true)
          else if closer c || isWhitespace c then
            match finalize buf with
            | JErr e => JErr e
            | JOk v => JOk ((st, Some v), false)
            end
          else JOk ((SSingle (buf ++ [c]) esc :: st, pending), true)
      end
  | SList l :: st =>
      let l := match pending with Some v => l ++ [v] | None => l end in
      if isWhitespace c then JOk ((SList l :: st, None), true)
      else if is c cCloseList then JOk ((st, Some (JList l)), true)
      else match l with
           | [] => JOk ((SPlace :: SList l :: st, None), false)
           | _ =>
               if is c cComma then JOk ((SPlace :: SList l :: st, None), true)
               else JOk ((SList l :: st, None), true)
           end
  | SMap m :: st =>
      if isWhitespace c then JOk (s, true)
      else if is c cCloseMap then JOk ((st, Some (JMap m)), true)
      else if is c cComma then JOk ((SKV [] InKey :: SMap m :: st, pending), true)
      else match m with
           | [] => JOk ((SKV [] InKey :: SMap m :: st, pending), false)
           | _ => JErr EInvalidMapState
           end
  | SKV key InKey :: st =>
      match key with
      | [] =>
          if isWhitespace c then JOk (s, true)
          else if negb (is c cQuote) then JErr EKeyQuote
          else JOk ((SKV [c] InKey :: st, pending), true)
      | _ =>
          JOk ((SKV (key ++ [c])
                  (if is c cQuote && negb (is prev cBackslash) then InColon
                   else InKey) :: st, pending), true)
      end
  | SKV key InColon :: st =>
      if isWhitespace c then JOk (s, true)
      else if is c cColon then JOk ((SPlace :: SKV key InValue :: st, pending), true)
      else JErr EColonExpected
  | SKV key InValue :: st =>
      match pending with
      | None => JErr EMissingValue
      | Some v =>
          if negb (hasQuotes key) then JErr EKeyNotString
          else match st with
               | SMap m :: st => JOk ((SMap (Put m (unquoted key) v) :: st, None), false)
               | _ => JErr ENoMapUnderneath
               end
      end
  end.

(** ojParse.go:45-47: the inner loop, [for !done]. *)
Fixpoint settle (fuel : nat) (prev c : byte) (s : machine) : jres machine :=
  match fuel with
  | O => JErr EFuel
  | S n =>
      match turn prev c s with
      | JErr e => JErr e
      | JOk (s', true) => JOk s'
      | JOk (s', false) => settle n prev c s'
      end
  end.
Definition feed (prev c : byte) (s : machine) : jres machine := settle 9 prev c s.

(** ojParse.go:44-193: the loop over the input. *)
Fixpoint run (prev : byte) (s : machine) (input : bytes) : jres machine :=
  match input with
  | [] => JOk s
  | c :: r =>
      match feed prev c s with
      | JErr e => JErr e
      | JOk s' => run c s' r
      end
  end.

(** ojParse.go:38-200, ParseOrderedJSON.  The outer option is Go's nil: the
    result for an empty stack without a pending result. *)
Definition ParseOrderedJSON (input : bytes) : jres (option json) :=
  match run Byte.x00 ([SPlace], None) input with
  | JErr e => JErr e
  | JOk ([], pending) => JOk pending
  | JOk (_ :: _, _) => JErr EStackNotEmpty
  end.

(** * Printing: mandos-go/orderedjson/ojToJson.go *)

(** ojToJson.go:15-19, addIndent. *)
Definition addIndent (indent : nat) : bytes :=
  concat (replicate indent [cSpace; cSpace; cSpace; cSpace]).

(** The items of a list or map, each on a line of its own, with commas in
    between: the loops of ojToJson.go:28-40 and 54-61. *)
Fixpoint lines (indent : nat) (l : list bytes) : bytes :=
  match l with
  | [] => []
  | [t] => cNewline :: addIndent indent ++ t
  | t :: r => cNewline :: addIndent indent ++ t ++ cComma :: lines indent r
  end.

(** ojToJson.go:21-74, writeJSON. *)
Fixpoint writeJSON (indent : nat) (v : json) : bytes :=
  match v with
  | JMap [] => [cOpenMap; cCloseMap]
  | JMap m =>
      cOpenMap
      :: lines (S indent)
           (map (fun kv => cQuote :: fst kv ++ [cQuote; cColon; cSpace]
                           ++ writeJSON (S indent) (snd kv)) m)
      ++ cNewline :: addIndent indent ++ [cCloseMap]
  | JList [] => [cOpenList; cCloseList]
  | JList l =>
      cOpenList :: lines (S indent) (map (writeJSON (S indent)) l)
      ++ cNewline :: addIndent indent ++ [cCloseList]
  | JStr s => cQuote :: s ++ [cQuote]
  | JBool b => if b then str "true" else str "false"
  end.

(** ojToJson.go:8-13, JSONString. *)
Definition JSONString (v : json) : bytes := writeJSON 0 v.
