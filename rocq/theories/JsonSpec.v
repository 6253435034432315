(** What texts are ordered JSON, as a grammar; no parser, no printer.  From the
    model only the values and the names of the characters are used. *)
From Verif Require Import Base JsonModel.

(** Blanks: spaces, tabs, line feeds, carriage returns. *)
Definition blank (c : byte) : Prop :=
  c = Byte.x20 \/ c = Byte.x09 \/ c = Byte.x0a \/ c = Byte.x0d.
Definition blanks (w : bytes) : Prop := Forall blank w.

(** What a grammar leaves open: the insides of strings, what may stand between
    an element of a list and the comma or bracket behind it, what may stand
    before the first key of a map, and which keys a map may have. *)
Record dialect : Type := mkDialect {
  d_string : bytes -> Prop;
  d_filler : json -> bytes -> Prop;
  d_lead : bytes -> Prop;
  d_keys : list bytes -> Prop }.

(** Of several entries with the same key the first counts. *)
Fixpoint first_wins (seen : list bytes) (kvs : list (bytes * json))
  : list (bytes * json) :=
  match kvs with
  | [] => []
  | (k, v) :: r =>
      if decide (k ∈ seen) then first_wins seen r
      else (k, v) :: first_wins (k :: seen) r
  end.

(** The grammar.  [item] is a value without blanks around it, [items] the inside
    of a list, [more v] what follows an element [v] in it, [entries] the inside
    of a map, [entry] one key with its value, [others] what follows an entry. *)
Inductive item (D : dialect) : bytes -> json -> Prop :=
| it_string s : d_string D s -> item D (cQuote :: s ++ [cQuote]) (JStr s)
| it_true : item D (str "true") (JBool true)
| it_false : item D (str "false") (JBool false)
| it_list b vs : items D b vs -> item D (cOpenList :: b ++ [cCloseList]) (JList vs)
| it_map b kvs : entries D b kvs -> d_keys D (map fst kvs) ->
    item D (cOpenMap :: b ++ [cCloseMap]) (JMap (first_wins [] kvs))
with items (D : dialect) : bytes -> list json -> Prop :=
| is_none w : blanks w -> items D w []
| is_some w t v b vs : blanks w -> item D t v -> more D v b vs ->
    items D (w ++ t ++ b) (v :: vs)
with more (D : dialect) : json -> bytes -> list json -> Prop :=
| mo_end v j : d_filler D v j -> more D v j []
| mo_next v j w t v' b vs :
    d_filler D v j -> blanks w -> item D t v' -> more D v' b vs ->
    more D v (j ++ cComma :: w ++ t ++ b) (v' :: vs)
with entries (D : dialect) : bytes -> list (bytes * json) -> Prop :=
| en_none w : blanks w -> entries D w []
| en_some l e k v b kvs : d_lead D l -> entry D e k v -> others D b kvs ->
    entries D (l ++ e ++ b) ((k, v) :: kvs)
with entry (D : dialect) : bytes -> bytes -> json -> Prop :=
| en_entry k w1 w2 t v :
    d_string D k -> blanks w1 -> blanks w2 -> item D t v ->
    entry D (cQuote :: k ++ cQuote :: w1 ++ cColon :: w2 ++ t) k v
with others (D : dialect) : bytes -> list (bytes * json) -> Prop :=
| ot_end w : blanks w -> others D w []
| ot_next w w1 e k v b kvs :
    blanks w -> blanks w1 -> entry D e k v -> others D b kvs ->
    others D (w ++ cComma :: w1 ++ e ++ b) ((k, v) :: kvs).

(** A document: one value, blanks around it. *)
Definition document (D : dialect) (text : bytes) (v : json) : Prop :=
  exists w t w', text = w ++ t ++ w' /\ blanks w /\ item D t v /\ blanks w'.

(** * JSON proper *)

(** RFC 8259 strings, cut down to what matters here: any byte but quote and
    backslash, or a backslash with the byte it escapes. *)
Inductive json_string : bytes -> Prop :=
| js_nil : json_string []
| js_plain c s : c <> cQuote -> c <> cBackslash -> json_string s -> json_string (c :: s)
| js_escape c s : json_string s -> json_string (cBackslash :: c :: s).

(** JSON with strings, booleans, lists and maps with distinct keys. *)
Definition strict : dialect :=
  mkDialect json_string (fun _ j => blanks j) blanks (fun ks => NoDup ks).

(** * What the parser takes *)

(** Strings as the parser sees them: a quote is part of the string if it stands
    right behind a backslash, and a backslash cannot stand at the end. *)
Definition quotable (s : bytes) : Prop :=
  (forall a b, s = a ++ cQuote :: b -> exists a', a = a' ++ [cBackslash])
  /\ (forall a, s <> a ++ [cBackslash]).

(** Anything may stand between an element of a list and the next comma or
    closing bracket; it must only not be glued to a boolean. *)
Definition ignored (v : json) (j : bytes) : Prop :=
  Forall (fun c => c <> cComma /\ c <> cCloseList) j
  /\ match v, j with
     | JBool _, c :: _ => blank c \/ c = cCloseMap
     | _, _ => True
     end.

(** A comma may stand before the first key. *)
Definition leading (l : bytes) : Prop :=
  blanks l \/ exists w w', l = w ++ cComma :: w' /\ blanks w /\ blanks w'.

Definition lax : dialect := mkDialect quotable ignored leading (fun _ => True).

(** A boolean that is not inside anything has to have a blank behind it. *)
Definition lax_document (text : bytes) (v : json) : Prop :=
  exists w t w', text = w ++ t ++ w' /\ blanks w /\ item lax t v /\ blanks w'
  /\ match v with JBool _ => w' <> [] | _ => True end.

(** Strings of JSON proper that do not end in a backslash, escaped or not. *)
Definition tame_string (s : bytes) : Prop :=
  json_string s /\ forall a, s <> a ++ [cBackslash].
Definition tame : dialect :=
  mkDialect tame_string (fun _ j => blanks j) blanks (fun ks => NoDup ks).

(** * Values that can be written *)

(** All strings and keys in them can stand in quotes, and no map has a key
    twice. *)
Inductive writable (string_ok : bytes -> Prop) : json -> Prop :=
| wr_string s : string_ok s -> writable string_ok (JStr s)
| wr_bool b : writable string_ok (JBool b)
| wr_list l : Forall (writable string_ok) l -> writable string_ok (JList l)
| wr_map m :
    Forall (fun kv => string_ok (fst kv) /\ writable string_ok (snd kv)) m ->
    NoDup (map fst m) -> writable string_ok (JMap m).

Definition is_bool (v : json) : Prop := exists b, v = JBool b.
