(** Places in a JSON value, and how K reads a token. *)
From Verif Require Import Base JsonModel.
From stdpp Require Import list.

(** The value at a place: which element, of that which element, and so on. *)
Fixpoint value_at (p : list nat) (j : json) : option json :=
  match p with
  | [] => Some j
  | i :: p =>
      match j with
      | JList l => match l !! i with Some v => value_at p v | None => None end
      | JMap m => match m !! i with Some kv => value_at p (snd kv) | None => None end
      | _ => None
      end
  end.

(** The code of an account, or of a transaction that goes to nobody. *)
Definition code_key (m : list (bytes * json)) (k : bytes) : Prop :=
  k = str "code" \/ (k = str "contractCode" /\ (str "to", JStr []) ∈ m).
Inductive code_at : list nat -> json -> Prop :=
| ca_here m i k v : m !! i = Some (k, v) -> code_key m k -> code_at [i] (JMap m)
| ca_map m i k v p : m !! i = Some (k, v) -> ~ code_key m k -> code_at p v -> code_at (i :: p) (JMap m)
| ca_list l i v p : l !! i = Some v -> code_at p v -> code_at (i :: p) (JList l).

(** Same kind: the same string or boolean, lists of one length, maps with the
    same keys in the same order. *)
Definition same_shape (v v' : json) : Prop :=
  match v, v' with
  | JStr s, JStr s' => s = s'
  | JBool b, JBool b' => b = b'
  | JList l, JList l' => length l = length l'
  | JMap m, JMap m' => map fst m = map fst m'
  | _, _ => False
  end.

(** A string in quotes, the first one read already: a backslash takes the next
    character as it is.  What is in it, and what is behind it. *)
Fixpoint read_quoted (t : bytes) : option (bytes * bytes) :=
  match t with
  | [] => None
  | c :: t =>
      if Byte.eqb c Byte.x22 then Some ([], t)
      else if Byte.eqb c Byte.x5c then
        match t with
        | [] => None
        | d :: t => match read_quoted t with Some (s, r) => Some (d :: s, r) | None => None end
        end
      else match read_quoted t with Some (s, r) => Some (c :: s, r) | None => None end
  end.

(** A token of sort String is the text of a string literal, quoted once more. *)
Definition read_string_token (t : bytes) : option bytes :=
  match t with
  | Byte.x23 :: Byte.x74 :: Byte.x6f :: Byte.x6b :: Byte.x65 :: Byte.x6e :: Byte.x28 :: Byte.x22 :: t =>
      match read_quoted t with
      | Some (Byte.x22 :: literal, sort) =>
          match read_quoted literal with
          | Some (s, []) => if decide (sort = str ",""String"")") then Some s else None
          | _ => None
          end
      | _ => None
      end
  | _ => None
  end.

(** Without quotes and backslashes. *)
Definition plain (s : bytes) : Prop := Forall (fun c => c <> cQuote /\ c <> cBackslash) s.
