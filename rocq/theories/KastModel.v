(** JSON to the syntax trees of the K framework: mandos-go/orderedjson2kast. *)
From Verif Require Import Base JsonModel.

(** ojProcessCode.go:7-40, processTestCode; [f] is the callback, applied to the
    directory of the file.  Values are changed in place; here, they are given
    back. *)
Definition isCreateTx (m : list (bytes * json)) : bool :=
  existsb (fun kv => bool_decide (fst kv = str "to")
                     && match snd kv with JStr [] => true | _ => false end) m.
Definition isCode (create : bool) (k : bytes) : bool :=
  bool_decide (k = str "code") || (bool_decide (k = str "contractCode") && create).
Fixpoint processTestCode (f : bytes -> bytes) (j : json) : json :=
  match j with
  | JMap m =>
      let create := isCreateTx m in
      JMap (map (fun kv => (fst kv,
        if isCode create (fst kv)
        then match snd kv with JStr s => JStr (f s) | v => v end
        else processTestCode f (snd kv))) m)
  | JList l => JList (map (processTestCode f) l)
  | JStr _ | JBool _ => j
  end.

(** ojToKast.go:16-18, writeStringKast *)
Definition writeStringKast (s : bytes) : bytes :=
  str "#token(""\""" ++ s ++ str "\"""",""String"")".

(** ojToKast.go:20-61, writeKast *)
Definition kastEnd : bytes := str "`.List{""_,__IELE-DATA""}`(.KList)".
Fixpoint writeKast (j : json) : bytes :=
  match j with
  | JMap m =>
      str "`{_}_IELE-DATA`("
      ++ concat (map (fun kv => str "`_,__IELE-DATA`(`_:__IELE-DATA`(" ++ writeStringKast (fst kv)
                                ++ str "," ++ writeKast (snd kv) ++ str "),") m)
      ++ kastEnd ++ repeat Byte.x29 (length m) ++ str ")"
  | JList l =>
      str "`[_]_IELE-DATA`("
      ++ concat (map (fun v => str "`_,__IELE-DATA`(" ++ writeKast v ++ str ",") l)
      ++ kastEnd ++ repeat Byte.x29 (length l) ++ str ")"
  | JStr s => writeStringKast s
  | JBool b => str "#token(""" ++ (if b then str "true" else str "false") ++ str """,""Bool"")"
  end.

(** ojMain.go:15-25, ConvertOrderedJSONToKast; [f] is the callback applied to
    the directory of the file (filepath.Dir).  A missing value makes writeKast
    panic. *)
Inductive kres : Type := KOk (text : bytes) | KErr (e : jerr) | KPanic.
Definition ConvertOrderedJSONToKast (f : bytes -> bytes) (data : bytes) : kres :=
  match ParseOrderedJSON data with
  | JErr e => KErr e
  | JOk None => KPanic
  | JOk (Some j) => KOk (writeKast (processTestCode f j))
  end.
