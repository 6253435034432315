(** Theorems about ordered JSON, the format of scenario files: C51 and C52. *)
From Verif Require Import Base JsonModel JsonSpec JsonProofs JsonParseProofs
  JsonPrintProofs ExJson.

(** * C51: printing and parsing back *)

(** A value that is not just a boolean, whose strings can stand between quotes
    as they are and whose maps have no key twice, comes back from its own
    printed text exactly: same structure, same keys in the same order.  Missing
    are the values of [C51_refuted]. *)
Theorem C51_round_trip_partial v :
  writable quotable v -> ~ is_bool v ->
  ParseOrderedJSON (JSONString v) = JOk (Some v).
Proof. exact (print_parse v). Qed.
Print Assumptions C51_round_trip_partial.

Example C51_round_trip_example :
  writable quotable step_json /\ ~ is_bool step_json
  /\ ParseOrderedJSON (JSONString step_json) = JOk (Some step_json).
Proof.
  split; [apply (parsed_writable (JSONString step_json)); vm_compute; reflexivity|].
  split; [intros [b H]; discriminate H|vm_compute; reflexivity].
Qed.

(** Everything that came out of the parser survives printing and parsing, so
    formatting a file twice changes nothing the second time. *)
Theorem C51_stable_partial text v :
  ParseOrderedJSON text = JOk (Some v) -> ~ is_bool v ->
  ParseOrderedJSON (JSONString v) = JOk (Some v).
Proof.
  exact (fun H Hb => print_parse v (parsed_writable text v H) Hb).
Qed.
Print Assumptions C51_stable_partial.

Example C51_stable_example :
  ParseOrderedJSON step_text = JOk (Some step_value)
  /\ JSONString step_value <> step_text
  /\ ParseOrderedJSON (JSONString step_value) = JOk (Some step_value).
Proof. vm_compute. repeat split; discriminate. Qed.

(** What is printed is JSON proper, standing for the value printed, if the
    strings are JSON strings. *)
Theorem C51_valid v :
  writable json_string v -> document strict (JSONString v) v.
Proof.
  intros H. exists [], (JSONString v), []. rewrite app_nil_r.
  split; [done|]. split; [constructor|]. split; [|constructor].
  exact (print_strict v 0 H).
Qed.
Print Assumptions C51_valid.

Example C51_valid_example :
  writable json_string (JList [JStr (str "\"""); JBool true; JMap [(str "k", JStr [])]]).
Proof.
  assert (json_string (str "\""")) as H by (apply (js_escape cQuote []); constructor).
  assert (json_string (str "k")) as Hk by (apply js_plain; [discriminate|discriminate|constructor]).
  apply wr_list. constructor; [by constructor|]. constructor; [constructor|].
  constructor; [|constructor]. apply wr_map.
  - constructor; [|constructor]. split; [exact Hk|]. constructor. constructor.
  - constructor; [apply not_elem_of_nil|constructor].
Qed.

(** Not every value comes back: a bare boolean is refused, so is a string that
    ends in a backslash, a quote in a string turns one element into two, and of
    two entries with one key the second is lost. *)
Theorem C51_refuted :
  ParseOrderedJSON (JSONString (JBool true)) = JErr EStackNotEmpty
  /\ ParseOrderedJSON (JSONString (JStr (str "C:\"))) = JErr EStackNotEmpty
  /\ ParseOrderedJSON (JSONString (JList [JStr (str "a"",""b")]))
     = JOk (Some (JList [JStr (str "a"); JStr (str "b")]))
  /\ ParseOrderedJSON (JSONString (JMap [(str "k", JStr (str "1")); (str "k", JStr (str "2"))]))
     = JOk (Some (JMap [(str "k", JStr (str "1"))])).
Proof. vm_compute. tauto. Qed.
Print Assumptions C51_refuted.

(** * C52: what the parser takes *)

(** The parser takes a text exactly if it is a document of the lax grammar, and
    answers with the value the grammar gives to it; it never answers nil. *)
Theorem C52_exact text r :
  ParseOrderedJSON text = JOk r <-> exists v, r = Some v /\ lax_document text v.
Proof. exact (parse_exact text r). Qed.
Print Assumptions C52_exact.

Example C52_exact_example : lax_document step_text step_value.
Proof.
  assert (ParseOrderedJSON step_text = JOk (Some step_value)) as H
    by (vm_compute; reflexivity).
  apply C52_exact in H as (v & Hv & H). injection Hv as <-. exact H.
Qed.

(** It comes to an end on every text: the bound of the model on the turns of
    the inner loop is never met. *)
Theorem C52_ends text : ParseOrderedJSON text <> JErr EFuel.
Proof. exact (parse_ends text). Qed.
Print Assumptions C52_ends.

Example C52_ends_example :
  ParseOrderedJSON (str "[{""a"" 1}]") = JErr EColonExpected.
Proof. vm_compute. reflexivity. Qed.

(** JSON documents of strings, booleans, lists and maps with distinct keys are
    taken with their values, if no string in them ends in a backslash and a
    document that is a bare boolean has a blank behind it. *)
Theorem C52_accepts_partial w t w' v :
  blanks w -> item tame t v -> blanks w' -> (is_bool v -> w' <> []) ->
  ParseOrderedJSON (w ++ t ++ w') = JOk (Some v).
Proof. exact (tame_accepted w t w' v). Qed.
Print Assumptions C52_accepts_partial.

Example C52_accepts_example :
  item tame (str "[""a"",true]") (JList [JStr (str "a"); JBool true]).
Proof.
  apply (it_list tame (str """a"",true")).
  apply (is_some tame [] (str """a""") (JStr (str "a")) (str ",true") [JBool true]).
  - constructor.
  - apply (it_string tame (str "a")). split.
    + repeat (constructor; [discriminate|discriminate|]). constructor.
    + intros [|x [|y a]]; discriminate.
  - apply (mo_next tame (JStr (str "a")) [] [] (str "true") (JBool true) [] []);
      repeat constructor.
Qed.

(** A text has one meaning at most. *)
Theorem C52_unambiguous text v v' :
  lax_document text v -> lax_document text v' -> v = v'.
Proof.
  intros H H'. apply lax_accepted in H, H'. congruence.
Qed.
Print Assumptions C52_unambiguous.

Example C52_unambiguous_example : lax_document (str "{} ") (JMap []).
Proof.
  exists [], (str "{}"), (str " "). split; [done|]. split; [constructor|].
  split; [apply (it_map lax [] []); repeat constructor|].
  split; [repeat constructor|done].
Qed.

(** The parser is not one of JSON: it drops what stands behind an element of a
    list, takes a comma before the first key, drops entries with a key that was
    there already; it refuses a string that ends in an escaped backslash and a
    bare boolean. *)
Theorem C52_refuted :
  ParseOrderedJSON (str "[""a"" ""lost"" {:} ]") = JOk (Some (JList [JStr (str "a")]))
  /\ ParseOrderedJSON (str "{,""a"":""b""}") = JOk (Some (JMap [(str "a", JStr (str "b"))]))
  /\ ParseOrderedJSON (str "{""a"":""b"",""a"":""c""}")
     = JOk (Some (JMap [(str "a", JStr (str "b"))]))
  /\ document strict (str """\\""") (JStr (str "\\"))
  /\ ParseOrderedJSON (str """\\""") = JErr EStackNotEmpty
  /\ document strict (str "true") (JBool true)
  /\ ParseOrderedJSON (str "true") = JErr EStackNotEmpty.
Proof.
  split; [vm_compute; reflexivity|]. split; [vm_compute; reflexivity|].
  split; [vm_compute; reflexivity|]. split.
  { exists [], (str """\\"""), []. split; [reflexivity|]. split; [constructor|].
    split; [|constructor]. apply (it_string strict (str "\\")).
    apply js_escape. constructor. }
  split; [vm_compute; reflexivity|]. split; [|vm_compute; reflexivity].
  exists [], (str "true"), []. split; [reflexivity|]. split; [constructor|].
  split; [constructor|constructor].
Qed.
Print Assumptions C52_refuted.
