(** Scenario files for the examples on reading them. *)
From Coq Require Import String.
From Verif Require Import Base JsonModel ScenModel ScenParseModel ExRewrite.
Local Open Scope Z_scope.

Definition called : string := "'tx': { 'to': 'address:bob', 'function': 'f' }".
Definition awaited : string := "'expect': { 'status': '4' }".
(** One step with its parts in two orders. *)
Definition tx_first : bytes := only ("{ 'step': 'scQuery', " ++ called ++ ", " ++ awaited ++ " }").
Definition tx_last : bytes := only ("{ 'step': 'scQuery', " ++ awaited ++ ", " ++ called ++ " }").
(** A small file and what it says. *)
Definition small_text : bytes := js "{
  'checkGas': false,
  'steps': [ { 'step': 'dumpState', 'comment': 'here' }, { 'step': 'externalSteps', 'path': 'next.json' } ] }".
Definition small_value : json :=
  JMap [(str "checkGas", JBool false);
        (str "steps", JList [JMap [(str "step", JStr (str "dumpState")); (str "comment", JStr (str "here"))];
                             JMap [(str "step", JStr (str "externalSteps")); (str "path", JStr (str "next.json"))]])].
Definition small_scenario : scenario :=
  mkScenario [] [] false GasDefault [DumpState (str "here"); ExternalSteps [] (str "next.json")].
