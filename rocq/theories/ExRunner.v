(** Scenario files that refer to others, for the examples. *)
From Coq Require Import String.
From Verif Require Import Base ScenModel ScenParseModel WorldModel RunnerModel RunnerSpec RunnerProofs ExWorld ExRewrite.
From stdpp Require Import gmap.
Local Open Scope Z_scope.

(** the directory of a path, with the slash *)
Fixpoint up_to_slash (l : bytes) : bytes :=
  match l with [] => [] | c :: r => if bool_decide (c = Byte.x2f) then l else up_to_slash r end.
Definition near (q value : bytes) : bytes := rev (up_to_slash (rev q)) ++ value.
Fixpoint among {A} (l : list (string * A)) (p : bytes) : option A :=
  match l with [] => None | (k, a) :: r => if bool_decide (str k = p) then Some a else among r p end.

(** The machine succeeds with no gas left, except under the second schedule, where
    it fails. *)
Definition by_schedule (s : vm_schedule) : wenv :=
  match s with
  | SchedV2 => machine ([], None) ([], None)
  | _ => machine ([], None) ([], Some (output RcOk ∅))
  end.
Definition disk (l : list (string * bytes)) : renv :=
  mkREnv (among l) Some near (fun pattern p => Some (bool_decide (pattern = p))) (fun _ => []) by_schedule.
Definition plain : resolver := mkResolver [] ∅.

Definition alice_set : string := "{ 'step': 'setState', 'accounts': { 'address:alice': { 'balance': '100' },
  '0x0000000000000000000005050505050505050505050505050505050505050505': { 'code': 'str:wasm' } } }".
Definition alice_has : string := "{ 'step': 'checkState', 'accounts': { 'address:alice': { 'balance': '100' }, '+': '' } }".
Definition alice_calls : string :=
  "{ 'step': 'scCall', 'tx': { 'from': 'address:alice', 'to': '0x0000000000000000000005050505050505050505050505050505050505050505',
     'function': 'f', 'gasLimit': '50', 'gasPrice': '0' },
     'expect': { 'status': '0', 'gas': '5' } }".
Definition steps_in (file : string) : string := "{ 'step': 'externalSteps', 'path': '" ++ file ++ "' }".

(** Files in two directories: the reference in the second is to its own
    directory. *)
Definition nested : list (string * bytes) :=
  [("/t/main.scen.json", js ("{'steps':[" ++ steps_in "sub/init.json" ++ "," ++ alice_has ++ "]}"));
   ("/t/sub/init.json", js ("{'steps':[" ++ steps_in "more.json" ++ "," ++ alice_set ++ "]}"));
   ("/t/sub/more.json", only "{ 'step': 'dumpState' }")]%string.
Definition said_by (text : bytes) : scenario := of_ok (ParseScenarioFile no_files no_hash text) empty_scenario.
Definition said_at (l : list (string * bytes)) (p : string) : scenario := said_by (default [] (among l (str p))).
(** A file that does not check gas, and one that does and refers to it. *)
Definition lax : list (string * bytes) :=
  [("/t/main.scen.json", js ("{'steps':[" ++ alice_set ++ "," ++ steps_in "lax.json" ++ "," ++ alice_calls ++ "]}"));
   ("/t/lax.json", js "{'checkGas': false, 'steps': []}")]%string.
(** Two files that ask for different gas schedules. *)
Definition differing : list (string * bytes) :=
  [("/t/a.scen.json", js "{'gasSchedule': 'v1', 'steps': []}");
   ("/t/b.scen.json", js ("{'gasSchedule': 'v2', 'checkGas': false, 'steps': [" ++ alice_set ++ "," ++ alice_calls ++ "]}"))]%string.
Definition two_files : tree := TDir (Some [(str "a.scen.json", TFile); (str "b.scen.json", TFile)]).
(** A directory with one good scenario, one bad one, one that is left out, and
    other files. *)
Definition mixed : list (string * bytes) :=
  [("/t/a.scen.json", js ("{'steps':[" ++ alice_set ++ "," ++ alice_has ++ "]}"));
   ("/t/d/b.scen.json", js ("{'steps':[" ++ alice_has ++ "]}"));
   ("/t/d/c.scen.json", js "{"); ("/t/readme", str "text")]%string.
Definition mixed_tree : tree :=
  TDir (Some [(str "a.scen.json", TFile); (str "d", TDir (Some [(str "b.scen.json", TFile); (str "c.scen.json", TFile)]));
              (str "e", TDir None); (str "readme", TFile)]).
Definition scen : bytes := str ".scen.json".

(** steps without references *)
Definition stands_alone (s : step) : bool := match s with ExternalSteps _ _ => false | _ => true end.
Lemma spelled_alone `{R : renv} rep c q l : forallb stands_alone l = true -> spelled_out rep c q l l.
Proof.
  induction l as [|s r IH]; intros H; [constructor|]. cbn in H. apply andb_prop in H as [H1 H2].
  apply so_step; [|apply IH, H2]. intros comment path ->. discriminate H1.
Qed.
