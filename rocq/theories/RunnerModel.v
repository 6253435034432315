(** mandos-go/controller, mandos-go/fileresolver and the rest of
    arwenmandos/execScenario.go: running scenario files, one that refers to
    others, and all of a directory. *)
From Verif Require Import Base MandosModel ScenModel ScenParseModel WorldModel.

(** The outside: the files, the functions of path/filepath, Keccak, and the
    virtual machine under each gas schedule. *)
Inductive vm_schedule := SchedDummy | SchedV1 | SchedV2 | SchedV3.
Record renv := mkREnv {
  re_read : bytes -> option bytes;              (* os.Open with ioutil.ReadAll, and ioutil.ReadFile *)
  re_abs : bytes -> option bytes;               (* filepath.Abs *)
  re_near : bytes -> bytes -> bytes;            (* filepath.Join(filepath.Dir(context), value) *)
  re_match : bytes -> bytes -> option bool;     (* filepath.Match(path.Join(general, pattern), path);
                                                   None for an error *)
  re_keccak : bytes -> bytes;
  re_vm : vm_schedule -> wenv
}.
Existing Class renv.

(** fileResolverDefault.go:11-14, DefaultFileResolver *)
Record resolver := mkResolver { fr_context : bytes; fr_replace : gmap bytes bytes }.
(** fileResolverDefault.go:40-42.  Clone (32-37) shares the replacements and copies
    the context: a value here. *)
Definition SetContext (p : bytes) (fr : resolver) : resolver := mkResolver p (fr_replace fr).

(** exec.go:25-32, ArwenTestExecutor; of the machine, the gas schedule. *)
Record executor := mkExecutor {
  x_world : mworld; x_schedule : vm_schedule; x_check_gas : bool; x_loaded : bool;
  x_resolver : option resolver }.
Definition set_x_world (w : mworld) (x : executor) : executor :=
  mkExecutor w (x_schedule x) (x_check_gas x) (x_loaded x) (x_resolver x).
Definition set_x_resolver (r : option resolver) (x : executor) : executor :=
  mkExecutor (x_world x) (x_schedule x) (x_check_gas x) (x_loaded x) r.

(** worldDef.go:74-82, Clear. *)
Definition Clear : mworld := mkMWorld ∅ [] None None [] [].
(** exec.go:38-67, NewArwenTestExecutor. *)
Definition NewArwenTestExecutor : executor := mkExecutor Clear SchedDummy true false None.
(** execScenario.go:12-14, Reset. *)
Definition Reset (x : executor) : executor := set_x_world Clear x.

(** exec.go:74-89, gasScheduleMapFromMandos; the schedules in the source can be
    loaded. *)
Definition gasScheduleMapFromMandos (g : gas_schedule) : vm_schedule :=
  match g with
  | GasDefault => SchedV3 | GasDummy => SchedDummy
  | GasV1 => SchedV1 | GasV2 => SchedV2 | GasV3 => SchedV3
  end.
(** exec.go:94-105, SetMandosGasSchedule. *)
Definition SetMandosGasSchedule (g : gas_schedule) (x : executor) : executor :=
  if x_loaded x then x
  else mkExecutor (x_world x) (gasScheduleMapFromMandos g) (x_check_gas x) true (x_resolver x).

Section Runner.
Context {R : renv}.

(** fileResolverDefault.go:45-54, ResolveAbsolutePath. *)
Definition ResolveAbsolutePath (fr : resolver) (value : bytes) : bytes :=
  match fr_replace fr !! value with
  | Some p => p
  | None => re_near R (fr_context fr) value
  end.
(** fileResolverDefault.go:57-68, ResolveFileValue. *)
Definition ResolveFileValue (fr : resolver) (value : bytes) : option bytes :=
  match value with
  | [] => Some []
  | _ => re_read R (ResolveAbsolutePath fr value)
  end.

(** execScenario.go:39-56, ExecuteStep for the steps that read no other file. *)
Definition plain_step (s : step) (x : executor) : executor * sres unit :=
  let '(w, r) := ExecuteStep (W := re_vm R (x_schedule x)) (x_check_gas x) s (x_world x) in
  (set_x_world w x, r).

(** The steps of a scenario, up to the first that fails (execScenario.go:26-33);
    [file] runs another file.  None: more files inside of another than [file]
    was made for. *)
Fixpoint run_steps (file : resolver -> bytes -> executor -> executor * option (sres unit))
    (l : list step) (x : executor) : executor * option (sres unit) :=
  match l with
  | [] => (x, Some (SOk tt))
  | s :: r =>
      let '(x, o) :=
        match s with
        (* execScenario.go:59-78, ExecuteExternalStep; a nil resolver panics *)
        | ExternalSteps _ path =>
            match x_resolver x with
            | None => (x, Some SPanic)
            | Some fr =>
                match file fr (ResolveAbsolutePath fr path) x with
                | (x, Some (SOk _)) => (set_x_resolver (Some fr) x, Some (SOk tt))
                | other => other
                end
            end
        | _ => let '(x, o) := plain_step s x in (x, Some o)
        end in
      match o with
      | Some (SOk _) => run_steps file r x
      | _ => (x, o)
      end
  end.

(** execScenario.go:17-36, ExecuteScenario. *)
Definition ExecuteScenario (file : resolver -> bytes -> executor -> executor * option (sres unit))
    (s : scenario) (fr : resolver) (x : executor) : executor * option (sres unit) :=
  let x := mkExecutor (x_world x) (x_schedule x) (s_check_gas s) (x_loaded x) (Some fr) in
  run_steps file (s_steps s) (SetMandosGasSchedule (s_gas s) x).

(** scenarioOne.go:13-43, RunSingleJSONScenario of a runner with the resolver
    [fr], for files that go at most [n] deep.  Go has no limit: files that refer to
    each other in a circle exhaust its stack. *)
Fixpoint RunSingleJSONScenario (n : nat) (fr : resolver) (path : bytes) (x : executor)
  : executor * option (sres unit) :=
  match n with
  | O => (x, None)
  | S n =>
      match re_abs R path with
      | None => (x, Some SErr)
      | Some p =>
          match re_read R p with
          | None => (x, Some SErr)
          | Some text =>
              let fr := SetContext p fr in
              match ParseScenarioFile (ResolveFileValue fr) (re_keccak R) text with
              | SOk s => ExecuteScenario (RunSingleJSONScenario n) s fr x
              | SErr => (x, Some SErr)
              | SPanic => (x, Some SPanic)
              end
          end
      end
  end.

(** * A directory *)

(** What filepath.Walk finds under a path: something that cannot be looked at, a
    file, or a directory with its entries in order (None: it cannot be read). *)
Inductive tree := TGone | TFile | TDir (entries : option (list (bytes * tree))).
(** path/filepath Walk and walk: the paths for which the function is called, in
    order, when it never returns an error.  Paths are clean, so that joining a
    name is appending it. *)
Fixpoint walk (path : bytes) (t : tree) : list bytes :=
  path :: match t with
          | TDir (Some l) => concat (map (fun e => walk (path ++ str "/" ++ fst e) (snd e)) l)
          | _ => []
          end.

(** strings.HasSuffix *)
Definition HasSuffix (s suffix : bytes) : bool :=
  bool_decide (drop (length s - length suffix) s = suffix).
(** testDir.go:12-24, isExcluded; None: it panics. *)
Fixpoint isExcluded (patterns : list bytes) (path : bytes) : option bool :=
  match patterns with
  | [] => Some false
  | p :: r =>
      match re_match R p path with
      | None => None
      | Some true => Some true
      | Some false => isExcluded r path
      end
  end.

(** How a run of many files ends: the numbers printed and whether an error is
    returned; or the whole process stops (panic), or the depth was not enough. *)
Inductive dir_result :=
| DirDone (passed failed skipped : N) (err : bool)
| DirPanic
| DirFuel.

(** scenarioDir.go:23-46: one file after another. *)
Fixpoint run_all (n : nat) (fr : resolver) (suffix : bytes) (patterns : list bytes)
    (paths : list bytes) (passed failed skipped : N) (x : executor) : executor * dir_result :=
  match paths with
  | [] => (x, DirDone passed failed skipped (0 <? failed)%N)
  | p :: r =>
      if HasSuffix p suffix then
        match isExcluded patterns p with
        | None => (x, DirPanic)
        | Some true => run_all n fr suffix patterns r passed failed (skipped + 1)%N x
        | Some false =>
            match RunSingleJSONScenario n fr p (Reset x) with
            | (x, None) => (x, DirFuel)
            | (x, Some SPanic) => (x, DirPanic)
            | (x, Some (SOk _)) => run_all n fr suffix patterns r (passed + 1)%N failed skipped x
            | (x, Some SErr) => run_all n fr suffix patterns r passed (failed + 1)%N skipped x
            end
        end
      else run_all n fr suffix patterns r passed failed skipped x
  end.
(** scenarioDir.go:14-52, RunAllJSONScenariosInDirectory on the directory [path],
    under which is [t].  The runner's resolver keeps the context of the last
    file, which the next file replaces. *)
Definition RunAllJSONScenariosInDirectory (n : nat) (fr : resolver) (path : bytes) (t : tree)
    (suffix : bytes) (patterns : list bytes) (x : executor) : executor * dir_result :=
  run_all n fr suffix patterns (walk path t) 0 0 0 x.
End Runner.
