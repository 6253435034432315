(** Vocabulary for scenario files that refer to others and for directories of
    them.  Of RunnerModel only the types and the outside ([renv]) are used. *)
From Verif Require Import Base JsonSpec FileSpec RunnerModel.
From stdpp Require Import gmap.

Section Runner.
Context {R : renv}.

(** the file that [value] names in the file [q], when paths are replaced as in
    [rep] *)
Definition target (rep : gmap bytes bytes) (q value : bytes) : bytes :=
  default (re_near R q value) (rep !! value).
(** what "file:..." stands for in the file [q] *)
Definition seen_from (rep : gmap bytes bytes) (q value : bytes) : option bytes :=
  match value with [] => Some [] | _ => re_read R (target rep q value) end.
(** [path] is the file [q], which says the scenario [s] *)
Definition file_says (rep : gmap bytes bytes) (path q : bytes) (s : scenario) : Prop :=
  re_abs R path = Some q /\
  exists text v, re_read R q = Some text /\ lax_document text v /\
    scenario_said (seen_from rep q) (re_keccak R) v s.

(** [steps], read in the file [q], with the references to other files replaced by
    the steps of these, and so on; all of them check gas if [c] *)
Inductive spelled_out (rep : gmap bytes bytes) (c : bool) : bytes -> list step -> list step -> Prop :=
| so_end q : spelled_out rep c q [] []
| so_step q st r r' : (forall comment path, st <> ExternalSteps comment path) ->
    spelled_out rep c q r r' -> spelled_out rep c q (st :: r) (st :: r')
| so_file q comment path q' s l r r' : file_says rep (target rep q path) q' s -> s_check_gas s = c ->
    spelled_out rep c q' (s_steps s) l -> spelled_out rep c q r r' ->
    spelled_out rep c q (ExternalSteps comment path :: r) (l ++ r').

(** the prices a scenario asks for *)
Definition schedule_of (g : gas_schedule) : vm_schedule :=
  match g with GasDummy => SchedDummy | GasV1 => SchedV1 | GasV2 => SchedV2 | GasV3 | GasDefault => SchedV3 end.

(** * Directories *)

(** [p] is [path] or below it *)
Inductive under : bytes -> tree -> bytes -> Prop :=
| under_here path t : under path t path
| under_entry path name t l p : In (name, t) l -> under (path ++ str "/" ++ name) t p -> under path (TDir (Some l)) p.
(** the names in a directory differ and have no slash *)
Inductive tidy : tree -> Prop :=
| tidy_gone : tidy TGone
| tidy_file : tidy TFile
| tidy_closed : tidy (TDir None)
| tidy_dir l : NoDup (map fst l) -> Forall (fun e => ~ In Byte.x2f (fst e)) l ->
    (forall e, In e l -> tidy (snd e)) -> tidy (TDir (Some l)).
Definition ends (p suffix : bytes) : Prop := exists a, p = a ++ suffix.
Definition excluded (patterns : list bytes) (p : bytes) : Prop :=
  exists pattern, In pattern patterns /\ re_match R pattern p = Some true.
Definition picked (suffix : bytes) (patterns : list bytes) (p : bytes) : Prop :=
  ends p suffix /\ ~ excluded patterns p.
End Runner.
