(** C79: scenario files that refer to others; C80: all scenarios of a directory. *)
From Verif Require Import Base ScenModel ScenParseModel WorldModel RunnerModel RunnerSpec RunnerProofs RunnerDirProofs ExWorld ExRewrite ExRunner.
From stdpp Require Import gmap list.
Local Open Scope Z_scope.

(** ** C79: running a file whose references to other files (relative to the file
    they stand in, or replaced) lead to steps [l] is executing these steps in
    place, under the gas schedule of the outermost file (or the one already in
    force), if all the files agree on whether gas is checked: the same world, and
    the same result.  The depth [m] to which files are followed does not matter
    if it is enough.  What is missing: files that do not agree, see
    C79_check_gas_refuted. *)
Theorem C79_in_place_partial : forall `{R : renv} fr path q s l x,
  file_says (fr_replace fr) path q s -> spelled_out (fr_replace fr) (s_check_gas s) q (s_steps s) l ->
  exists n, forall m, (n <= m)%nat -> exists x',
    let g := if x_loaded x then x_schedule x else schedule_of (s_gas s) in
    let e := ExecuteSteps (W := re_vm R g) (s_check_gas s) l (x_world x) in
    RunSingleJSONScenario m fr path x = (x', Some (snd e)) /\ x_world x' = fst e /\ x_schedule x' = g.
Proof. exact @file_in_place. Qed.
Print Assumptions C79_in_place_partial.

Example C79_in_place_ex :
  let R := disk nested in
  let main := said_at nested "/t/main.scen.json" in
  let init := said_at nested "/t/sub/init.json" in
  let more := said_at nested "/t/sub/more.json" in
  file_says ∅ (str "/t/main.scen.json") (str "/t/main.scen.json") main /\
  spelled_out ∅ true (str "/t/main.scen.json") (s_steps main) ((s_steps more ++ skipn 1 (s_steps init)) ++ skipn 1 (s_steps main)) /\
  length (s_steps more) = 1%nat /\ length (s_steps init) = 2%nat /\ length (s_steps main) = 2%nat /\
  snd (RunSingleJSONScenario 3 plain (str "/t/main.scen.json") NewArwenTestExecutor) = Some (SOk tt) /\
  snd (RunSingleJSONScenario 2 plain (str "/t/main.scen.json") NewArwenTestExecutor) = None.
Proof.
  cbv zeta.
  assert (F : forall p, In p ["/t/main.scen.json"; "/t/sub/init.json"; "/t/sub/more.json"]%string ->
    file_says (R := disk nested) ∅ (str p) (str p) (said_at nested p)).
  { intros p Hp. apply says_iff. split; [reflexivity|]. exists (default [] (among nested (str p))).
    destruct Hp as [<-|[<-|[<-|[]]]]; (split; vm_compute; reflexivity). }
  split; [apply F; left; reflexivity|]. split.
  - assert (E : s_steps (said_at nested "/t/main.scen.json") =
      ExternalSteps [] (str "sub/init.json") :: skipn 1 (s_steps (said_at nested "/t/main.scen.json"))) by (vm_compute; reflexivity).
    rewrite E at 1. clear E.
    apply so_file with (str "/t/sub/init.json") (said_at nested "/t/sub/init.json").
    + apply (F "/t/sub/init.json"%string). right. left. reflexivity.
    + vm_compute. reflexivity.
    + assert (E : s_steps (said_at nested "/t/sub/init.json") =
        ExternalSteps [] (str "more.json") :: skipn 1 (s_steps (said_at nested "/t/sub/init.json"))) by (vm_compute; reflexivity).
      rewrite E at 1. clear E.
      apply so_file with (str "/t/sub/more.json") (said_at nested "/t/sub/more.json").
      * apply (F "/t/sub/more.json"%string). right. right. left. reflexivity.
      * vm_compute. reflexivity.
      * apply spelled_alone. vm_compute. reflexivity.
      * apply spelled_alone. vm_compute. reflexivity.
    + apply spelled_alone. vm_compute. reflexivity.
  - split; [vm_compute; reflexivity|]. split; [vm_compute; reflexivity|]. split; [vm_compute; reflexivity|].
    split; vm_compute; reflexivity.
Qed.

(** C79 fails for files that do not agree on whether gas is checked: what the file
    last referred to says holds for the rest of the file that refers to it.  "main"
    checks gas by default, and its last step expects 5 units to be left where none
    are; it passes because the empty file referred to before does not check gas. *)
Theorem C79_check_gas_refuted : exists (R : renv) fr path q s other l,
  file_says (fr_replace fr) path q s /\ s_check_gas s = true /\
  s_steps s = firstn 1 l ++ [ExternalSteps [] (str "lax.json")] ++ skipn 1 l /\
  file_says (fr_replace fr) (target (fr_replace fr) q (str "lax.json")) (str "/t/lax.json") other /\ s_steps other = [] /\
  snd (RunSingleJSONScenario 3 fr path NewArwenTestExecutor) = Some (SOk tt) /\
  snd (ExecuteSteps (W := re_vm R (schedule_of (s_gas s))) true l (x_world NewArwenTestExecutor)) = SErr.
Proof.
  exists (disk lax), plain, (str "/t/main.scen.json"), (str "/t/main.scen.json"), (said_at lax "/t/main.scen.json"), (said_at lax "/t/lax.json"),
    (firstn 1 (s_steps (said_at lax "/t/main.scen.json")) ++ skipn 2 (s_steps (said_at lax "/t/main.scen.json"))).
  assert (F : forall p, In p ["/t/main.scen.json"; "/t/lax.json"]%string ->
    file_says (R := disk lax) ∅ (str p) (str p) (said_at lax p)).
  { intros p Hp. apply says_iff. split; [reflexivity|]. exists (default [] (among lax (str p))).
    destruct Hp as [<-|[<-|[]]]; (split; vm_compute; reflexivity). }
  split; [apply F; left; reflexivity|]. split; [vm_compute; reflexivity|]. split; [vm_compute; reflexivity|].
  split; [apply (F "/t/lax.json"%string); right; left; reflexivity|]. split; [vm_compute; reflexivity|]. split; vm_compute; reflexivity.
Qed.
Print Assumptions C79_check_gas_refuted.

(** ** C80: a run over a directory on a new executor.  [n] is the depth to which
    files are followed.  If the patterns are well formed, the scenarios picked
    agree on the gas schedule, and each ends when it is run alone, then every path
    under the directory is looked at, once; the numbers printed are those of the
    scenarios that pass alone, that fail alone, and that are left out; and an error
    is returned exactly if one fails.  What is missing: scenarios that ask for
    different gas schedules (C80_schedule_refuted), and directories that cannot be
    read (C80_unreadable_refuted). *)
Theorem C80_directory_partial : forall `{R : renv} n fr suffix patterns g path t,
  (forall pattern p, In pattern patterns -> re_match R pattern p <> None) ->
  (forall p, under path t p -> picked suffix patterns p ->
     forall q s, file_says (fr_replace fr) p q s -> schedule_of (s_gas s) = g) ->
  (forall p, under path t p -> picked suffix patterns p ->
     let o := snd (RunSingleJSONScenario n fr p NewArwenTestExecutor) in o <> None /\ o <> Some SPanic) ->
  exists good bad skipped other,
    (forall p, under path t p <-> In p (good ++ bad ++ skipped ++ other)) /\
    (tidy t -> NoDup (good ++ bad ++ skipped ++ other)) /\
    snd (RunAllJSONScenariosInDirectory n fr path t suffix patterns NewArwenTestExecutor) =
      DirDone (N.of_nat (length good)) (N.of_nat (length bad)) (N.of_nat (length skipped)) (negb (bool_decide (bad = []))) /\
    Forall (fun p => picked suffix patterns p /\ snd (RunSingleJSONScenario n fr p NewArwenTestExecutor) = Some (SOk tt)) good /\
    Forall (fun p => picked suffix patterns p /\ snd (RunSingleJSONScenario n fr p NewArwenTestExecutor) = Some SErr) bad /\
    Forall (fun p => ends p suffix /\ excluded patterns p) skipped /\ Forall (fun p => ~ ends p suffix) other.
Proof. intros R n fr suffix patterns g path t. apply directory_counts. intros [=]. Qed.
Print Assumptions C80_directory_partial.

Example C80_directory_ex :
  let R := disk mixed in
  tidy mixed_tree /\ under (str "/t") mixed_tree (str "/t/d/b.scen.json") /\
  picked scen [str "/t/d/c.scen.json"] (str "/t/d/b.scen.json") /\ excluded [str "/t/d/c.scen.json"] (str "/t/d/c.scen.json") /\
  snd (RunAllJSONScenariosInDirectory 2 plain (str "/t") mixed_tree scen [str "/t/d/c.scen.json"] NewArwenTestExecutor) = DirDone 1 1 1 true.
Proof.
  cbv zeta. split.
  { unfold mixed_tree. repeat match goal with
    | |- tidy (TDir (Some _)) => apply tidy_dir
    | |- tidy (TDir None) => constructor
    | |- tidy TFile => constructor
    | |- NoDup _ => apply (bool_decide_unpack _); vm_compute; exact I
    | |- Forall _ _ => repeat (apply Forall_cons; split; [vm_compute; intuition discriminate|]); apply Forall_nil; exact I
    | |- forall e, In e _ -> _ => intros e [<-|He]; [cbn [snd]|revert e He]
    | |- forall e, In e [] -> _ => intros e []
    end. }
  split; [apply under_entry with (str "d") (TDir (Some [(str "b.scen.json", TFile); (str "c.scen.json", TFile)]));
    [right; left; reflexivity|apply under_entry with (str "b.scen.json") TFile; [left; reflexivity|constructor]]|].
  split; [split; [exists (str "/t/d/b"); reflexivity|intros (p & [<-|[]] & Hp); vm_compute in Hp; discriminate Hp]|].
  split; [exists (str "/t/d/c.scen.json"); split; [left; reflexivity|vm_compute; reflexivity]|]. vm_compute. reflexivity.
Qed.

(** C80 fails for scenarios that ask for different gas schedules: only the first
    one of a run is used.  Everything passes, although the second scenario fails
    when it is run alone. *)
Theorem C80_schedule_refuted : exists (R : renv) fr path t suffix p,
  under path t p /\ picked suffix [] p /\
  snd (RunAllJSONScenariosInDirectory 2 fr path t suffix [] NewArwenTestExecutor) = DirDone 2 0 0 false /\
  snd (RunSingleJSONScenario 2 fr p NewArwenTestExecutor) = Some SErr.
Proof.
  exists (disk differing), plain, (str "/t"), two_files, scen, (str "/t/b.scen.json").
  split; [apply under_entry with (str "b.scen.json") TFile; [right; left; reflexivity|constructor]|].
  split; [split; [exists (str "/t/b"); reflexivity|intros (q & [] & _)]|]. split; vm_compute; reflexivity.
Qed.
Print Assumptions C80_schedule_refuted.

(** C80: a directory that is not there, or cannot be read, is a success. *)
Theorem C80_unreadable_refuted : exists (R : renv) fr path suffix, forall n t, t = TGone \/ t = TDir None ->
  snd (RunAllJSONScenariosInDirectory n fr path t suffix [] NewArwenTestExecutor) = DirDone 0 0 0 false.
Proof.
  exists (disk []), plain, (str "/typo"), scen. intros n t [-> | ->]; vm_compute; reflexivity.
Qed.
Print Assumptions C80_unreadable_refuted.
