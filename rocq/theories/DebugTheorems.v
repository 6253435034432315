(** C84: worlds of the debugger outlive its requests; C85: money in these worlds. *)
From Verif Require Import Base CallDataModel ScenModel WorldModel WorldSpec DebugModel DebugSpec DebugProofs ExWorld ExDebug.
From stdpp Require Import gmap list.
Local Open Scope Z_scope.

(** ** C84: requests served one by one, each on the world read from its file and
    written back to it, get the responses they would get from a debugger that
    kept all its worlds in memory, and the worlds found afterwards are the same:
    if the names of worlds and outcomes stay in their directories, worlds are
    named by well-formed text, and addresses, storage keys and call data on the
    way are well-formed text.  What is missing: other names and bytes, see the
    refutations below. *)
Theorem C84_session_partial : forall `{D : denv} l fs,
  (forall root name, root <> [] -> plain name -> fs !! getWorldFile root name = None) ->
  List.Forall usual l -> all_text l ∅ ->
  snd (facade_run l fs) = snd (remember_run l ∅) /\
  forall root name, root <> [] -> plain name -> utf8 name ->
    loadWorld root name (fst (facade_run l fs)) =
    Some (mkWorldData name (Some (default ∅ (fst (remember_run l ∅) !! (Clean root, name))))).
Proof. exact @session_new. Qed.
Print Assumptions C84_session_partial.

Example C84_session_ex :
  let D := counting in
  List.Forall usual (morning ++ afternoon) /\ all_text (morning ++ afternoon) ∅ /\
  given (snd (facade_run (morning ++ afternoon) ∅)) =
    [None; Some []; Some []; None; Some []; Some []; Some [[Byte.x03]]; Some [[Byte.x01]]].
Proof.
  cbv zeta. split_and!.
  - repeat constructor; intros; try reflexivity; apply usual_spec; reflexivity.
  - apply run_ok_spec. vm_compute. reflexivity.
  - vm_compute. reflexivity.
Qed.

(** What goes through a file unharmed as text is exactly the well-formed UTF-8. *)
Theorem C84_text : forall l, as_text l = l <-> utf8 l.
Proof. exact as_text_iff. Qed.
Print Assumptions C84_text.

Example C84_text_ex : utf8 (str "alice") /\ utf8 [Byte.xc3; Byte.xa9] /\ ~ utf8 [Byte.xff; Byte.x01].
Proof. rewrite <- !C84_text. split_and!; [reflexivity|reflexivity|discriminate]. Qed.

(** A query writes at most its outcome, and leaves every world as it was. *)
Theorem C84_query : forall `{D : denv} r fs root name,
  asks r -> plain (rb_outcome (base_of r)) -> root <> [] -> plain name ->
  loadWorld root name (fst (facade r fs)) = loadWorld root name fs.
Proof. exact @query_keeps. Qed.
Print Assumptions C84_query.

Theorem C84_query_writes : forall `{D : denv} b c p fs fs' x f,
  facade (Query b c p) fs = (fs', x) ->
  f <> getOutcomeFile (rb_database (digest_base b)) (rb_outcome b) -> fs' !! f = fs !! f.
Proof. exact @query_writes. Qed.
Print Assumptions C84_query_writes.

(** even a query for "increment", which counts *)
Example C84_query_ex :
  let D := counting in
  let fs := fst (facade_run morning ∅) in
  let r := Query (at_world [] (str "q")) (by_alice []) (mkRunPart (hex_encode counter) (str "increment") []) in
  asks r /\ plain (rb_outcome (base_of r)) /\
  (match snd (facade r fs) with SOk x => match answer x with Some o => bool_decide (o_accounts o = ∅) | None => true end | _ => true end) = false /\
  match fst (facade r fs) !! getOutcomeFile (str "./db") (str "q") with Some FObject => True | _ => False end.
Proof.
  cbv zeta. split; [exact I|]. split; [apply (bool_decide_unpack _); vm_compute; exact I|].
  split; [vm_compute; reflexivity|]. vm_compute. exact I.
Qed.

(** A request that cannot be understood writes nothing. *)
Theorem C84_refused : forall `{D : denv} r fs fs' x,
  digest r = None -> facade r fs = (fs', x) -> fs' = fs /\ x = SErr.
Proof. exact @refused_writes. Qed.
Print Assumptions C84_refused.

Example C84_refused_ex : digest (H := counting) (account_exists (at_world [] []) []) = None /\
  digest (H := counting) (incr (at_world [] []) counter (str "five") []) = None.
Proof. split; vm_compute; reflexivity. Qed.

(** C84 fails for addresses that are not text, as those the machine itself makes
    are: an account just created is not found. *)
Theorem C84_address_refuted : exists (D : denv) l,
  List.Forall usual l /\ given (snd (facade_run l ∅)) = [None; None] /\ given (snd (remember_run l ∅)) = [None; Some [[]]].
Proof.
  exists counting, odd_address. split_and!; [|vm_compute; reflexivity|vm_compute; reflexivity].
  repeat constructor; intros; try reflexivity; apply usual_spec; reflexivity.
Qed.
Print Assumptions C84_address_refuted.

(** ... two accounts may become one, and the balance of the other is lost *)
Theorem C84_two_accounts_refuted : exists (D : denv) l,
  List.Forall usual l /\ worth (str "./db") (str "default") (fst (facade_run l ∅)) = 42 /\
  total_balance (default ∅ (fst (remember_run l ∅) !! (Clean (str "./db"), str "default"))) = 84.
Proof.
  exists counting, two_addresses. split_and!; [|vm_compute; reflexivity|vm_compute; reflexivity].
  repeat constructor; intros; try reflexivity; apply usual_spec; reflexivity.
Qed.
Print Assumptions C84_two_accounts_refuted.

(** ... or for storage keys: what was stored is read as nothing, and found under
    another key. *)
Theorem C84_key_refuted : exists (D : denv) l,
  List.Forall usual l /\
  given (snd (facade_run l ∅)) = [None; Some []; Some [[]]; Some [[Byte.x01]]] /\
  given (snd (remember_run l ∅)) = [None; Some []; Some [[Byte.x01]]; Some [[]]].
Proof.
  exists counting, odd_keys. split_and!; [|vm_compute; reflexivity|vm_compute; reflexivity].
  repeat constructor; intros; try reflexivity; apply usual_spec; reflexivity.
Qed.
Print Assumptions C84_key_refuted.

(** ... or for worlds whose name is not text: the second request to write goes to
    another file, and is forgotten. *)
Theorem C84_world_name_refuted : exists (D : denv) l,
  List.Forall (fun r => plain (rb_world (base_of r)) /\ rb_outcome (base_of r) = []) l /\ all_text l ∅ /\
  given (snd (facade_run l ∅)) = [None; Some []; Some [[]]] /\
  given (snd (remember_run l ∅)) = [None; Some []; Some [[Byte.x01]]].
Proof.
  exists counting, odd_world. split_and!; [|apply run_ok_spec; vm_compute; reflexivity|vm_compute; reflexivity|vm_compute; reflexivity].
  repeat constructor; cbn [rb_world base_of account_exists incr get at_world]; (apply (bool_decide_unpack _); vm_compute; exact I).
Qed.
Print Assumptions C84_world_name_refuted.

(** ... or if an outcome is called "../worlds/w": a query then empties the world
    "w", and the next account for it ends in a panic. *)
Theorem C84_outcome_refuted : exists (D : denv) l,
  List.Forall (fun r => plain (rb_world (base_of r)) /\ utf8 (rb_world (base_of r))) l /\ all_text l ∅ /\
  given (snd (facade_run l ∅)) = [None; Some [[]]; None; None] /\
  given (snd (remember_run l ∅)) = [None; Some [[]]; Some [[]]; None] /\
  last (snd (facade_run l ∅)) = Some SPanic.
Proof.
  exists counting, stray_outcome. split_and!; [|apply run_ok_spec; vm_compute; reflexivity|vm_compute; reflexivity..].
  repeat constructor; cbn [rb_world base_of account_exists incr get at_world];
    try (apply as_text_iff; reflexivity); (apply (bool_decide_unpack _); vm_compute; exact I).
Qed.
Print Assumptions C84_outcome_refuted.

(** ** C85: what a request other than CreateAccount does to the sum of the balances
    of a world.  A query, or a request for another world, leaves it as it was; *)
Theorem C85_kept : forall `{D : denv} l r fs0 fs' x root name,
  (forall root name, root <> [] -> plain name -> fs0 !! getWorldFile root name = None) ->
  List.Forall usual (l ++ [r]) -> all_text (l ++ [r]) ∅ ->
  facade r (fst (facade_run l fs0)) = (fs', SOk x) -> ~ makes_account r ->
  root <> [] -> plain name -> utf8 name ->
  asks r \/ (Clean root, name) <> place (digest_base (base_of r)) ->
  worth root name fs' = worth root name (fst (facade_run l fs0)).
Proof. exact @worth_ask. Qed.
Print Assumptions C85_kept.

(** a query for "increment" with a value, whose answer would add 7 *)
Example C85_kept_ex :
  let D := counting in
  let r := Query (at_world [] []) (by_alice (str "7")) (mkRunPart (hex_encode counter) (str "increment") []) in
  let fs := fst (facade_run morning ∅) in
  List.Forall usual (morning ++ [r]) /\ all_text (morning ++ [r]) ∅ /\ ~ makes_account r /\ asks r /\
  match snd (facade r fs) with
  | SOk x => match answer x with Some o => total_delta (o_accounts o) = 7 | None => False end
  | _ => False
  end /\
  worth (str "./db") (str "default") fs = 47.
Proof.
  cbv zeta. split; [repeat constructor; intros; try reflexivity; apply usual_spec; reflexivity|].
  split; [apply run_ok_spec; vm_compute; reflexivity|]. split; [exact (fun H => H)|]. split; [exact I|].
  split; vm_compute; reflexivity.
Qed.

(** a deployment, an upgrade or a run adds what the deltas of the answer add up to.
    What is missing: that this is nothing, see C85_value_refuted. *)
Theorem C85_total_partial : forall `{D : denv} l r fs0 fs' x root name o,
  (forall root name, root <> [] -> plain name -> fs0 !! getWorldFile root name = None) ->
  List.Forall usual (l ++ [r]) -> all_text (l ++ [r]) ∅ ->
  facade r (fst (facade_run l fs0)) = (fs', SOk x) -> ~ makes_account r ->
  root <> [] -> plain name -> utf8 name ->
  ~ asks r -> (Clean root, name) = place (digest_base (base_of r)) -> answer x = Some o ->
  worth root name fs' = worth root name (fst (facade_run l fs0)) + total_delta (o_accounts o).
Proof. exact @worth_run. Qed.
Print Assumptions C85_total_partial.

Example C85_total_ex :
  let D := counting in
  let r := incr (at_world [] []) counter (str "7") [] in
  List.Forall usual (morning ++ [r]) /\ all_text (morning ++ [r]) ∅ /\ ~ makes_account r /\ ~ asks r /\
  (Clean (str "./db"), str "default") = place (digest_base (base_of r)) /\
  match snd (facade r (fst (facade_run morning ∅))) with
  | SOk x => match answer x with Some o => total_delta (o_accounts o) = 7 | None => False end
  | _ => False
  end.
Proof.
  cbv zeta. split; [repeat constructor; intros; try reflexivity; apply usual_spec; reflexivity|].
  split; [apply run_ok_spec; vm_compute; reflexivity|]. split; [exact (fun H => H)|]. split; [exact (fun H => H)|].
  split; vm_compute; reflexivity.
Qed.

(** C85 fails as soon as a value is sent: the machine credits it to the contract
    (as the real one does, whose deltas add up to the value: C22), and nobody
    takes it from the caller.  "alice" has 42 before and after sending 50 of it to
    the contract, which has 50 then. *)
Theorem C85_value_refuted : exists (D : denv) l r,
  List.Forall usual (l ++ [r]) /\ all_text (l ++ [r]) ∅ /\ ~ makes_account r /\
  let fs := fst (facade_run l ∅) in
  let fs' := fst (facade r fs) in
  let db := str "./db" in let w := str "default" in
  worth db w fs' = worth db w fs + 50 /\
  balance_in db w (str "alice") fs = Some 42 /\ balance_in db w (str "alice") fs' = Some 42 /\
  balance_in db w counter fs = Some 0 /\ balance_in db w counter fs' = Some 50.
Proof.
  exists counting, [alice_exists (at_world [] []); deploy (at_world [] []) []], (incr (at_world [] []) counter (str "50") []).
  split; [repeat constructor; intros; try reflexivity; apply usual_spec; reflexivity|].
  split; [apply run_ok_spec; vm_compute; reflexivity|]. split; [exact (fun H => H)|].
  cbv zeta. split_and!; vm_compute; reflexivity.
Qed.
Print Assumptions C85_value_refuted.
