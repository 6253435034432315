(** A small machine for the debugging facade: contracts that count. *)
From Verif Require Import Base CallDataModel ScenModel WorldModel WorldSpec DebugModel DebugSpec DebugProofs ExWorld.
From stdpp Require Import gmap.
Local Open Scope Z_scope.

(** "increment" (under the name of its first argument) and "get"; the value of a
    call or deployment goes to the contract, as in the real machine. *)
Definition counter_key (i : call_input) : bytes := match vi_args (ci_vm i) with k :: _ => k | [] => str "COUNTER" end.
Definition credit (v : Z) (st : gmap bytes bytes) (code : bytes) (caller : option bytes) : out_account :=
  mkAcc 0 None v st code [] caller [] 0.
Definition counter_call (m : gmap bytes waccount) (i : call_input) : option vm_output :=
  match m !! ci_rcpt i with
  | None => None
  | Some a =>
      let n := default [] (wa_storage a !! counter_key i) in
      if bool_decide (ci_fn i = str "increment")
      then Some (mkOut [] RcOk [] 0 None {[ci_rcpt i := credit (vi_value (ci_vm i)) {[counter_key i := be_encode (be_decode n + 1)]} [] None]} [])
      else Some (mkOut [n] RcOk [] 0 None ∅ [])
  end.
Definition counter_create (m : gmap bytes waccount) (i : create_input) : option vm_output * bytes :=
  let a := str "new:" ++ vi_caller (cc_vm i) in
  (Some (mkOut [] RcOk [] 0 None {[a := credit (vi_value (cc_vm i)) {[str "COUNTER" := [Byte.x01]]} (cc_code i) (Some (vi_caller (cc_vm i)))]} []), a).
Definition counting : denv := mkDEnv silent (fun _ => None) counter_create counter_call (fun _ => true).

(** requests in the default directory *)
Definition at_world (w o : bytes) : request_base := mkBase [] w o.
Definition by_alice (v : bytes) : contract_base := mkContract (hex_encode (str "alice")) v 0 1000.
Definition alice_exists (b : request_base) : request := CreateAccount b (hex_encode (str "alice")) (str "42") 0.
Definition account_exists (b : request_base) (a : bytes) : request := CreateAccount b (hex_encode a) (str "42") 0.
Definition deploy (b : request_base) (v : bytes) : request := Deploy b (by_alice v) (mkCodePart (str "00") [] [] [] []).
Definition incr (b : request_base) (a v : bytes) (args : list bytes) : request :=
  Run b (by_alice v) (mkRunPart (hex_encode a) (str "increment") (map hex_encode args)).
Definition get (b : request_base) (a : bytes) (args : list bytes) : request :=
  Query b (by_alice []) (mkRunPart (hex_encode a) (str "get") (map hex_encode args)).
Definition counter : bytes := str "new:alice".

(** what the machine gave back, for each request ([None]: no answer) *)
Definition given (l : list (sres response)) : list (option (list bytes)) :=
  map (fun x => match x with SOk r => option_map o_retdata (answer r) | _ => None end) l.
Definition balance_in (root w a : bytes) (fs : disk) : option Z :=
  match loadWorld root w fs with
  | Some (mkWorldData _ (Some m)) => option_map wa_balance (m !! a)
  | _ => None
  end.

(** text, decided *)
Definition text_ok (m : gmap bytes waccount) : Prop :=
  map_Forall (fun k a => as_text k = k /\ as_text (wa_async a) = wa_async a /\ map_Forall (fun s _ => as_text s = s) (wa_storage a)) m.
Lemma text_ok_spec m : text_ok m -> text_accounts m.
Proof.
  intros H k a Hk. destruct (H k a Hk) as (A & B & C). split_and!; try (apply as_text_iff; assumption).
  intros s v Hs. apply as_text_iff. exact (C s v Hs).
Qed.
Fixpoint run_ok (D : denv) (l : list request) (s : memory) : bool :=
  bool_decide (map_Forall (fun _ m => text_ok m) s) &&
  match l with [] => true | r :: l => run_ok D l (fst (remember r s)) end.
Lemma run_ok_spec D l : forall s, run_ok D l s = true -> all_text l s.
Proof.
  induction l as [|r l IH]; intros s H; cbn [run_ok all_text] in *; apply andb_prop in H as [H1 H2]; apply bool_decide_eq_true in H1;
    (split; [intros k m Hk; apply text_ok_spec; exact (H1 k m Hk)|]); [exact I|apply IH, H2].
Qed.
Definition ok_name (w : bytes) : bool := negb (bool_decide (slash ∈ w)) && bool_decide (as_text w = w).
Lemma usual_spec r : ok_name (rb_world (base_of r)) = true -> negb (bool_decide (slash ∈ rb_outcome (base_of r))) = true -> usual (H := counting) r.
Proof.
  unfold ok_name. rewrite !andb_true_iff, !negb_true_iff. intros [H1 H2] H3. apply bool_decide_eq_false in H1, H3. apply bool_decide_eq_true in H2.
  split; [exact H1|apply as_text_iff, H2|exact H3|]. intros name _. split; reflexivity.
Qed.

(** a session on two worlds *)
Definition morning : list request :=
  [alice_exists (at_world [] []); deploy (at_world [] (str "first")) []; incr (at_world [] []) counter (str "5") [];
   alice_exists (at_world (str "other") []); deploy (at_world (str "other") []) []].
Definition afternoon : list request :=
  [incr (at_world [] (str "first")) counter [] []; get (at_world [] (str "seen")) counter []; get (at_world (str "other") []) counter []].

(** an address and a storage key that are not text, a world's name that is not,
    and an outcome that is put among the worlds *)
Definition odd_address : list request :=
  let a := [Byte.xff; Byte.x01] in [account_exists (at_world [] []) a; get (at_world [] []) a []].
Definition odd_keys : list request :=
  let b := at_world [] [] in let c := str "c" in
  [account_exists b c; incr b c [] [[Byte.xff]]; get b c [[Byte.xff]]; get b c [replacement]].
Definition two_addresses : list request :=
  [account_exists (at_world [] []) [Byte.xfe]; account_exists (at_world [] []) [Byte.xff]].
Definition odd_world : list request :=
  let b := at_world [Byte.xff] [] in let c := str "c" in [account_exists b c; incr b c [] []; get b c []].
Definition stray_outcome : list request :=
  let w := str "w" in let c := str "c" in
  [account_exists (at_world w []) c; get (at_world w (str "../worlds/w")) c []; get (at_world w []) c []; account_exists (at_world w []) (str "d")].
