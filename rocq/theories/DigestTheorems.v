(** C86: requests to the debugging facade are taken as they are written. *)
From Verif Require Import Base CallDataModel MandosSpec ScenModel WorldModel WorldSpec DebugModel DebugSpec DebugProofs DigestSpec DigestProofs ExWorld ExDebug.
From stdpp Require Import gmap list.
Local Open Scope Z_scope.

(** ** C86: a request is accepted if and only if it says something ([means]), and
    what is asked of the machine is then exactly this: the sender, the function,
    the arguments, the code and the amounts written in the request. *)
Theorem C86_as_written : forall `{D : denv} r a, digest r = Some a <-> means r a.
Proof. exact @digest_iff. Qed.
Print Assumptions C86_as_written.

(** The response is the machine's to this, unless a file cannot be written; *)
Theorem C86_served : forall `{D : denv} r a fs d m x,
  means r a ->
  loadWorld (rb_database (digest_base (base_of r))) (rb_world (digest_base (base_of r))) fs = Some d ->
  serve a (wd_accounts d) = Some (m, x) ->
  snd (facade r fs) = SOk x \/ snd (facade r fs) = SErr.
Proof. exact @served. Qed.
Print Assumptions C86_served.

(** any other request is an error, and nothing is written. *)
Theorem C86_meaningless : forall `{D : denv} r fs, (forall a, ~ means r a) -> facade r fs = (fs, SErr).
Proof. exact @meaningless. Qed.
Print Assumptions C86_meaningless.

(** An account that is created is found by the next request, with the balance and
    the nonce asked for, and all other accounts are as they were. *)
Theorem C86_account : forall `{D : denv} l b ah bal n fs0 a,
  let r := CreateAccount b ah bal n in
  let root := rb_database (digest_base b) in let name := rb_world (digest_base b) in
  let fs := fst (facade_run l fs0) in
  (forall root name, root <> [] -> plain name -> fs0 !! getWorldFile root name = None) ->
  List.Forall usual (l ++ [r]) -> all_text (l ++ [r]) ∅ -> means r (DoAccount a) ->
  exists m, loadWorld root name fs = Some (mkWorldData name (Some m)) /\
    loadWorld root name (fst (facade r fs)) = Some (mkWorldData name (Some (<[wa_address a := a]> m))) /\
    snd (facade r fs) = SOk (RAccount a).
Proof. exact @account_made. Qed.
Print Assumptions C86_account.

(** A run with a value and an argument in capital digits, an account, and requests
    without a sender, without gas, or with half a byte. *)
Example C86_ex :
  let D := counting in
  let b := at_world [] [] in
  let run c args := Run b c (mkRunPart (str "63") (str "f") args) in
  means (run (mkContract (str "616c696365") (str "+15") 0 9) [str "0A"])
    (DoCall (mkCall (direct (str "alice") [[Byte.x0a]] 15 200000000000 9) (str "c") (str "f") false)) /\
  (forall a, ~ means (run (mkContract [] [] 0 9) []) a) /\
  (forall a, ~ means (run (mkContract (str "61") [] 0 0) []) a) /\
  (forall a, ~ means (run (mkContract (str "61") [] 0 9) [str "0"]) a) /\
  List.Forall usual (morning ++ [account_exists b (str "bob")]) /\ all_text (morning ++ [account_exists b (str "bob")]) ∅ /\
  exists a, means (account_exists b (str "bob")) (DoAccount a) /\ wa_balance a = 42.
Proof.
  cbv zeta. split; [apply C86_as_written; vm_compute; reflexivity|].
  split; [intros a H; apply C86_as_written in H; vm_compute in H; discriminate|].
  split; [intros a H; apply C86_as_written in H; vm_compute in H; discriminate|].
  split; [intros a H; apply C86_as_written in H; vm_compute in H; discriminate|].
  split; [repeat constructor; intros; try reflexivity; apply usual_spec; reflexivity|].
  split; [apply run_ok_spec; vm_compute; reflexivity|].
  eexists. split; [apply C86_as_written; vm_compute; reflexivity|reflexivity].
Qed.

(** A value may be negative: the request is served, and takes money from the
    contract. *)
Theorem C86_negative_value : exists (D : denv) l b,
  List.Forall usual l /\ last l = Some (incr b counter (str "-5") []) /\
  balance_in (str "./db") (str "default") counter (fst (facade_run l ∅)) = Some (-5).
Proof.
  exists counting, [deploy (at_world [] []) []; incr (at_world [] []) counter (str "-5") []], (at_world [] []).
  split; [repeat constructor; intros; try reflexivity; apply usual_spec; reflexivity|]. split; vm_compute; reflexivity.
Qed.
Print Assumptions C86_negative_value.
