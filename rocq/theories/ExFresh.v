(** Contracts for the examples about transactions of hosts with different pasts. *)
From Verif Require Export ExCalls FreshSpec.

(** "s" and "t" have codes of different lengths; the constructor of "c" makes
    an asynchronous call *)
Definition code_t : bytes := addr "t" ++ addr "t".
Definition c_init : list (bytes * prog) := [(str "init", call_async "x" 0 "yes" PRet); (str "callBack", PRet)].
Definition fEnv : env := exEnv
  [(addr "s", mod_of [(str "f", finish_with "s" PRet); (str "g", call_dest 1000 "t" 0 "panic" PRet)]);
   (code_t, mod_of [(str "f", finish_with "t" PRet); (str "panic", api1 (A_getReturnData (-1) 0) PRet)]);
   (addr "c", mod_of c_init)].
Definition fWorld : world :=
  mkWorld (list_to_map [(addr "u", plain_user 1000); (addr "s", sc_user (addr "s") 100 ∅); (addr "t", sc_user code_t 100 ∅)]) ∅.
Definition fCall (c f : string) : call_input := call_of (addr "u") (addr c) f [] 0 5000.
(** the two contracts called in either order *)
Definition after (l : list call_input) : host :=
  fold_left (fun h i => fst (RunSmartContractCall (E := fEnv) 12 i h)) l (host0 fWorld).
Definition host_st : host := after [fCall "s" "f"; fCall "t" "f"].
Definition host_ts : host := after [fCall "t" "f"; fCall "s" "f"].
(** also a transaction that panics in a nested call *)
Definition host_panic : host := after [fCall "s" "g"; fCall "t" "f"; fCall "s" "f"].
Definition f_create : create_input := mkCreate (input_of (addr "u") [] 0 5000) (addr "c") [Byte.x01; Byte.x00].
Definition f_upgrade : call_input := call_of (addr "o") (addr "s") "upgradeContract" [addr "c"; [Byte.x01; Byte.x00]] 0 5000.
(** gas limits and locked gas of what is sent to "x" *)
Definition gas_to_x (r : outc vm_output) : list (Z * Z) :=
  match r with
  | OOk o => map (fun t => (ot_gaslimit t, ot_gaslocked t)) (default [] (oa_transfers <$> o_accounts o !! addr "x"))
  | _ => []
  end.

Lemma new_f : history (E := fEnv) (host0 fWorld).
Proof. constructor. split; [constructor; reflexivity|]. split; reflexivity. Qed.
Lemma after_f i h : history (E := fEnv) h -> snd (RunSmartContractCall (E := fEnv) 12 i h) <> OFuel ->
  history (E := fEnv) (fst (RunSmartContractCall (E := fEnv) 12 i h)).
Proof. intros H Hr. eapply hi_call; [exact H|apply surjective_pairing|exact Hr]. Qed.
Ltac not_fuel := match goal with |- ?x <> OFuel => let v := eval vm_compute in (match x with OFuel => true | _ => false end) in
  let H := fresh in intros H; assert (Hq : match x with OFuel => true | _ => false end = false) by (vm_compute; reflexivity);
  rewrite H in Hq; discriminate end.
Lemma history_st : history (E := fEnv) host_st.
Proof. unfold host_st, after. cbn [fold_left]. apply after_f; [apply after_f; [apply new_f|]|]; not_fuel. Qed.
Lemma history_ts : history (E := fEnv) host_ts.
Proof. unfold host_ts, after. cbn [fold_left]. apply after_f; [apply after_f; [apply new_f|]|]; not_fuel. Qed.
Lemma history_panic : history (E := fEnv) host_panic.
Proof. unfold host_panic, after. cbn [fold_left]. do 3 (apply after_f; [|not_fuel]). apply new_f. Qed.
Lemma same_st_ts : same_node host_st host_ts.
Proof. split; [vm_compute; reflexivity|]. refine (proj1 (bool_decide_eq_true _) _). vm_compute. reflexivity. Qed.
Lemma same_panic_st : same_node host_panic host_st.
Proof. split; [vm_compute; reflexivity|]. refine (proj1 (bool_decide_eq_true _) _). vm_compute. reflexivity. Qed.
Lemma same_panic_ts : same_node host_panic host_ts.
Proof. split; [vm_compute; reflexivity|]. refine (proj1 (bool_decide_eq_true _) _). vm_compute. reflexivity. Qed.
