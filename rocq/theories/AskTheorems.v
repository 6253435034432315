(** C66: what a contract asks for through the API is what the host does. *)
From Verif Require Import VmModel CodecSpec CallDataModel MemSpec ApiArgsSpec QuerySpec AskSpec AskProofs ExCalls.

(** C66: a contract asking for a call, a deployment, a transfer or an
    asynchronous call gets, after paying for it, exactly the one its memory
    describes, with the gas it grants; and is told how it ended. *)
Theorem C66_asked : forall `{E : env} fuel c rq h m,
  env_ok E -> cur_mem h = ROk m -> blen (m_data m) <= max_i32 ->
  asks h (m_data m) c rq ->
  exists h1, only_gas h h1 /\
    concluded c rq (carry_out (vmDest fuel) (vmSame fuel) rq h1) (vmApi fuel c h).
Proof. intros E fuel c rq h m. apply c66. Qed.
Print Assumptions C66_asked.

(** C66: the same for sending tokens. *)
Theorem C66_tokens : forall `{E : env} fuel c t h m,
  cur_mem h = ROk m -> blen (m_data m) <= max_i32 ->
  asks_tokens (m_data m) c t ->
  exists h1, only_gas h h1 /\ tokens_end (vmDest fuel) h h1 t (vmApi fuel c h).
Proof. intros E fuel c t h m. apply c66_tokens. Qed.
Print Assumptions C66_tokens.

(** Contract "s" asks for a call of "put" of contract "t" with value 5 and the
    argument "hi"; "t" returns its argument. *)
Definition ask_contracts : list (string * list (string * prog)) :=
  [("s", []); ("t", [("put", api1 (A_getArgument 0 0) (api1 (A_finish 0 2) PRet))])]%string.
Definition ask_memory : bytes := addr "t" ++ val32 5 ++ str "put " ++ le4 2 ++ str "hi" ++ str "TOK-12".
Definition ask_bytes : bytes := ask_memory ++ replicate 60 Byte.x00.
Definition ask_host : host :=
  set_h_insts {[0%nat := mkInst 0 100000 BreakpointNone (mkMem ask_bytes 1) (mod_of [])]}
    (cHost ask_contracts).


Lemma ask_call_at : call_at ask_bytes 0 64 3 1 68 72 (addr "t") (str "put") [str "hi"] /\ number_at ask_bytes 32 5.
Proof.
  split; [|exists (val32 5); split; [right; repeat split; vm_compute; intuition discriminate|vm_compute; reflexivity]].
  split; [right; repeat split; vm_compute; intuition discriminate|].
  split; [right; repeat split; vm_compute; intuition discriminate|].
  split; [vm_compute; discriminate|]. split; [|vm_compute; reflexivity].
  split; [vm_compute; discriminate|]. split; [right; vm_compute; intuition discriminate|].
  vm_compute. intuition discriminate.
Qed.

Example C66_ex :
  cur_mem ask_host = ROk (mkMem ask_bytes 1) /\
  asks (E := cEnv ask_contracts) ask_host ask_bytes (A_executeOnDestContext 5000 0 32 64 3 1 68 72)
    (RDest (addr "s") (addr "t") (str "put") [str "hi"] 5 5000) /\
  asks_tokens ask_bytes (A_transferESDTExecute 0 74 6 32 5000 64 3 1 68 72)
    (mkTokens (addr "t") (str "TOK-12") 0 5 5000 (str "put") [str "hi"]) /\
  let s1 := vmApi (E := cEnv ask_contracts) 5 (A_executeOnDestContext 5000 0 32 64 3 1 68 72) ask_host in
  let s2 := vmApi (E := cEnv ask_contracts) 5 (A_transferESDTExecute 0 74 6 32 5000 64 3 1 68 72) (fst s1) in
  snd s1 = OOk 0 /\ o_retdata (h_out (fst s1)) = [str "hi"] /\
  snd s2 = OOk 0 /\ o_retdata (h_out (fst s2)) = [str "hi"; str "hi"].
Proof.
  destruct ask_call_at as [Hc Hv].
  split; [reflexivity|]. split.
  { exists (addr "t"), (str "put"), [str "hi"], 5. split; [exact Hc|]. split; [exact Hv|]. split; vm_compute; reflexivity. }
  split.
  { exists (addr "t"), (str "TOK-12"), (str "put"), [str "hi"], 5. split; [exact Hc|]. split; [exact Hv|].
    split; [right; repeat split; vm_compute; intuition discriminate|reflexivity]. }
  vm_compute. tauto.
Qed.
