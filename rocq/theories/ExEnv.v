(** A concrete environment for the examples and counterexamples: contracts
    given as a table from code to module, every price 1 (persisting a byte 2,
    releasing a byte 1), one built-in function that does nothing but use one
    unit of gas, addresses starting with 'x' in another shard. *)
From Verif Require Export VmModel.

Definition addr (b : string) : bytes := replicate 32 (hd Byte.x00 (str b)).

Definition mod_of (l : list (bytes * prog)) : wmodule :=
  mkModule l (fun n => if bool_decide (n ∈ map fst l) then Some (0, 0) else None) true []
    (mkMem (replicate 256 Byte.x00) 1).

Definition exEnvFull (order : list bytes -> list bytes) (unmarshal : bytes -> res async_info) (aot : bool)
    (builtin : world -> call_input -> world * res vm_output) (mods : list (bytes * wmodule)) : env :=
  mkEnv true true aot true true
    (fun c => match c with PersistPerByte => 2 | _ => 1 end)
    (str "ELROND")
    (fun f => beq f (str "builtin"))
    builtin
    (fun a => match a with b :: _ => if bool_decide (b = hd Byte.x00 (str "x")) then 1 else 0 | [] => 0 end)
    (fun a => existsb (fun p => beq a (addr "s") || beq a (fst p)) mods)
    (fun _ _ => ROk true)
    (fun c n => ROk (take 31 c ++ [zb (n + 100)]))
    true
    (fun code => snd <$> find (fun p => beq (fst p) code) mods)
    (fun b => b)
    (fun _ => false)
    (fun _ => str "error")
    (fun _ => str "code")
    order
    (fun _ => str "async")
    unmarshal
    (fun _ _ _ _ => ROk (mkEsdtToken 0 [] None))
    (fun _ => ROk [])
    (fun _ _ => 1000)
    (fun _ => [])
    []
    (str "ELRONDnft")
    (fun _ d => ROk d)
    (fun _ _ _ _ => true).

Definition exEnvWith : (world -> call_input -> world * res vm_output) -> list (bytes * wmodule) -> env :=
  exEnvFull (fun l => l) (fun _ => RErr ErrGeneric) false.
Definition exBuiltin (w : world) (i : call_input) : world * res vm_output :=
  (w, ROk (mkOut [] RcOk [] (SubUint64 (vi_gas (ci_vm i)) 1) (Some 0) ∅ [])).
Definition exEnv : list (bytes * wmodule) -> env :=
  exEnvWith exBuiltin.

Lemma exEnvFull_ok order unmarshal aot b mods : (forall l, Permutation (order l) l) -> env_ok (exEnvFull order unmarshal aot b mods).
Proof.
  intros Ho.
  split; [|split].
  - intros c. unfold in_u64, max_u64. destruct c; cbn; lia.
  - discriminate.
  - exact Ho.
Qed.
Lemma exEnvWith_ok b mods : env_ok (exEnvWith b mods).
Proof. apply exEnvFull_ok. reflexivity. Qed.

Lemma exEnv_ok mods : env_ok (exEnv mods).
Proof. apply exEnvWith_ok. Qed.

(** a host that has not run anything yet *)
Definition host0 (w : world) : host :=
  mkHost ∅ [] newVMOutput [] ∅ metering0 [] frame0 [] 0 false ∅ 0 None [] [] [] true w [] ∅ [].

(** a contract account *)
Definition sc_user (code : bytes) (balance : Z) (storage : gmap bytes bytes) : user_account :=
  mkUser 0 balance code code (map zb [5; 2]) (addr "o") storage.
Definition plain_user (balance : Z) : user_account := mkUser 1 balance [] [] [] [] ∅.

Definition input_of (caller : bytes) (args : list bytes) (value gas : Z) : vm_input :=
  mkInput caller args value DirectCall 0 gas 0 [] (str "tx0") (str "tx0") false.
Definition call_of (caller rcpt : bytes) (f : string) (args : list bytes) (value gas : Z) : call_input :=
  mkCall (input_of caller args value gas) rcpt (str f) false.

(** a running contract: address [addr "s"], memory [mem], gas 1000 *)
Definition ex_inst (mem : bytes) : inst := mkInst 0 1000 BreakpointNone (mkMem mem 1) (mod_of []).
Definition ex_running (mem : bytes) (w : world) : host :=
  set_h_stoaddr (addr "s")
    (set_h_rt (mkFrame (input_of (addr "u") [] 0 1000) (addr "s") (str "f") false None (mkAinfo (addr "u") [] ∅))
      (set_h_met (mkMet 1000 0 1000 ∅)
        (set_h_next 1 (set_h_cur (Some 0%nat) (set_h_insts {[0%nat := ex_inst mem]} (host0 w)))))).
