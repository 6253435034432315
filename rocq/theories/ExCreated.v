(** Contracts that create calls, for the examples. *)
From Verif Require Import VmModel.
From Verif Require Export ExAsync CreatedSpec.

Definition create (dest : string) (value : Z) (data succ err : string) (gas : Z) (k : prog) : prog :=
  with_call dest value (str data) (PWrite 128 (str succ) (PWrite 160 (str err) (PWrite 200 (str "ctx")
    (api1 (A_createAsyncCall 200 3 0 32 64 (blen (str data)) 128 (blen (str succ)) 160 (blen (str err)) gas) k)))).
(** "s" creates a call to "t" which succeeds, fails, or tells the gas it was given,
    and one to "v", which creates one to a contract elsewhere *)
Definition ex_c : list (string * list (string * prog)) :=
  [("s", [("good", create "t" 3 "yes" "won" "lost" 20000 PRet); ("bad", create "t" 3 "no" "won" "lost" 20000 PRet);
          ("gas", create "t" 3 "gas" "won" "lost" 100 PRet); ("deep", create "v" 3 "ask" "won" "lost" 20000 PRet); ("sour", create "t" 3 "yes" "no" "lost" 20000 PRet);
          ("won", finish_with "won" (echo PRet)); ("lost", finish_with "lost" (echo PRet)); ("no", PTrap)]);
   ("v", [("ask", create "x" 0 "yes" "won" "lost" 10000 PRet)]);
   ("t", [("yes", finish_with "yes" PRet); ("gas", gas_mark PRet); ("no", PWrite 0 (str "why") (api1 (A_signalError 0 3) PRet))])]%string.
Definition made (data : string) : gen_call := mkGenCall AsPending (addr "t") (str data) 5000 [zb 3] (str "won") (str "lost") 5000.
(** contract "s" has just created [made data] *)
Definition creating (data : string) : host :=
  set_h_rt (set_r_actx (mkAinfo (addr "o") [] {[str "ctx" := mkActx [] [made data]]}) (h_rt (cHost ex_c))) (cHost ex_c).
Definition dest_run (data : string) : host * outc (option vm_output * option async_info * option err) :=
  vmDest (E := cEnv ex_c) 12 (dest_call (creating data) (created (made data)) (str data) []) (creating data).
Definition deep : gen_call := mkGenCall AsPending (addr "v") (str "ask") 5000 [zb 3] (str "won") (str "lost") 5000.
(** the first value returned is over [b] *)
Lemma first_over b r : match gas_seen r with Some (c, g :: l, _, _) => c = RcOk /\ b < g | _ => False end ->
  match snd r with
  | OOk o => o_code o = RcOk /\ exists g l, map be_decode (o_retdata o) = g :: l /\ b < g
  | _ => False
  end.
Proof.
  unfold gas_seen. destruct (snd r) as [o|e| |]; try exact id.
  destruct (map be_decode (o_retdata o)) as [|g l] eqn:Hm; [intros []|]. intros [H1 H2]. split; [exact H1|]. exists g, l. split; [reflexivity|exact H2].
Qed.
(** "s" creates a call elsewhere, or calls "v", which does, in the context of "v" or in
    its own *)
Definition ex_same : list (string * list (string * prog)) :=
  [("s", [("far", create "x" 0 "yes" "won" "lost" 10000 PRet); ("same", call_same 50000 "v" 0 "ask" (finish_with "on" PRet));
          ("dest", call_dest 50000 "v" 0 "ask" (finish_with "on" PRet))]);
   ("v", [("ask", create "x" 0 "yes" "won" "lost" 10000 (finish_with "asked" PRet))])]%string.
