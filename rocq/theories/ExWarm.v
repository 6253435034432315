(** Transactions on warm instances. *)
From Verif Require Import Base WarmModel WarmSpec.
From stdpp Require Import list.
Local Open Scope Z_scope.

(** code compiles and is valid unless it is empty; the memory has two bytes *)
Definition some_env (warm : bool) : warm_env :=
  mkWarmEnv warm 10 (fun c => negb (bool_decide (c = []))) (fun c => negb (bool_decide (c = [Byte.xff]))) (fun _ => [Byte.x00; Byte.x00]).

Definition to_call (addr code : bytes) (gas : Z) (body : conduct) : warm_tx := mkWarmTx addr code gas false None body false.
Definition to_deploy (addr code : bytes) (gas : Z) (body : conduct) : warm_tx := mkWarmTx addr code gas true None body false.

(** two contracts called in turn, [n] times each *)
Definition in_turn (a b code : bytes) (n : nat) : list warm_tx :=
  concat (replicate n [to_call a code 100 Return; to_call b code 100 Return]).

(** alice calls bob, whose compiled code is at hand; bob calls alice back, who
    calls carol and returns; then all return, and alice goes on *)
Definition round_trip : conduct :=
  Invoke (str "bob") (str "B") 100 false (Some (str "B"))
    (Invoke (str "alice") (str "A") 50 false None
       (Invoke (str "carol") (str "C") 20 false None Return Return)
       Return)
    (Compute 7 0 [Byte.x01] Return).

(** nested calls with an invalid deployment, on and off the limit *)
Fixpoint tower (n : nat) : conduct :=
  match n with
  | O => Return
  | S n => Compute (Z.of_nat n) 0 [Byte.x07]
             (Invoke (repeat Byte.x61 n) (str "code") 10 false None (tower n)
               (Invoke (str "new") [Byte.xff] 10 true None (tower n) (Compute 5 1 [] Return)))
  end.
