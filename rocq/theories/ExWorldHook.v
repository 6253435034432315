(** A world for the examples on what the machine is told. *)
From Verif Require Import Base ScenModel WorldModel WorldSpec SetSpec ExWorld ExSet.
From stdpp Require Import gmap.
Local Open Scope Z_scope.

(** As [silent], with the code metadata that the mock gives to all contracts
    (upgradeable, payable, readable). *)
Definition open_machine : wenv :=
  mkWEnv put_token_bytes get_token_bytes put_roles_bytes get_roles_bytes (fun b => b) (fun l => l)
    [Byte.x05; Byte.x02] (fun f => if f : bool then [Byte.x01; Byte.x00] else [])
    (fun _ _ => ([], None)) (fun _ _ => ([], None)) (fun _ _ => ([], None)).
Lemma open_keeps : codec_keeps open_machine.
Proof. exact (machine_keeps ([], None) ([], None)). Qed.

Definition five_blocks : step :=
  SetState [] the_accounts None (Some (mkBlockInfo (ju 1) (ju 5) (ju 3) (ju 4) None))
    [jb (str "five"); jb (str "four")] [mkNewAddress (jb alice) (ju 4) (jb shop)].
Definition two_new : mworld := mkMWorld ∅ [] None None [] [mkWMock alice 4 bob; mkWMock alice 5 shop].
