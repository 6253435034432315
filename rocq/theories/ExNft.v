(** A contract asking for the last nonce of its token "TK-1", and of a contract
    whose storage it may not read. *)
From Verif Require Import VmModel StoSpec ExEnv.

Definition nft_world : world :=
  let nonces : gmap bytes bytes := {[ str "ELRONDnftTK-1" := map zb [1; 4] ]} in
  mkWorld {[ addr "s" := sc_user (str "code") 10 nonces;
             addr "p" := mkUser 0 0 (str "code") (str "code") (map zb [1; 0]) [] nonces ]} ∅.
Definition nft_host : host := ex_running (str "TK-1" ++ addr "s" ++ addr "p") nft_world.
