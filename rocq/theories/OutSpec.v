(** Vocabulary for outputs after nested calls: what a caller's output keeps, and
    how the callee's effects are added.  Only fields of records are named here,
    no function of the model. *)
From Verif Require Import VmTypes.

(** Nonces are unsigned, so that a nonce and its non-negative part are the same
    thing; likewise a nil refund and a refund of 0. *)
Record same_account (x y : out_account) : Prop := mkSameAccount {
  sa_nonce : oa_nonce y = Z.max 0 (oa_nonce x);
  sa_balance : oa_balance y = oa_balance x;
  sa_delta : oa_delta y = oa_delta x;
  sa_storage : oa_storage y = oa_storage x;
  sa_code : oa_code y = oa_code x;
  sa_meta : oa_meta y = oa_meta x;
  sa_deployer : oa_deployer y = oa_deployer x;
  sa_transfers : oa_transfers y = oa_transfers x;
  sa_gasused : oa_gasused y = oa_gasused x
}.

(** C25: the same output: accounts with their storage, code and transfers, logs,
    return data, code, message, refund *)
Record same_output (o o' : vm_output) : Prop := mkSameOutput {
  so_retdata : o_retdata o' = o_retdata o;
  so_code : o_code o' = o_code o;
  so_msg : o_msg o' = o_msg o;
  so_gasrem : o_gasrem o' = o_gasrem o;
  so_refund : default 0 (o_refund o') = default 0 (o_refund o);
  so_logs : o_logs o' = o_logs o;
  so_accounts : forall a, match o_accounts o !! a, o_accounts o' !! a with
                          | None, None => True
                          | Some x, Some y => same_account x y
                          | _, _ => False
                          end
}.

(** C27: [z] is the account [x] of the caller's output after the effects
    recorded in [y] (the account of the callee's output) have been added: the
    later value of every field and of every storage key; the caller's transfers
    followed by those that only the callee's account has. *)
Record later_account (x y z : out_account) : Prop := mkLaterAccount {
  la_nonce : oa_nonce z = Z.max (Z.max 0 (oa_nonce x)) (oa_nonce y);
  la_balance : oa_balance z = match oa_balance y with Some b => Some b | None => oa_balance x end;
  la_delta : oa_delta z = oa_delta y;
  la_storage : forall k, oa_storage z !! k = match oa_storage y !! k with Some v => Some v | None => oa_storage x !! k end;
  la_code : oa_code z = match oa_code y with [] => oa_code x | _ => oa_code y end;
  la_meta : oa_meta z = match oa_meta y with [] => oa_meta x | _ => oa_meta y end;
  la_deployer : oa_deployer z = match oa_deployer y with Some d => Some d | None => oa_deployer x end;
  la_transfers : oa_transfers z = oa_transfers x ++ drop (length (oa_transfers x)) (oa_transfers y);
  la_gasused : oa_gasused z = oa_gasused y
}.

(** the caller's accounts [m], the callee's [m'], and the accounts [r] after the
    call *)
Definition later_accounts (m m' r : gmap bytes out_account) : Prop :=
  forall a, match m !! a, m' !! a, r !! a with
            | None, None, None => True
            | Some x, None, Some z => same_account x z
            | None, Some y, Some z => same_account y z
            | Some x, Some y, Some z => later_account x y z
            | _, _, _ => False
            end.

(** the transfers recorded for an address *)
Definition transfers_to (m : gmap bytes out_account) (a : bytes) : list out_transfer :=
  match m !! a with Some x => oa_transfers x | None => [] end.
