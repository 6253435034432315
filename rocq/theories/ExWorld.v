(** A small world for the examples: a codec for tokens that keeps what it is
    given, and a machine. *)
From Verif Require Import Base ScenModel WorldModel WorldSpec CodecProofs.
From stdpp Require Import gmap.
Local Open Scope Z_scope.

(** * A codec *)

(** Each byte follows a 1, a 0 ends the string. *)
Fixpoint put_bytes (b : bytes) : bytes :=
  match b with [] => [Byte.x00] | c :: r => Byte.x01 :: c :: put_bytes r end.
Fixpoint get_bytes (raw : bytes) : option (bytes * bytes) :=
  match raw with
  | Byte.x00 :: rest => Some ([], rest)
  | Byte.x01 :: c :: rest =>
      match get_bytes rest with Some (b, rest) => Some (c :: b, rest) | None => None end
  | _ => None
  end.
Fixpoint put_list (l : list bytes) : bytes :=
  match l with [] => [Byte.x00] | b :: r => Byte.x01 :: put_bytes b ++ put_list r end.
Fixpoint get_list (fuel : nat) (raw : bytes) : option (list bytes * bytes) :=
  match fuel with
  | O => None
  | S fuel =>
      match raw with
      | Byte.x00 :: rest => Some ([], rest)
      | Byte.x01 :: rest =>
          match get_bytes rest with
          | Some (b, rest) =>
              match get_list fuel rest with
              | Some (l, rest) => Some (b :: l, rest)
              | None => None
              end
          | None => None
          end
      | _ => None
      end
  end.
Definition put_Z (z : Z) : bytes := put_bytes ((if z <? 0 then Byte.x01 else Byte.x00) :: be_encode (Z.abs z)).
Definition get_Z (raw : bytes) : option (Z * bytes) :=
  match get_bytes raw with
  | Some (s :: b, rest) => Some ((if bool_decide (s = Byte.x01) then - be_decode b else be_decode b), rest)
  | _ => None
  end.
Definition put_token_bytes (t : token) : bytes :=
  put_Z (tk_type t) ++
  match tk_value t with None => [Byte.x00] | Some v => Byte.x01 :: put_Z v end ++
  put_bytes (tk_properties t) ++
  match tk_meta t with
  | None => [Byte.x00]
  | Some m => Byte.x01 :: put_Z (tm_nonce m) ++ put_bytes (tm_name m) ++ put_bytes (tm_creator m) ++
                put_Z (tm_royalties m) ++ put_bytes (tm_hash m) ++ put_list (tm_uris m) ++
                put_bytes (tm_attributes m)
  end.
Definition obind {A B} (x : option (A * bytes)) (k : A -> bytes -> option B) : option B :=
  match x with Some (a, rest) => k a rest | None => None end.
Definition get_token_bytes (raw : bytes) : option token :=
  obind (get_Z raw) (fun ty raw =>
  obind (match raw with
         | Byte.x00 :: rest => Some (None, rest)
         | Byte.x01 :: rest => obind (get_Z rest) (fun v rest => Some (Some v, rest))
         | _ => None end) (fun v raw =>
  obind (get_bytes raw) (fun p raw =>
  match raw with
  | Byte.x01 :: raw =>
      obind (get_Z raw) (fun n raw => obind (get_bytes raw) (fun nm raw =>
      obind (get_bytes raw) (fun c raw => obind (get_Z raw) (fun r raw =>
      obind (get_bytes raw) (fun h raw => obind (get_list (length raw) raw) (fun u raw =>
      obind (get_bytes raw) (fun a _ =>
      if (0 <=? n) && (n <? 2 ^ 64)
      then Some (mkTok ty v p (Some (mkTokMeta n nm c r h u a))) else None)))))))
  | Byte.x00 :: _ => Some (mkTok ty v p None)
  | _ => None
  end))).
Definition put_roles_bytes (l : list bytes) : bytes := match l with [] => [] | _ => put_list l end.
Definition get_roles_bytes (raw : bytes) : option (list bytes) :=
  match get_list (length raw) raw with Some (l, _) => Some l | None => None end.

Lemma get_put_bytes b : forall rest, get_bytes (put_bytes b ++ rest) = Some (b, rest).
Proof. induction b as [|c b IH]; intros rest; cbn; [reflexivity|]. rewrite IH. reflexivity. Qed.
Lemma get_put_list l : forall fuel rest, (length (put_list l) <= fuel)%nat ->
  get_list fuel (put_list l ++ rest) = Some (l, rest).
Proof.
  induction l as [|b l IH]; intros [|fuel] rest H; cbn in *; try lia; [reflexivity|].
  rewrite <- app_assoc, get_put_bytes, IH; [reflexivity|]. rewrite app_length in H. lia.
Qed.
Lemma get_put_Z z rest : get_Z (put_Z z ++ rest) = Some (z, rest).
Proof.
  unfold get_Z, put_Z. rewrite get_put_bytes. destruct (Z.ltb_spec z 0) as [H|H].
  - rewrite bool_decide_eq_true_2 by reflexivity. rewrite be_decode_encode by lia. repeat f_equal. lia.
  - rewrite bool_decide_eq_false_2 by discriminate. rewrite be_decode_encode by lia. repeat f_equal. lia.
Qed.
Lemma token_back t : (forall m, tk_meta t = Some m -> 0 <= tm_nonce m < 2 ^ 64) ->
  get_token_bytes (put_token_bytes t) = Some t.
Proof.
  intros H. destruct t as [ty v p m]. unfold get_token_bytes, put_token_bytes.
  cbn [tk_type tk_value tk_properties tk_meta] in *. rewrite get_put_Z. cbn [obind].
  assert (Hv : forall rest, match match v with None => [Byte.x00] | Some v => Byte.x01 :: put_Z v end ++ rest with
         | Byte.x00 :: rest => Some (None, rest)
         | Byte.x01 :: rest => obind (get_Z rest) (fun v rest => Some (Some v, rest))
         | _ => None end = Some (v, rest)).
  { intros rest. destruct v as [v|]; cbn [app]; [|reflexivity]. rewrite get_put_Z. reflexivity. }
  rewrite Hv. cbn [obind]. rewrite get_put_bytes. cbn [obind].
  destruct m as [[n nm c r h u a]|]; [|reflexivity]. specialize (H _ eq_refl).
  cbn [tm_nonce tm_name tm_creator tm_royalties tm_hash tm_uris tm_attributes] in *.
  rewrite get_put_Z. cbn [obind]. rewrite !get_put_bytes. cbn [obind]. rewrite get_put_bytes. cbn [obind].
  rewrite get_put_Z. cbn [obind]. rewrite get_put_bytes. cbn [obind].
  rewrite get_put_list by (rewrite app_length; lia). cbn [obind].
  rewrite <- (app_nil_r (put_bytes a)), get_put_bytes. cbn [obind].
  replace ((0 <=? n) && (n <? 2 ^ 64)) with true by lia. reflexivity.
Qed.
Lemma token_nonce raw t m : get_token_bytes raw = Some t -> tk_meta t = Some m -> 0 <= tm_nonce m < 2 ^ 64.
Proof.
  unfold get_token_bytes, obind. intros H Hm.
  repeat match type of H with
  | match ?x with _ => _ end = Some _ => destruct x eqn:?; try discriminate H
  | Some _ = Some _ => injection H as <-
  end; cbn in Hm; try discriminate Hm. injection Hm as <-. cbn. lia.
Qed.
Lemma roles_back l : l <> [] -> put_roles_bytes l <> [] /\ get_roles_bytes (put_roles_bytes l) = Some l.
Proof.
  intros H. destruct l as [|b l]; [contradiction|]. unfold put_roles_bytes. split; [discriminate|].
  unfold get_roles_bytes. pose proof (get_put_list (b :: l) (length (put_list (b :: l))) []) as Hg.
  rewrite app_nil_r in Hg. rewrite Hg by lia. reflexivity.
Qed.

(** * A world *)

(** A machine that makes no token transfer, creates nothing, and answers each
    call as told. *)
Definition machine (transfer call : list hook_op * option vm_output) : wenv :=
  mkWEnv put_token_bytes get_token_bytes put_roles_bytes get_roles_bytes (fun b => b) (fun l => l)
    (str "meta") (fun f => if f : bool then [Byte.x01; Byte.x00] else [])
    (fun _ _ => transfer) (fun _ _ => ([], None)) (fun _ _ => call).
Lemma machine_codec t c : codec_ok (machine t c).
Proof. intros raw tk m. apply token_nonce. Qed.
Lemma machine_order t c : visits_each_once (machine t c).
Proof. intros l. reflexivity. Qed.

Definition padded (s : string) : bytes := str s ++ repeat Byte.x5f (32 - length (str s)).
Definition alice : bytes := padded "alice".
Definition bob : bytes := padded "bob".
Definition shop : bytes := repeat Byte.x00 8 ++ take 24 (padded "shop").
Definition jb (b : bytes) : jbytes := mkJBytes b [].
Definition ju (n : Z) : juint := mkJUint n [].
Definition jz (z : Z) : jbig := mkJBig (Some z) [].
Definition jt (b : bytes) : jtree := mkJTree b (JStr []).

Definition gems : esdt_data :=
  mkEsdtData (jb (str "GEM"))
    [mkEsdtInst (ju 0) (jz 50) (jb []) (ju 0) (jb []) (jt []) (jb []);
     mkEsdtInst (ju 7) (jz 2) (jb alice) (ju 5) (jb (str "#")) (jt (str "http")) (jb (str "red"))]
    (ju 7) [str "ESDTRoleNFTCreate"] (ju 0).
Definition the_accounts : list account :=
  [mkAccount (jb alice) (ju 0) [] (ju 3) (jz 1000) (jb (str "al")) [] (jb []) (jb []) [] [gems];
   mkAccount (jb bob) (ju 0) [] (ju 0) (jz 10) (jb []) [] (jb []) (jb []) [] [];
   mkAccount (jb shop) (ju 0) [] (ju 0) (jz 0) (jb [])
     [(jb (str "sum"), jt (str "5"))] (jb (str "wasm")) (jb alice) [] []].
Definition empty_world : mworld := mkMWorld ∅ [] None None [] [].
Definition silent : wenv := machine ([], None) ([], None).
Definition setup : mworld := fst (ExecuteSetStateStep (W := silent) the_accounts None None [] [] empty_world).

Definition cb (b : bytes) : cbytes := mkCBytes b false (Some (JStr [])) false.
Definition cu (n : Z) : cuint := mkCUint n false [] false.
Definition cz (z : Z) : cbig := mkCBig (Some z) false [] false.
Definition any_bytes : cbytes := mkCBytes [] true (Some (JStr (str "*"))) false.
Definition any_number : cuint := mkCUint 0 true (str "*") false.
Definition any_amount : cbig := mkCBig (Some 0) true (str "*") false.
Definition no_bytes : cbytes := JSONCheckBytesUnspecified.
Definition want_gems : check_esdt :=
  mkCheckEsdt (jb (str "GEM"))
    [mkCheckInst (cu 7) (cz 2) (cb alice) (cu 5) (cb (str "#")) (cb (str "http")) (cb (str "red"));
     mkCheckInst (cu 0) (cz 50) no_bytes JSONCheckUint64Unspecified no_bytes no_bytes no_bytes]
    (cu 7) [str "ESDTRoleNFTCreate"] JSONCheckUint64Unspecified.
Definition want_alice : check_account :=
  mkCheckAccount (jb alice) [] (cu 3) (cz 1000) (cb (str "al")) [] false false (cb []) no_bytes no_bytes
    [want_gems] false false.
Definition want_shop (sum : string) (owner : cbytes) : check_account :=
  mkCheckAccount (jb shop) [] (cu 0) any_amount (cb []) [(jb (str "sum"), cb (str sum))] false false
    (cb (str "wasm")) owner no_bytes [] false false.

Definition plus_tokens (b : bool) : check_account :=
  mkCheckAccount (jb alice) [] (cu 3) (cz 1000) (cb (str "al")) [] false false (cb []) no_bytes no_bytes
    [] false b.
Definition frozen_gems : check_esdt :=
  mkCheckEsdt (xe_token want_gems) (xe_instances want_gems) (xe_last want_gems) (xe_roles want_gems) (cu 1).
Definition pay (value : Z) : transaction :=
  mkTx TxTransfer (ju 0) (jz value) None (jb alice) (jb bob) [] (jb []) [] (ju 1) (ju 20).
Definition want_result (status : Z) (gas : cuint) : tx_result :=
  mkTxResult [] (cz status) (cb []) gas (cz 0) false false [] [].

(** * Transactions *)
Definition call_shop : transaction :=
  mkTx ScCall (ju 0) (jz 30) None (jb alice) (jb shop) (str "buy") (jb []) [jt (str "x")] (ju 2) (ju 10).
Definition query_shop : transaction :=
  mkTx ScQuery (ju 0) (jz 0) None (jb []) (jb shop) (str "sum") (jb []) [] (ju 0) (ju 0).
Definition deploy_shop (e : option esdt_tx) : transaction :=
  mkTx ScDeploy (ju 0) (jz 30) e (jb alice) (jb []) [] (jb (str "wasm")) [] (ju 2) (ju 10).
Definition output (code : return_code) (accounts : gmap bytes out_account) : vm_output :=
  mkOut [] code [] 0 (Some 0) accounts [].
Definition shop_account (delta : Z) (sto : gmap bytes bytes) : out_account :=
  mkAcc 0 None delta sto [] [] None [] 0.
(** The machine saves a price and then fails. *)
Definition failing : wenv :=
  machine ([], None) ([HSave shop (str "price") (str "3"); HRevert 1], Some (output RcUserError ∅)).
(** It asks first for a revert to the snapshot of the start. *)
Definition reverting : wenv :=
  machine ([], None) ([HRevert 0; HSave shop (str "sum") (str "9")], Some (output RcUserError ∅)).
(** It changes a name, and fails. *)
Definition naming : wenv :=
  machine ([], None) ([HUsername bob (str "rob")], Some (output RcUserError ∅)).
(** The machine succeeds; some storage is saved at once, some is in the output. *)
Definition selling : wenv :=
  machine ([], None) ([HSave shop (str "price") (str "3")],
    Some (output RcOk {[ shop := shop_account 25 {[ str "sum" := str "6" ]}; bob := shop_account 5 ∅ ]})).
Definition answering : wenv :=
  machine ([], None) ([HSave shop (str "price") (str "3")],
    Some (output RcOk {[ shop := shop_account 0 {[ str "sum" := str "6" ]} ]})).

Ltac calm := repeat constructor; try discriminate.
Lemma failing_calm : vm_always storage_only failing /\ vm_always keeps_first failing.
Proof. split; (split; [|split]); intros w c; cbn; calm. Qed.
Lemma reverting_calm : vm_always storage_only reverting.
Proof. split; [|split]; intros w c; cbn; calm. Qed.
Lemma selling_calm : vm_always storage_only selling /\ vm_always never_reverts selling.
Proof. split; (split; [|split]); intros w c; cbn; calm. Qed.
Lemma answering_calm : vm_always storage_only answering /\ vm_always keeps_first answering.
Proof. split; (split; [|split]); intros w c; cbn; calm. Qed.
Lemma backup_same w : same_storages (mw_accts w) (mw_accts (CreateStateBackup w)).
Proof. intros addr. reflexivity. Qed.
Lemma backup_snaps w : mw_snaps (CreateStateBackup w) = mw_snaps w ++ [mw_accts w].
Proof. reflexivity. Qed.

(** The status of a transaction that came to an end. *)
Definition status (r : mworld * sres vm_output) : option return_code :=
  match snd r with SOk o => Some (o_code o) | _ => None end.
Lemma alice_there : exists a, mw_accts setup !! alice = Some a /\ wa_balance a = 1000.
Proof.
  assert (Hb : wa_balance <$> mw_accts setup !! alice = Some 1000) by (vm_compute; reflexivity).
  apply fmap_Some in Hb as (a & Ha & Hb). eauto.
Qed.
Lemma alice_affords tx : jb_value (t_from tx) = alice -> fee_of tx = 20 -> affords tx 30 setup.
Proof.
  intros Hf Hfee. destruct alice_there as (a & Ha & Hb). exists a. rewrite Hf, Hfee, Hb. split; [exact Ha|lia].
Qed.
