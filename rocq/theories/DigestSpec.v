(** What a request to the debugging facade says. *)
From Verif Require Import Base CtxModel MandosSpec WorldModel DebugModel.

(** a number in digits, maybe with a sign; nothing is 0 *)
Definition value_says (t : bytes) (v : Z) : Prop := (t = [] /\ v = 0) \/ (t <> [] /\ signed_numeral 10 t v).
(** something given in hexadecimal digits, or else a default *)
Definition hex_or (t d x : bytes) : Prop := (t = [] /\ x = d) \/ (t <> [] /\ hex_text t x).

(** who calls, with how much money, at which price and with how much gas *)
Definition contract_says (c : contract_base) (caller : bytes) (value price gas : Z) : Prop :=
  cb_impersonated c <> [] /\ hex_text (cb_impersonated c) caller /\
  value_says (cb_value c) value /\
  price = (if cb_gasprice c =? 0 then 200000000000 else cb_gasprice c) /\
  gas = cb_gaslimit c /\ gas <> 0.
(** code from a file, in digits, or as it is *)
Definition code_says `{D : denv} (p : code_part) (code meta : bytes) (args : list bytes) : Prop :=
  code <> [] /\
  (exists given, hex_or (cp_hex p) (cp_code p) given /\
     ((cp_path p = [] /\ code = given) \/ (cp_path p <> [] /\ de_code D (cp_path p) = Some code))) /\
  hex_or (cp_meta p) [Byte.x01; Byte.x00] meta /\
  Forall2 hex_text (cp_args p) args.

(** the input of a direct call *)
Definition direct (caller : bytes) (args : list bytes) (value price gas : Z) : vm_input :=
  {| vi_caller := caller; vi_args := args; vi_value := value; vi_ctype := DirectCall;
     vi_gasprice := price; vi_gas := gas; vi_locked := 0; vi_esdt := []; vi_origtx := []; vi_curtx := []; vi_aftererr := false |}.

Inductive means `{D : denv} : request -> action -> Prop :=
| mn_deploy b c p caller value price gas code meta args :
    contract_says c caller value price gas -> code_says p code meta args ->
    means (Deploy b c p)
      (DoCreate {| cc_vm := direct caller args value price gas; cc_code := code; cc_meta := meta |})
| mn_upgrade b c p ah address caller value price gas code meta args :
    contract_says c caller value price gas -> code_says p code meta args -> hex_text ah address ->
    means (Upgrade b c p ah)
      (DoCall {| ci_vm := direct caller (code :: meta :: args) value price gas;
                 ci_rcpt := address; ci_fn := str "upgradeContract"; ci_init := false |})
| mn_run b c p address caller value price gas args :
    contract_says c caller value price gas -> Forall2 hex_text (rp_args p) args -> hex_text (rp_address p) address ->
    means (Run b c p)
      (DoCall {| ci_vm := direct caller args value price gas; ci_rcpt := address; ci_fn := rp_function p; ci_init := false |})
| mn_query b c p address caller value price gas args :
    contract_says c caller value price gas -> Forall2 hex_text (rp_args p) args -> hex_text (rp_address p) address ->
    means (Query b c p)
      (DoQuery {| ci_vm := direct caller args value price gas; ci_rcpt := address; ci_fn := rp_function p; ci_init := false |})
| mn_account b ah bal nonce address balance :
    ah <> [] -> hex_text ah address -> value_says bal balance ->
    means (CreateAccount b ah bal nonce)
      (DoAccount {| wa_exists := false; wa_address := address; wa_nonce := nonce; wa_balance := balance; wa_delta := 0;
                    wa_storage := ∅; wa_code := []; wa_codehash := []; wa_meta := []; wa_owner := []; wa_async := [];
                    wa_username := []; wa_reward := 0; wa_shard := 0; wa_is_sc := false |}).
