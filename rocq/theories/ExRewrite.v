(** Scenario files for the examples on writing them out again. *)
From Coq Require Import String.
From Verif Require Import Base ScenModel WorldModel ScenParseModel ScenWriteModel RewriteSpec ExWorld.
From stdpp Require Import gmap.
Local Open Scope Z_scope.

(** A text with ' for the double quote. *)
Definition js (s : string) : bytes :=
  map (fun c => if bool_decide (c = Byte.x27) then Byte.x22 else c) (str s).
Definition no_files : bytes -> option bytes := fun _ => None.
Definition no_hash : bytes -> bytes := fun _ => [].
Definition read := ParseScenarioFile no_files no_hash.
Definition of_ok {A} (r : sres A) (d : A) : A := match r with SOk a => a | _ => d end.
Definition empty_scenario : scenario := mkScenario [] [] true GasDefault [].
Definition read_of (text : bytes) : scenario := of_ok (read text) empty_scenario.
Definition text_of (s : scenario) : bytes := of_ok (ScenarioToJSONString s) [].
(** What becomes of a file. *)
Definition again (text : bytes) : bytes := text_of (read_of text).
Definition only (step : string) : bytes := js ("{'steps':[" ++ step ++ "]}").

Definition full_text : bytes := js "{
  'name': 'a scenario',
  'checkGas': false,
  'gasSchedule': 'v2',
  'steps': [
    { 'step': 'setState',
      'comment': 'start',
      'accounts': {
        'address:alice': {
          'nonce': '0x03', 'balance': '1,000', 'storage': { 'str:k': ['u8:1', 'biguint:2'], '0x00': '' },
          'esdt': { 'str:GEM': '50',
                    'str:NFT': { 'nonce': '2', 'balance': '1', 'creator': 'address:bob', 'royalties': '250',
                                 'uri': 'str:u', 'lastNonce': '2', 'roles': ['ESDTRoleLocalMint'] },
                    'str:TWO': { 'instances': [ { 'nonce': '1', 'balance': '5' }, { 'nonce': '2', 'balance': '6' } ] } },
          'code': '' },
        '0x6262626262626262626262626262626262626262626262626262626262626262': { } },
      'newAddresses': [ { 'creatorAddress': 'address:alice', 'creatorNonce': '3', 'newAddress': '0x0000000000000000000005050505050505050505050505050505050505050505' } ],
      'currentBlockInfo': { 'blockNonce': '9' },
      'blockHashes': ['0x12', 'str:h'] },
    { 'step': 'scCall', 'txId': 'one',
      'tx': { 'from': 'address:alice', 'to': 'address:bob', 'value': '0', 'function': 'f',
              'esdt': { 'tokenIdentifier': 'str:GEM', 'value': '5' },
              'arguments': ['1', '', ['1', '2']], 'gasLimit': '100', 'gasPrice': '0' },
      'expect': { 'out': ['*', '7'], 'status': '0', 'gas': '*', 'refund': '*',
                  'logs': [ { 'address': '*', 'identifier': 'str:id', 'topics': ['1', '*'], 'data': '' } ] } },
    { 'step': 'scQuery', 'txId': 'two', 'tx': { 'to': 'address:bob', 'function': 'g' },
      'expect': { 'out': [], 'status': '*', 'logs': '*' } },
    { 'step': 'transfer', 'txId': 'three', 'tx': { 'from': 'address:alice', 'to': 'address:bob', 'value': '1' } },
    { 'step': 'checkState',
      'accounts': {
        'address:alice': { 'nonce': '*', 'balance': '1000', 'storage': { 'str:k': '*', '+': '' }, 'code': '',
          'esdt': { 'str:GEM': '50', 'str:NFT': { 'nonce': '2', 'balance': '1', 'creator': 'address:bob' } } },
        '+': '' } },
    { 'step': 'dumpState' },
    { 'step': 'externalSteps', 'path': 'more.json' } ] }".

(** * What is lost *)
Definition shard_text : bytes := only
  "{'step':'setState','accounts':{'address:alice':{'shard':'1','balance':'7'}}}".
Definition last_text : bytes := only
  "{'step':'setState','accounts':{'address:alice':{'esdt':{'str:GEM':{'balance':'50','lastNonce':'7'}}}}}".
Definition nft (creator uri : string) : string :=
  "{'nonce':'2','balance':'1','creator':'" ++ creator ++ "','uri':'" ++ uri ++ "','lastNonce':'2'}".
Definition account_with (token : string) : string :=
  "{'address:alice':{'nonce':'0','balance':'0','esdt':{'str:NFT':" ++ token ++ "},'storage':{},'code':''}}".
Definition set_and_check (set check : string) : bytes :=
  only ("{'step':'setState','accounts':" ++ account_with set ++
        "},{'step':'checkState','accounts':" ++ account_with check ++ "}").
Definition uri_text : bytes := set_and_check (nft "address:bob" "str:there") (nft "address:bob" "str:there").
Definition uri_less_text : bytes := set_and_check (nft "address:bob" "str:there")
  "{'nonce':'2','balance':'1','creator':'address:bob','lastNonce':'2'}".
Definition empty_text : bytes := set_and_check (nft "address:bob" "str:there")
  "{'nonce':'2','balance':'1','creator':'','lastNonce':'2'}".
Definition log_text : bytes := only
  "{'step':'scQuery','txId':'1','tx':{'to':'address:bob','function':'f'},'expect':{'out':[],'logs':[{'address':'*','identifier':'*','topics':[]}]}}".
Definition plus_text : bytes := only
  "{'step':'checkState','accounts':{'address:alice':{'esdt':{'+':''}}}}".
Definition checked (s : scenario) : check_accounts :=
  match s_steps s with [CheckState _ (Some xs)] => xs | _ => mkCheckAccounts [] false end.
Definition plus_check : check_accounts := checked (read_of plus_text).
Definition plain_check : check_accounts := checked (read_of (again plus_text)).
Definition first_of (xs : check_accounts) : check_account :=
  match xs_accounts xs with a :: _ => a | [] => check_account_start end.
Definition plus_one : check_account := first_of plus_check.
Definition plain_one : check_account := first_of plain_check.
Definition no_accounts_text : bytes := only "{'step':'checkState'}".
Definition no_sender_text : bytes := only
  "{'step':'scCall','txId':'1','tx':{'to':'address:bob','function':'f','value':'0','gasLimit':'1','gasPrice':'0'}}".

Ltac all_of := repeat first [apply Forall_nil_2 | apply Forall_cons_2].
Ltac kept_tac :=
  repeat first
    [ apply Forall_nil_2 | apply Forall_cons_2 | exact I | reflexivity | discriminate
    | match goal with
      | |- _ /\ _ => split
      | |- (exists _, _) -> _ => let H := fresh in intros (? & H & ? & ? & ?); cbn in *; try discriminate; injection H as <-
      | |- short _ -> _ => unfold short
      | |- short_check _ -> _ => unfold short_check
      | |- ~ _ -> _ => let H := fresh in intros H;
          first [solve [exfalso; apply H; eexists; split_and!; reflexivity] | clear H]
      | |- exists x, Some _ = Some x /\ _ => eexists
      | |- _ = _ -> _ => let H := fresh in intros H; try discriminate H
      | |- forall _, Some _ = Some _ -> _ => let H := fresh in intros ? H; injection H as <-
      | |- forall _, None = Some _ -> _ => let H := fresh in intros ? H; discriminate H
      | |- forall _, _ = [_] -> _ => let H := fresh in intros ? H; cbn in H; try discriminate H; injection H as <-
      | |- _ \/ _ => first [left; solve [kept_tac] | right; solve [kept_tac]]
      | |- _ <> _ -> _ => let H := fresh in intros H; try (exfalso; apply H; reflexivity)
      end
    | progress cbv beta iota delta [kept kept_step kept_account kept_token kept_check_account
        kept_check_token kept_check_inst kept_meta kept_tx kept_log kept_mock]
    | progress cbn ].
Lemma full_kept : kept (read_of full_text).
Proof.
  unfold kept. let l := eval vm_compute in (s_steps (read_of full_text)) in
    replace (s_steps (read_of full_text)) with l by (vm_compute; reflexivity).
  kept_tac.
Qed.
Lemma uri_less_kept : kept (read_of uri_less_text).
Proof.
  unfold kept. let l := eval vm_compute in (s_steps (read_of uri_less_text)) in
    replace (s_steps (read_of uri_less_text)) with l by (vm_compute; reflexivity).
  kept_tac.
Qed.
