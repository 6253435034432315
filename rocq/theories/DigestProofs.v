(** Requests are taken as they are written. *)
From Verif Require Import Base CtxModel CallDataModel MandosModel MandosSpec MandosProofs WorldModel DebugModel DigestSpec.

Lemma parseValue_iff t v : parseValue t = Some v <-> value_says t v.
Proof.
  unfold parseValue, value_says. destruct t as [|c t].
  - split; [intros [= <-]; auto|intros [[_ ->]|[H _]]; [reflexivity|contradiction]].
  - rewrite SetString_iff by lia. split; [intros H; right; split; [discriminate|exact H]|intros [[H _]|[_ H]]; [discriminate|exact H]].
Qed.
Lemma decodeArguments_iff l : forall args, decodeArguments l = Some args <-> Forall2 hex_text l args.
Proof.
  induction l as [|a l IH]; intros args; cbn [decodeArguments].
  - split; [intros [= <-]; constructor|intros H; inversion H; reflexivity].
  - split.
    + destruct (hex_decode a) as [d|] eqn:Ha; [|discriminate]. destruct (decodeArguments l) as [ds|]; [|discriminate].
      intros [= <-]. constructor; [apply hex_text_iff, Ha|apply IH; reflexivity].
    + intros H. inversion H as [|? d ? ds Ha Hl]; subst. apply hex_text_iff in Ha. apply IH in Hl. rewrite Ha, Hl. reflexivity.
Qed.
Lemma hex_or_iff t d x : match t with [] => Some d | c :: l => hex_decode (c :: l) end = Some x <-> hex_or t d x.
Proof.
  unfold hex_or. destruct t as [|c t].
  - split; [intros [= <-]; auto|intros [[_ ->]|[H _]]; [reflexivity|contradiction]].
  - rewrite hex_text_iff. split; [intros H; right; split; [discriminate|exact H]|intros [[H _]|[_ H]]; [discriminate|exact H]].
Qed.
Lemma digest_contract_iff c caller v price gas :
  digest_contract c = Some (caller, v, price, gas) <-> contract_says c caller v price gas.
Proof.
  unfold digest_contract, contract_says, DefaultGasPrice. destruct (cb_impersonated c) as [|x t] eqn:Hi.
  - split; [discriminate|intros [H _]; contradiction].
  - split.
    + destruct (hex_decode (x :: t)) as [a|] eqn:Ha; [|discriminate]. destruct (Z.eqb_spec (cb_gaslimit c) 0) as [|Hg]; [discriminate|].
      destruct (parseValue (cb_value c)) as [z|] eqn:Hv; [|discriminate]. intros [= <- <- <- <-].
      split_and!; [discriminate|apply hex_text_iff, Ha|apply parseValue_iff, Hv|reflexivity|reflexivity|exact Hg].
    + intros (_ & Ha & Hv & -> & -> & Hg). apply hex_text_iff in Ha. apply parseValue_iff in Hv. rewrite Ha, Hv.
      destruct (Z.eqb_spec (cb_gaslimit c) 0); [contradiction|reflexivity].
Qed.
Section digest.
Context `{D : denv}.
Lemma digest_code_iff p code meta args : digest_code p = Some (code, meta, args) <-> code_says p code meta args.
Proof.
  unfold digest_code, code_says. split.
  - destruct (match cp_hex p with [] => _ | _ => _ end) as [g|] eqn:Hg; [|discriminate].
    destruct (match cp_path p with [] => _ | _ => _ end) as [[|b r]|] eqn:Hp; [discriminate| |discriminate].
    destruct (match cp_meta p with [] => _ | _ => _ end) as [m|] eqn:Hm; [|discriminate].
    destruct (decodeArguments (cp_args p)) as [l|] eqn:Hl; [|discriminate]. intros [= <- <- <-].
    split_and!; [discriminate| |apply hex_or_iff, Hm|apply decodeArguments_iff, Hl].
    exists g. split; [apply hex_or_iff, Hg|]. destruct (cp_path p) as [|y q]; [left; split; [reflexivity|congruence]|right; split; [discriminate|exact Hp]].
  - intros (Hne & (g & Hg & Hp) & Hm & Hl). apply hex_or_iff in Hg, Hm. apply decodeArguments_iff in Hl. rewrite Hg.
    assert (E : match cp_path p with [] => Some g | f => de_code D f end = Some code)
      by (destruct Hp as [[-> ->]|[Hp <-]]; [reflexivity|destruct (cp_path p); [contradiction|reflexivity]]).
    rewrite E, Hm, Hl. destruct code; [contradiction|reflexivity].
Qed.
Lemma digest_iff r a : digest r = Some a <-> means r a.
Proof.
  split.
  - destruct r as [b c p|b c p ad|b c p|b c p|b ad bal n]; cbn [digest].
    + destruct (digest_contract c) as [[[[caller v] price] gas]|] eqn:Hc; [|discriminate]. apply digest_contract_iff in Hc.
      destruct (digest_code p) as [[[code meta] args]|] eqn:Hp; [|discriminate]. apply digest_code_iff in Hp. intros [= <-]. econstructor; eassumption.
    + destruct (digest_contract c) as [[[[caller v] price] gas]|] eqn:Hc; [|discriminate]. apply digest_contract_iff in Hc.
      destruct (digest_code p) as [[[code meta] args]|] eqn:Hp; [|discriminate]. apply digest_code_iff in Hp.
      destruct (hex_decode ad) as [x|] eqn:Ha; [|discriminate]. apply hex_text_iff in Ha. intros [= <-]. econstructor; eassumption.
    + destruct (digest_contract c) as [[[[caller v] price] gas]|] eqn:Hc; [|discriminate]. apply digest_contract_iff in Hc.
      destruct (decodeArguments _) as [args|] eqn:Hp; [|discriminate]. apply decodeArguments_iff in Hp.
      destruct (hex_decode _) as [x|] eqn:Ha; [|discriminate]. apply hex_text_iff in Ha. intros [= <-]. econstructor; eassumption.
    + destruct (digest_contract c) as [[[[caller v] price] gas]|] eqn:Hc; [|discriminate]. apply digest_contract_iff in Hc.
      destruct (decodeArguments _) as [args|] eqn:Hp; [|discriminate]. apply decodeArguments_iff in Hp.
      destruct (hex_decode _) as [x|] eqn:Ha; [|discriminate]. apply hex_text_iff in Ha. intros [= <-]. econstructor; eassumption.
    + destruct ad as [|y ad]; [discriminate|]. destruct (hex_decode (y :: ad)) as [x|] eqn:Ha; [|discriminate]. apply hex_text_iff in Ha.
      destruct (parseValue bal) as [z|] eqn:Hv; [|discriminate]. apply parseValue_iff in Hv. intros [= <-]. constructor; [discriminate|assumption..].
  - intros [b c p caller v price gas code meta args Hc Hp|b c p ad x caller v price gas code meta args Hc Hp Ha|b c p x caller v price gas args Hc Hp Ha|b c p x caller v price gas args Hc Hp Ha|b ad bal n x z Hne Ha Hv]; cbn [digest].
    + apply digest_contract_iff in Hc. apply digest_code_iff in Hp. rewrite Hc, Hp. reflexivity.
    + apply digest_contract_iff in Hc. apply digest_code_iff in Hp. apply hex_text_iff in Ha. rewrite Hc, Hp, Ha. reflexivity.
    + apply digest_contract_iff in Hc. apply decodeArguments_iff in Hp. apply hex_text_iff in Ha. rewrite Hc, Hp, Ha. reflexivity.
    + apply digest_contract_iff in Hc. apply decodeArguments_iff in Hp. apply hex_text_iff in Ha. rewrite Hc, Hp, Ha. reflexivity.
    + destruct ad as [|y ad]; [contradiction|]. apply hex_text_iff in Ha. apply parseValue_iff in Hv. rewrite Ha, Hv. reflexivity.
Qed.
End digest.

From Verif Require Import DebugSpec DebugProofs.
Section account.
Context `{D : denv}.
Lemma served r a fs d m x : means r a -> loadWorld (rb_database (digest_base (base_of r))) (rb_world (digest_base (base_of r))) fs = Some d ->
  serve a (wd_accounts d) = Some (m, x) -> snd (facade r fs) = SOk x \/ snd (facade r fs) = SErr.
Proof.
  intros Hm Hl Hs. apply digest_iff in Hm. unfold facade. rewrite Hm. cbv zeta. rewrite Hl, Hs.
  destruct (if is_query a then Some fs else _) as [fs1|]; [|right; reflexivity]. destruct (storeOutcome _ _ fs1); [left|right]; reflexivity.
Qed.
Lemma meaningless r fs : (forall a, ~ means r a) -> facade r fs = (fs, SErr).
Proof.
  intros H. unfold facade. destruct (digest r) as [a|] eqn:Hd; [|reflexivity]. apply digest_iff in Hd. destruct (H a Hd).
Qed.
Lemma account_made l b ah bal n fs0 a :
  let r := CreateAccount b ah bal n in
  let root := rb_database (digest_base b) in let name := rb_world (digest_base b) in
  let fs := fst (facade_run l fs0) in
  (forall root name, root <> [] -> plain name -> fs0 !! getWorldFile root name = None) ->
  List.Forall usual (l ++ [r]) -> all_text (l ++ [r]) ∅ -> means r (DoAccount a) ->
  exists m, loadWorld root name fs = Some (mkWorldData name (Some m)) /\
    loadWorld root name (fst (facade r fs)) = Some (mkWorldData name (Some (<[wa_address a := a]> m))) /\
    snd (facade r fs) = SOk (RAccount a).
Proof.
  cbv zeta. intros HN HU HT Hm. apply List.Forall_app in HU as [U1 U2]. apply all_text_app in HT as [T1 T2].
  apply List.Forall_cons_iff in U2 as [U2 _]. destruct (session_new l fs0 HN U1 T1) as [_ HR].
  set (r := CreateAccount b ah bal n) in *. set (s := fst (remember_run l ∅)) in *. set (fs := fst (facade_run l fs0)) in *.
  assert (T3 : forall k m, fst (remember r s) !! k = Some m -> text_accounts m).
  { intros k m Hk. cbn [all_text] in T2. destruct T2 as [_ [T2 _]]. exact (T2 k m Hk). }
  destruct (facade r fs) as [fs' x] eqn:Hf. destruct (session_step r fs s fs' x U2 HR T3 Hf) as [Hx HR']. cbn [fst snd].
  destruct (base_ok r U2) as (P1 & P2 & _). pose proof (root_ne b) as Hne. exists (default ∅ (s !! place (digest_base b))).
  split; [exact (HR _ _ Hne P1 P2)|]. unfold remember in *. apply digest_iff in Hm. rewrite Hm in *. cbv zeta in *. cbn [serve is_query fst snd] in *.
  split; [|symmetry; exact Hx]. etransitivity; [exact (HR' _ _ Hne P1 P2)|]. change (digest_base (base_of r)) with (digest_base b). change (place (digest_base b)) with (Clean (rb_database (digest_base b)), rb_world (digest_base b)). rewrite lookup_insert. reflexivity.
Qed.
End account.
