(** Proofs for C56: every API function, and the four that index unchecked. *)
From Verif Require Import MathProofs CodecProofs MemModel MemProofs ApiArgsModel VmModel WpProofs KeepProofs KindProofs GasAsyncProofs CellProofs SafeSpec SafeProofs.
From Coq Require Import ZifyBool ZifyNat ZifyN.

Section safe.
Context `{E : env} (Hooks : hooks_return E) (ed : edf) (es : same).

Definition safe (S : bool) (c : cmd) : Prop := forall h, alive h -> (S = true -> small_host h) -> returns (run_cmd ed es c h).

Lemma safe_weak S c : safe false c -> safe S c.
Proof. intros H h Hh _. apply H; [exact Hh|discriminate]. Qed.
Lemma safe_ret S r : safe S (CRet r).
Proof. intros h Hh _. exact Hh. Qed.
(** what an operation gives, without errors or with them *)
Definition gives (S : bool) {B} (p : prim B) (e : bool) (Q : B -> Prop) : Prop := forall h, alive h -> (S = true -> small_host h) ->
  match interp ed es p h with
  | (h', OOk b) => alive h' /\ Q b
  | (h', OErr _) => e = true /\ alive h'
  | _ => False
  end.
Lemma gives_lv S {B} (p : prim B) e : lv e (interp ed es p) -> gives S p e (fun _ => True).
Proof. intros H h Hh _. specialize (H h Hh). destruct (interp ed es p h) as [h' [b|er| |]]; tauto. Qed.
Lemma safe_act S {B} (p : prim B) k Q : gives S p false Q -> (forall b, Q b -> safe false (k b)) -> safe S (act p k).
Proof.
  intros Hp Hk h Hh Hs. unfold act. rewrite run_do. specialize (Hp h Hh Hs). destruct (interp ed es p h) as [h' [b|er| |]]; [|destruct Hp; discriminate|destruct Hp..].
  destruct Hp as [Hp Hq]. apply Hk; [exact Hq|exact Hp|discriminate].
Qed.
Lemma safe_do S {B} (p : prim B) k Q : gives S p true Q -> (forall b, Q b -> safe false (k (inl b))) -> (forall e, safe false (k (inr e))) -> safe S (CDo p k).
Proof.
  intros Hp Hk He h Hh Hs. rewrite run_do. specialize (Hp h Hh Hs). destruct (interp ed es p h) as [h' [b|er| |]]; [| |destruct Hp..].
  - destruct Hp as [Hp Hq]. apply Hk; [exact Hq|exact Hp|discriminate].
  - apply He; [apply Hp|discriminate].
Qed.
Lemma safe_get S {B} (f : host -> B) k (Q : B -> Prop) :
  (forall h, alive h -> (S = true -> small_host h) -> Q (f h)) -> (forall b, Q b -> safe S (k b)) -> safe S (get f k).
Proof. intros Hf Hk h Hh Hs. rewrite run_get. apply Hk; auto. Qed.
Lemma safe_fault S e r : safe S (fault e r).
Proof. apply safe_act with (Q := fun _ => True); [apply gives_lv; apply lv_Fault|]. intros _ _. apply safe_ret. Qed.
Lemma safe_or_fault S {B} (p : prim B) r k Q : gives S p true Q -> (forall b, Q b -> safe false (k b)) -> safe S (or_fault p r k).
Proof. intros Hp Hk. apply safe_do with (Q := Q); [exact Hp|exact Hk|]. intros e. apply safe_fault. Qed.
Lemma safe_res S {B} (x : res B) r k : x <> RPanic -> (forall b, x = ROk b -> safe S (k b)) -> safe S (res_or_fault x r k).
Proof. intros H Hk. destruct x; [apply Hk; reflexivity|apply safe_fault|congruence]. Qed.
Lemma safe_load S o l r k : in_i32 o -> in_i32 l -> (forall b, blen b = l -> safe S (k b)) -> safe S (load o l r k).
Proof.
  intros Ho Hl Hk. unfold load. apply safe_get with (Q := fun x => x <> RPanic /\ forall d, x = ROk d -> blen d = l).
  - intros h Hh _. destruct (alive_run h Hh) as (i & x & Hx). rewrite (mem_load_run _ _ _ _ _ Hx). split; [apply load_nopanic; assumption|].
    intros d Hd. exact (load_length _ _ _ _ Hd (load_nonneg _ _ _ _ Hd)).
  - intros x [H1 H2]. apply safe_res; [exact H1|]. intros b ->. apply Hk, H2. reflexivity.
Qed.
Lemma safe_store S o d r k : in_i32 o -> small d -> safe false k -> safe S (store o d r k).
Proof. intros Ho Hd Hk. apply safe_or_fault with (Q := fun _ => True); [apply gives_lv, lv_store; assumption|]. intros _ _. exact Hk. Qed.
Lemma safe_use S g k : safe S k -> safe S (use g k).
Proof.
  intros Hk h Hh Hs. destruct (alive_run h Hh) as (i & x & Hx). rewrite (run_use _ _ _ _ _ _ _ Hx). apply Hk; [exact (alive_with _ _ _ _ Hh Hx)|].
  intros HS. exact (Hs HS).
Qed.
Lemma safe_args S n lo d k : in_i32 n -> in_i32 lo -> in_i32 d -> (forall x, x <> RPanic -> safe S (k x)) -> safe S (get_args n lo d k).
Proof.
  intros Hn Hl Hd Hk. apply safe_get with (Q := fun x => x <> RPanic); [|exact Hk]. intros h Hh _. destruct (alive_run h Hh) as (i & x & Hx).
  rewrite (cur_mem_run _ _ _ Hx). cbn [mbind res_bind]. apply args_nopanic; assumption.
Qed.
Lemma safe_extract S v a b c d n lo dd r k : in_i32 a -> in_i32 b -> in_i32 c -> in_i32 d -> in_i32 n -> in_i32 lo -> in_i32 dd ->
  (forall x, safe S (k x)) -> safe S (extract v a b c d n lo dd r k).
Proof.
  intros Ha Hb Hc Hd Hn Hl Hdd Hk. unfold extract. apply safe_get with (Q := fun x => x <> RPanic).
  - intros h Hh _. destruct (alive_run h Hh) as (i & x & Hx). rewrite (cur_mem_run _ _ _ Hx). cbn [mbind res_bind]. apply extract_nopanic; assumption.
  - intros x Hx. apply safe_res; [exact Hx|]. intros y _. apply safe_use, Hk.
Qed.
Lemma safe_topics S ptr n : forall i acc k, (forall l, safe S (k l)) -> safe S (load_topics ptr n i acc k).
Proof.
  induction n as [|n IH]; intros i acc k Hk; [apply Hk|]. cbn [load_topics]. apply safe_load; [apply i32_range|unfold HashLen, in_i32, min_i32, max_i32; lia|].
  intros t _. apply IH, Hk.
Qed.
Lemma safe_extra S vs k : safe S k -> safe S (extra_gas vs k).
Proof. intros Hk. induction vs as [|v vs IH]; cbn [extra_gas]; [exact Hk|]. destruct (_ <? _); [apply safe_use|]; exact IH. Qed.

(** ** What reading gives *)
Lemma g_big x : gives true (QBigGet x) false small_num.
Proof.
  intros h Hh Hs. cbn [interp]. unfold big_op, big_get. destruct (h_big h !! x) eqn:Ex.
  - split; [exact Hh|]. apply (Hs eq_refl) in Ex. exact Ex.
  - split; [exact Hh|]. unfold small_num. reflexivity.
Qed.
Lemma g_balance a : gives true (QBalance a) false (fun b => small (be_encode b)).
Proof.
  intros h Hh Hs. specialize (Hs eq_refl). destruct Hs as (_ & _ & _ & (_ & Ho) & Hw & _). pose proof (lv_Balance false a h Hh) as HL.
  cbn [interp].
  assert (Z0 : small (be_encode 0)) by (unfold small; vm_compute; discriminate).
  destruct (GetBalanceBigInt a h) as [h' [d|e| |]] eqn:G; [|exact HL..]. split; [exact HL|]. clear HL.
  unfold GetBalanceBigInt, bind at 1 in G. unfold GetOutputAccount in G. destruct (accounts h !! a) as [x|] eqn:Ex.
  - cbv beta iota in G. cbn [negb] in G. rewrite bind_gets in G. destruct (Ho _ _ Ex) as (_ & Hb & Hd). destruct (oa_balance x) as [b|].
    + injection G as <- <-. apply sum_small; [apply Hb; reflexivity|exact Hd].
    + destruct (w_accounts (h_world h) !! a) as [u|] eqn:Eu; [|injection G as <- <-; exact Z0].
      unfold upd_account in G. rewrite bind_modify in G. injection G as <- <-. apply sum_small; [apply (Hw _ _ Eu)|exact Hd].
  - cbv beta iota in G. cbn [negb] in G. rewrite bind_gets in G. cbn [h_world set_accounts set_h_out] in G.
    destruct (w_accounts (h_world h) !! a) as [u|] eqn:Eu; [|injection G as <- <-; exact Z0].
    unfold upd_account in G. rewrite bind_modify in G. injection G as <- <-. apply be_small, (Hw _ _ Eu).
Qed.
Lemma data_small h a k : small_host h -> small (GetStorageData (h_world h) a k).
Proof.
  intros (_ & _ & _ & _ & Hw & _). unfold GetStorageData. destruct (w_accounts (h_world h) !! a) as [u|] eqn:Eu; [|unfold small; vm_compute; discriminate].
  destruct (ua_storage u !! k) eqn:Ek; [|unfold small; vm_compute; discriminate]. exact (proj2 (proj2 (Hw _ _ Eu)) _ _ Ek).
Qed.
Lemma get_small h h' a k d : small_host h -> getStorageFromAddressUnmetered a k h = (h', OOk d) -> small d.
Proof.
  intros Hs. pose proof Hs as (_ & _ & _ & (_ & Ho) & _). unfold getStorageFromAddressUnmetered, bind at 1. unfold GetOutputAccount. destruct (accounts h !! a) as [x|] eqn:Ex.
  - destruct (oa_storage x !! k) as [v|] eqn:Ek; [intros [= <- <-]; exact (proj1 (Ho _ _ Ex) _ _ Ek)|].
    rewrite bind_gets. unfold upd_account. rewrite bind_modify. intros [= <- <-]. apply data_small, Hs.
  - unfold NewVMOutputAccount. cbn [oa_storage]. rewrite lookup_empty. rewrite bind_gets. unfold upd_account. rewrite bind_modify. intros [= <- <-]. apply (data_small h), Hs.
Qed.
Lemma use_frame g h h' r : alive h -> UseGas g h = (h', r) -> small_host h -> small_host h' /\ r = OOk tt.
Proof. intros Hh H Hs. destruct (alive_run h Hh) as (i & x & Hx). rewrite (UseGas_run _ _ _ _ Hx) in H. injection H as <- <-. split; [exact Hs|reflexivity]. Qed.
Lemma extra_frame k h h' r : alive h -> useExtraKeyGas k h = (h', r) -> small_host h -> small_host h' /\ r = OOk tt.
Proof.
  intros Hh. unfold useExtraKeyGas. cbv zeta. destruct (_ <? _); [intros H; apply (use_frame _ _ _ _ Hh H)|]. intros [= <- <-] Hs. split; [exact Hs|reflexivity].
Qed.
Lemma g_sto k : gives true (QGetStorage k) false small.
Proof.
  intros h Hh Hs. specialize (Hs eq_refl). cbn [interp]. pose proof (lv_getsto false k h Hh) as HL.
  destruct (GetStorage k h) as [h' [d|e| |]] eqn:G; [|exact HL..]. split; [exact HL|].
  unfold GetStorage in G. apply ok_bind in G as (h1 & [] & G1 & G). pose proof (extra_frame _ _ _ _ Hh G1 Hs) as [Hs1 _].
  apply ok_bind in G as (h2 & v & G2 & G). unfold GetStorageUnmetered in G2. rewrite bind_gets in G2. apply get_small in G2; [|exact Hs1].
  apply ok_bind in G as (h3 & [] & G3 & G). injection G as <- <-. exact G2.
Qed.
Lemma g_stofrom a k : gives true (QGetStorageFrom a k) false small.
Proof.
  intros h Hh Hs. specialize (Hs eq_refl). cbn [interp]. pose proof (lv_getfrom false a k h Hh) as HL.
  destruct (GetStorageFromAddress a k h) as [h' [d|e| |]] eqn:G; [|exact HL..]. split; [exact HL|].
  unfold GetStorageFromAddress in G. apply ok_bind in G as (h1 & [] & G1 & G). pose proof (extra_frame _ _ _ _ Hh G1 Hs) as [Hs1 _].
  rewrite !bind_gets in G. cbv zeta in G. destruct (negb _); [injection G as <- <-; unfold small; vm_compute; discriminate|].
  apply ok_bind in G as (h2 & v & G2 & G). apply ok_bind in G as (h3 & [] & G3 & G). injection G as <- <-.
  destruct (isElrondReservedKey k); [injection G2 as <- <-; apply data_small, Hs1|]. apply get_small in G2; [exact G2|exact Hs1].
Qed.

Lemma safe_get' S {B} (f : host -> B) k :
  (forall h, alive h -> (S = true -> small_host h) -> safe S (k (f h))) -> safe S (get f k).
Proof. intros Hk. apply safe_get with (Q := fun b => safe S (k b)); [exact Hk|auto]. Qed.

(** ** Smallness of what is copied into memory *)
Lemma sm_nil : small []. Proof. unfold small; vm_compute; discriminate. Qed.
Lemma sm_addr h : small_host h -> small (sc_address h). Proof. intros (H & _). exact H. Qed.
Lemma sm_fn h : small_host h -> small (r_fn (h_rt h)). Proof. intros (_ & H & _). exact H. Qed.
Lemma sm_caller h : small_host h -> small (vi_caller (vm_in h)). Proof. intros (_ & _ & (H & _) & _). exact H. Qed.
Lemma sm_orig h : small_host h -> small (vi_origtx (vm_in h)). Proof. intros (_ & _ & (_ & _ & _ & _ & H) & _). exact H. Qed.
Lemma sm_arg h (i : nat) a : small_host h -> vi_args (vm_in h) !! i = Some a -> small a.
Proof. intros (_ & _ & H & _) Ha. apply H. apply elem_of_list_lookup_2 in Ha. exact Ha. Qed.
Lemma sm_ret h (i : nat) a : small_host h -> o_retdata (h_out h) !! i = Some a -> small a.
Proof. intros (_ & _ & _ & H & _) Ha. apply H. apply elem_of_list_lookup_2 in Ha. exact Ha. Qed.
Lemma sm_value h : small_host h -> small_num (vi_value (vm_in h)). Proof. intros (_ & _ & (_ & _ & H & _) & _). exact H. Qed.
Lemma sm_first h : small_host h -> small (et_name (first_esdt h)) /\ small_num (et_value (first_esdt h)).
Proof.
  intros (_ & _ & (_ & _ & _ & H & _) & _). unfold first_esdt, vm_in. destruct (vi_esdt (r_input (h_rt h))) as [|t l]; [split; [exact sm_nil|reflexivity]|].
  apply H. constructor.
Qed.
Lemma sm_owner h : GetOwnerAddress h <> RPanic /\ (small_host h -> forall a, GetOwnerAddress h = ROk a -> small a).
Proof.
  unfold GetOwnerAddress, GetUserAccount. destruct (w_accounts (h_world h) !! r_addr (h_rt h)) as [u|] eqn:Eu.
  - split; [discriminate|]. intros (_ & _ & _ & _ & Hw & _) a [= <-]. apply (Hw _ _ Eu).
  - destruct (e_missing_err E); (split; [discriminate|]); intros _ a [= <-]. exact sm_nil.
Qed.
Lemma first_value h v : small_host h -> v = et_value (first_esdt h) -> small (if 0 <? v then pad32 (be_encode v) else []).
Proof. intros H ->. destruct (_ <? _); [apply pad_small, be_small, sm_first, H|exact sm_nil]. Qed.

Context (Hed : forall i, lv false (ed i)) (Hes : forall i, lv true (es i)).
Lemma lv_exec i : lv true (exec_dest ed i).
Proof. unfold exec_dest. apply lv_bind; [apply lv_weak, Hed|]. intros r. destruct (snd r); [apply lv_fail|apply lv_ret]. Qed.
Lemma lv_builtin i : lv true (ProcessBuiltInFunction i).
Proof.
  intros h Hh. unfold ProcessBuiltInFunction. pose proof (proj2 (proj2 (proj2 (proj2 (proj2 (proj2 (proj2 (proj2 (proj2 Hooks)))))))) (h_world h) i) as H.
  destruct (e_builtin E (h_world h) i) as [w [o|e|]]; [exact Hh|split; [reflexivity|exact Hh]|destruct (H eq_refl)].
Qed.
Hint Resolve lv_builtin lv_exec lv_UseGas lv_Fault : lv.
Lemma lv_esdtTransfer a b c d e f : lv true (ExecuteESDTTransfer a b c d e f). Proof. lvt. Qed.
Hint Resolve lv_esdtTransfer : lv.
Lemma lv_TransferESDT a b c d e f : lv true (TransferESDT a b c d e f). Proof. lvt. Qed.
Hint Resolve lv_TransferESDT : lv.
Lemma lv_esdtExec a b c d e f g : lv false (esdt_execute ed a b c d e f g).
Proof. lvt. Qed.
Lemma lv_Nonce a : lv true (GetNonce a).
Proof. unfold GetNonce. apply lv_bind; [lvt|]. intros [x b]. destruct (negb _); [lvt|]. apply lv_bind; [lvt|]. intros w. apply lv_bind; [apply lv_user; reflexivity|lvt]. Qed.
Hint Resolve lv_Nonce : lv.
Lemma lv_NewAddress a : lv true (NewAddress a).
Proof. unfold NewAddress. apply lv_bind; [lvt|]. intros n. apply lv_lift; [apply Hooks|discriminate]. Qed.
Hint Resolve lv_NewAddress : lv.
Lemma lv_Create i : lv true (CreateNewContract ed i).
Proof.
  unfold CreateNewContract. cbv zeta. apply lv_bind; [lvt|]. intros _. apply lv_bind; [lvt|]. intros ro. apply lv_bind; [lvt|]. intros _.
  apply lv_bind; [lvt|]. intros a. apply lv_bind; [lvt|]. intros x. apply lv_bind; [lvt|]. intros _. apply lv_bind; [lvt|]. intros _. apply lv_bind; [lvt|]. intros _.
  apply lv_bind; [apply lv_weak, Hed|]. intros [[? ?] e]. lvt.
Qed.
Lemma created_small i h h' a : CreateNewContract ed i h = (h', OOk a) -> small a.
Proof.
  unfold CreateNewContract. cbv zeta. intros G. apply ok_bind in G as (h1 & [] & _ & G). rewrite bind_gets in G.
  apply ok_bind in G as (h2 & [] & _ & G). apply ok_bind in G as (h3 & b & N & G). 
  assert (small b).
  { unfold NewAddress in N. apply ok_bind in N as (h4 & n & _ & N). cbv zeta in N. unfold lift in N.
    destruct (e_newAddress E _ _) eqn:En; try discriminate. injection N as <- <-. exact (proj1 (proj2 (proj2 (proj2 (proj2 (proj2 (proj2 (proj2 (proj2 Hooks)))))))) _ _ _ En). }
  rewrite bind_gets in G. apply ok_bind in G as (h5 & [] & _ & G). apply ok_bind in G as (h6 & [] & _ & G). apply ok_bind in G as (h7 & [] & _ & G).
  apply ok_bind in G as (h8 & [[o inf] e] & _ & G). destruct e; [unfold bind, fail in G; destruct (DeleteOutputAccount b h8) as [? [| | |]]; discriminate|].
  apply ok_bind in G as (h9 & [] & _ & G). injection G as <- <-. assumption.
Qed.
Lemma g_create v g c m a : gives false (QCreate v g c m a) true small.
Proof.
  intros h Hh _. cbn [interp]. rewrite bind_gets. pose proof (lv_Create (mkCreate (mkInput (sc_address h) a v DirectCall 0 (BoundGasLimit h g) 0 [] [] [] false) c m) h Hh) as HL.
  destruct (CreateNewContract ed _ h) as [h' [b|e| |]] eqn:G; [|exact HL..]. split; [exact HL|exact (created_small _ _ _ _ G)].
Qed.
Hint Resolve lv_Fault lv_Signal lv_Balance lv_GetCode lv_getsto lv_getfrom lv_getum lv_set lv_setp lv_Finish lv_WriteLog lv_Transfer lv_AddAsync
  lv_AsyncCb lv_Async lv_breakpoint lv_esdtExec : lv.

Lemma gl S {B} (p : prim B) e : lv e (interp ed es p) -> gives S p e (fun _ => True).
Proof. apply gives_lv. Qed.
Ltac rng := solve [apply i32_range | unfold AddressLen, BalanceLen, HashLen, CodeMetadataLen, in_i32, min_i32, max_i32; lia
  | unfold blsPublicKeyLength, blsSignatureLength, ed25519PublicKeyLength, ed25519SignatureLength, in_i32, min_i32, max_i32; lia].
Ltac lvp := apply gives_lv; cbn [interp]; solve [eauto with lv nocore | lvt].
Ltac sm := match goal with
  | |- small (if _ then _ else _) => first [apply first_value; [assumption|reflexivity]]
  | |- small (pad32 _) => apply pad_small; sm
  | |- small (be_encode _) => first [assumption | apply be_small; sm]
  | |- small (bigIntUnsignedBytes _) => apply be_small; sm
  | |- small (bigIntSignedBytes _) => apply twos_small; sm
  | |- small [] => exact sm_nil
  | |- small_num _ => first [assumption | apply sm_value; assumption | apply sm_first; assumption]
  | |- small _ => first [assumption | apply sm_addr; assumption | apply sm_fn; assumption | apply sm_caller; assumption | apply sm_orig; assumption
      | apply sm_first; assumption | eapply sm_arg; eassumption ]
  end.
Ltac sf1 :=
  lazymatch goal with
  | |- safe _ (CRet _) => apply safe_ret
  | |- safe _ (use _ _) => apply safe_use
  | |- safe _ (get _ _) => apply safe_get'; let h := fresh "h" in let Hh := fresh "Hh" in let Hs := fresh "Hs" in intros h Hh Hs; try specialize (Hs eq_refl)
  | |- safe _ (fault _ _) => apply safe_fault
  | |- safe _ (load _ _ _ _) => apply safe_load; [try rng|try rng|intros]
  | |- safe _ (store _ _ _ _) => apply safe_store; [rng|try sm|]
  | |- safe _ (get_args _ _ _ _) => apply safe_args; [rng|rng|rng|intros]
  | |- safe _ (extract _ _ _ _ _ _ _ _ _ _) => apply safe_extract; [rng..|intros]
  | |- safe _ (load_topics _ _ _ _ _) => apply safe_topics; intros
  | |- safe _ (extra_gas _ _) => apply safe_extra
  | |- safe true (act (QBigGet _) _) => apply (safe_act _ _ _ _ (g_big _)); intros
  | |- safe true (act (QBalance _) _) => apply (safe_act _ _ _ _ (g_balance _)); intros
  | |- safe true (act (QGetStorage _) _) => apply (safe_act _ _ _ _ (g_sto _)); intros
  | |- safe true (act (QGetStorageFrom _ _) _) => apply (safe_act _ _ _ _ (g_stofrom _ _)); intros
  | |- safe _ (act _ _) => eapply safe_act; [lvp|intros]
  | |- safe _ (or_fault _ _ _) => eapply safe_or_fault; [lvp|intros]
  | |- safe false (CDo (QCreate _ _ _ _ _) _) => apply (safe_do _ _ _ _ (g_create _ _ _ _ _)); intros
  | |- safe true (CDo (QCreate _ _ _ _ _) _) => apply safe_weak; apply (safe_do _ _ _ _ (g_create _ _ _ _ _)); intros
  | |- safe _ (CDo _ _) => eapply safe_do; [lvp|intros|intros]
  | |- safe _ (res_or_fault _ _ _) => apply safe_res; [try assumption|intros; subst]
  | |- safe _ (if ?b then _ else _) => destruct b
  | |- safe _ (match ?b with _ => _ end) => destruct b eqn:?
  | |- safe _ (let _ := _ in _) => cbv zeta
  | |- safe _ ?c => let g := head_of c in unfold g
  end.
Ltac sf := repeat sf1.

Lemma memload_ok h o l : alive h -> in_i32 o -> in_i32 l -> mem_load h o l <> RPanic.
Proof. intros Hh Ho Hl. destruct (alive_run h Hh) as (i & x & Hx). rewrite (mem_load_run _ _ _ _ _ Hx). apply load_nopanic; assumption. Qed.
Lemma safe_esdt S a b c n k : in_i32 a -> in_i32 b -> in_i32 c -> (forall t, small_token t -> safe S (k t)) -> safe S (esdt_data a b c n k).
Proof.
  intros Ha Hb Hc Hk. unfold esdt_data, charge. apply safe_use, safe_load; [exact Ha|rng|]. intros x _. apply safe_load; [exact Hb|exact Hc|]. intros y _.
  apply safe_get'. intros h _ _. destruct Hooks as (_ & H1 & H2 & _). apply safe_res; [apply H1|]. intros t Ht. exact (Hk _ (H2 _ _ _ _ _ Ht)).
Qed.
Lemma safe_op2 c b f x y z : (forall u v, f u v <> RPanic) -> safe true (bigInt_op2 c b f x y z).
Proof. intros Hf. unfold bigInt_op2. sf; apply Hf. Qed.
Lemma safe_op1 f x y : (forall u, f u <> RPanic) -> safe true (bigInt_op1 f x y).
Proof. intros Hf. unfold bigInt_op1. sf; apply Hf. Qed.
Lemma safe_hash c n o l r : in_i32 o -> in_i32 l -> in_i32 r -> safe true (crypto_hash c n o l r).
Proof.
  intros Ho Hl Hr. unfold crypto_hash. apply safe_use, safe_load; [exact Ho|exact Hl|]. intros d _. destruct (e_hash E n d) eqn:Eh; [|apply safe_ret..].
  apply safe_store; [exact Hr| |apply safe_ret]. destruct Hooks as (_ & _ & _ & _ & _ & _ & H & _). exact (H _ _ _ Eh).
Qed.
Lemma zlen_le {A} (l : list A) : zlen l <= Z.of_nat (length l).
Proof. unfold zlen, i32. pose proof (Z.mod_le (Z.of_nat (length l) + 2147483648) 4294967296). lia. Qed.
Lemma index_in {A} (l : list A) i : 0 <= i -> i < zlen l -> exists x, gindex l i = ROk x /\ l !! Z.to_nat i = Some x.
Proof.
  intros H0 H1. pose proof (zlen_le l). unfold gindex. destruct (Z.ltb_spec i 0); [lia|].
  destruct (l !! Z.to_nat i) as [x|] eqn:Ex; [exists x; split; reflexivity|]. apply lookup_ge_None_1 in Ex. lia.
Qed.
Lemma arg_at_ok args id : arg_at args id <> RPanic.
Proof.
  unfold arg_at. destruct (Z.ltb_spec id 0); [discriminate|]. destruct (Z.leb_spec (i32 (Z.of_nat (length args))) id) as [H'|H']; [discriminate|].
  destruct (index_in args id H H') as (x & -> & _). discriminate.
Qed.
Lemma arg_unsigned args id : smallIntGetUnsignedArgument args id <> RPanic.
Proof. unfold smallIntGetUnsignedArgument. cbn [mbind res_bind]. pose proof (arg_at_ok args id). destruct (arg_at args id); [|discriminate|congruence]. cbn. destruct (is_uint64 (be_decode _)); discriminate. Qed.
Lemma arg_signed args id : smallIntGetSignedArgument args id <> RPanic.
Proof. unfold smallIntGetSignedArgument. cbn [mbind res_bind]. pose proof (arg_at_ok args id). destruct (arg_at args id); [|discriminate|congruence]. cbn. destruct (is_int64 (twos_decode _)); discriminate. Qed.
Lemma load_unsigned d : smallIntLoadUnsigned d <> RPanic.
Proof. unfold smallIntLoadUnsigned. cbn. destruct (is_uint64 (be_decode _)); discriminate. Qed.
Lemma load_signed d : smallIntLoadSigned d <> RPanic.
Proof. unfold smallIntLoadSigned. cbn. destruct (is_int64 (twos_decode _)); discriminate. Qed.
Ltac tok := match goal with
  | H : small_token ?t |- small (be_encode (ek_value ?t)) => apply be_small, H
  | H : small_token ?t |- small (ek_properties ?t) => exact (proj1 (proj2 H))
  | H : small_token ?t, Hm : ek_meta ?t = Some ?m |- small _ =>
      let K := fresh in pose proof (proj2 (proj2 H) _ Hm) as K; destruct K as (? & ? & ? & ? & ?); first [assumption | match goal with K : forall u, u ∈ em_uris m -> small u, Hu : em_uris m = _ |- _ => rewrite Hu in K; apply K; constructor end]
  end.

Lemma safe_api c : unchecked_index c = None -> safe true (api c).
Proof.
  destruct c; unfold api; intros Hi; try discriminate Hi; try (sf; fail).
  - unfold getOwnerAddress, charge. apply safe_use, safe_get'. intros h Hh Hs. specialize (Hs eq_refl). destruct (sm_owner h) as [H1 H2].
    apply safe_res; [exact H1|]. intros a Ha. apply safe_store; [rng|exact (H2 Hs _ Ha)|apply safe_ret].
  - unfold getBlockHash, charge. apply safe_use, safe_store; [rng| |apply safe_ret]. destruct (_ <? _); [exact sm_nil|].
    destruct (e_blockhash E _) eqn:Eb; [|exact sm_nil..]. destruct Hooks as (_ & _ & _ & H & _). exact (H _ _ Eb).
  - apply safe_esdt; [rng..|]. intros t Ht. apply safe_store; [rng|tok|apply safe_ret].
  - apply safe_esdt; [rng..|]. intros t Ht. apply safe_ret.
  - apply safe_esdt; [rng..|]. intros t Ht. apply safe_ret.
  - apply safe_esdt; [rng..|]. intros t Ht. apply safe_ret.
  - apply safe_esdt; [rng..|]. intros t Ht. sf; try tok.
  - unfold getStorageLock, getStorageLock_k, charge. apply safe_use, safe_get'. intros h Hh Hs.
    pose proof (memload_ok h (i32 keyOffset) (i32 keyLength) Hh (i32_range _) (i32_range _)). sf. congruence.
  - unfold isStorageLocked, getStorageLock_k, charge. apply safe_use, safe_get'. intros h Hh Hs.
    pose proof (memload_ok h (i32 keyOffset) (i32 keyLength) Hh (i32_range _) (i32_range _)). sf. congruence.
  - unfold getESDTValue, charge. apply safe_use, safe_get'. intros h Hh Hs. specialize (Hs eq_refl). cbv zeta. apply safe_store; [rng| |apply safe_ret].
    apply first_value with (h := h); [exact Hs|reflexivity].
  - unfold getCurrentESDTNFTNonce, charge. apply safe_use, safe_get'. intros h Hh Hs.
    pose proof (memload_ok h (i32 addressOffset) AddressLen Hh (i32_range _) ltac:(rng)). destruct (mem_load h _ _); [|apply safe_ret|congruence].
    apply safe_get'. intros h' Hh' Hs'. pose proof (memload_ok h' (i32 tokenIDOffset) (i32 tokenIDLen) Hh' (i32_range _) (i32_range _)).
    destruct (mem_load h' _ _); [|apply safe_ret|congruence]. sf.
  - unfold getCallValueTokenName, charge. apply safe_use, safe_get'. intros h Hh Hs. specialize (Hs eq_refl). cbv zeta. cbn [fst snd].
    apply safe_store; [rng|exact sm_nil|]. apply safe_store; [rng| |apply safe_ret]. apply pad_small, be_small. destruct (negb _); [apply sm_first, Hs|apply sm_value, Hs].
  - unfold getBlockRandomSeed, charge. apply safe_use, safe_store; [rng|apply Hooks|apply safe_ret].
  - unfold getStateRootHash, charge. apply safe_use, safe_store; [rng|apply Hooks|apply safe_ret].
  - unfold getPrevBlockRandomSeed, charge. apply safe_use, safe_store; [rng|apply Hooks|apply safe_ret].
  - sf. apply arg_unsigned.
  - sf. apply arg_signed.
  - sf. apply load_unsigned.
  - sf. apply load_signed.
  - sf. apply arg_signed.
  - sf. apply load_unsigned.
  - unfold bigIntGetESDTExternalBalance, charge. apply safe_use, safe_esdt; [rng..|]. intros t Ht. sf.
  - apply safe_op2. discriminate.
  - apply safe_op2. discriminate.
  - apply safe_op2. discriminate.
  - apply safe_op2. intros u v. unfold div_guard. destruct (_ =? _); discriminate.
  - apply safe_op2. intros u v. unfold div_guard. destruct (_ =? _); discriminate.
  - apply safe_op2. intros u v. unfold div_guard. destruct (_ =? _); discriminate.
  - apply safe_op2. intros u v. unfold div_guard. destruct (_ =? _); discriminate.
  - apply safe_op1. discriminate.
  - apply safe_op1. discriminate.
  - apply safe_op1. intros u. destruct (_ <? _); discriminate.
  - apply safe_op2. intros u v. unfold bit_guard. destruct (_ || _); discriminate.
  - apply safe_op2. intros u v. unfold bit_guard. destruct (_ || _); discriminate.
  - apply safe_op2. intros u v. unfold bit_guard. destruct (_ || _); discriminate.
  - apply safe_hash; rng.
  - apply safe_hash; rng.
  - apply safe_hash; rng.
  - unfold verifySecp256k1, charge. apply safe_use. destruct (_ && _); [apply safe_fault|]. apply safe_load; [rng..|]. intros key _. apply safe_use.
    apply safe_load; [rng..|]. intros msg _. apply safe_load; [rng|rng|]. intros hd Hhd. destruct hd as [|b0 [|b1 hd]]; [discriminate Hhd|discriminate Hhd|]. sf. discriminate Heqo.

Qed.

(** ** The calls with an unchecked index *)
Lemma safe_index c i : unchecked_index c = Some i -> 0 <= i -> safe true (api c).
Proof.
  intros Hc Hi. destruct c; try discriminate Hc; injection Hc as <-; unfold api.
  - unfold getReturnDataSize, charge. apply safe_use, safe_get'. intros h Hh Hs. destruct (Z.leb_spec (zlen (o_retdata (h_out h))) (i32 resultID)); [apply safe_ret|].
    destruct (index_in _ _ Hi H) as (x & -> & _). apply safe_ret.
  - unfold getReturnData, charge. apply safe_use, safe_get'. intros h Hh Hs. destruct (Z.leb_spec (zlen (o_retdata (h_out h))) (i32 resultID)); [apply safe_ret|].
    destruct (index_in _ _ Hi H) as (x & -> & Hx). apply safe_store; [rng|exact (sm_ret _ _ _ (Hs eq_refl) Hx)|apply safe_ret].
  - unfold bigIntGetUnsignedArgument, bigInt_argument, charge. apply safe_use, safe_get'. intros h Hh Hs. destruct (Z.leb_spec (zlen (vi_args (vm_in h))) (i32 id)); [apply safe_ret|].
    destruct (index_in _ _ Hi H) as (x & -> & _). sf.
  - unfold bigIntGetSignedArgument, bigInt_argument, charge. apply safe_use, safe_get'. intros h Hh Hs. destruct (Z.leb_spec (zlen (vi_args (vm_in h))) (i32 id)); [apply safe_ret|].
    destruct (index_in _ _ Hi H) as (x & -> & _). sf.
Qed.
End safe.

(** ** A negative index *)
Lemma zlen_nonneg {A} (l : list A) : Z.of_nat (length l) <= max_i32 -> 0 <= zlen l.
Proof. unfold zlen. intros H. rewrite i32_id; [lia|]. unfold in_i32, min_i32, max_i32 in *. lia. Qed.
Lemma panic_index `{E : env} ed es c i h : unchecked_index c = Some i -> i < 0 -> alive h ->
  Z.of_nat (length (o_retdata (h_out h))) <= max_i32 -> Z.of_nat (length (vi_args (r_input (h_rt h)))) <= max_i32 ->
  snd (run_cmd ed es (api c) h) = OPanic.
Proof.
  intros Hc Hi Hh Hr Ha. destruct (alive_run h Hh) as (j & x & Hx). apply zlen_nonneg in Hr. apply zlen_nonneg in Ha.
  destruct c; try discriminate Hc; injection Hc as <-; unfold api;
    [unfold getReturnDataSize|unfold getReturnData|unfold bigIntGetUnsignedArgument, bigInt_argument|unfold bigIntGetSignedArgument, bigInt_argument]; unfold charge;
    rewrite (run_use _ _ _ _ _ _ _ Hx), run_get; cbv beta.
  - change (o_retdata (h_out (with_inst _ _ h))) with (o_retdata (h_out h)). destruct (Z.leb_spec (zlen (o_retdata (h_out h))) (i32 resultID)); [lia|].
    unfold gindex. destruct (Z.ltb_spec (i32 resultID) 0); [reflexivity|lia].
  - change (o_retdata (h_out (with_inst _ _ h))) with (o_retdata (h_out h)). destruct (Z.leb_spec (zlen (o_retdata (h_out h))) (i32 resultID)); [lia|].
    unfold gindex. destruct (Z.ltb_spec (i32 resultID) 0); [reflexivity|lia].
  - change (vi_args (vm_in (with_inst _ _ h))) with (vi_args (r_input (h_rt h))). destruct (Z.leb_spec (zlen (vi_args (r_input (h_rt h)))) (i32 id)); [lia|].
    unfold gindex. destruct (Z.ltb_spec (i32 id) 0); [|lia]. unfold act. rewrite run_do. cbn [interp]. unfold big_op. destruct (big_get _ _); reflexivity.
  - change (vi_args (vm_in (with_inst _ _ h))) with (vi_args (r_input (h_rt h))). destruct (Z.leb_spec (zlen (vi_args (r_input (h_rt h)))) (i32 id)); [lia|].
    unfold gindex. destruct (Z.ltb_spec (i32 id) 0); [|lia]. unfold act. rewrite run_do. cbn [interp]. unfold big_op. destruct (big_get _ _); reflexivity.
Qed.

(** ** Calls that run no other code do not depend on it *)
Definition quiet_kind (k : kind) : bool := match k with KDest | KByCaller | KSame | KReadOnly | KESDT | KCreate => false | _ => true end.
Lemma interp_quiet `{E : env} ed es ed' es' {B} (p : prim B) h : quiet_kind (prim_kind p) = true -> interp ed es p h = interp ed' es' p h.
Proof. destruct p; try reflexivity; try discriminate. cbn. destruct byCaller; discriminate. Qed.
Lemma run_quiet `{E : env} ed es ed' es' c : cmd_all quiet_kind c -> forall h, run_cmd ed es c h = run_cmd ed' es' c h.
Proof.
  induction c as [r| |B p k IH]; intros Hc h; [reflexivity..|]. destruct Hc as [Hp Hk]. rewrite !run_do, (interp_quiet ed es ed' es' p h Hp).
  destruct (interp ed' es' p h) as [h' [b|er| |]]; [apply IH, Hk..|reflexivity|reflexivity].
Qed.
Lemma quiet_api `{E : env} c : executing c = false -> cmd_all quiet_kind (api c).
Proof.
  intros Hc. apply CellProofs.cmd_all_impl with (P := api_kind c); [|apply api_kinds].
  intros k Hk. destruct k; try reflexivity; destruct c; first [discriminate Hk|discriminate Hc].
Qed.

Lemma safe_checked `{E : env} ed es c h : hooks_return E -> (forall i g, alive g -> returns (ed i g)) ->
  (forall i g, alive g -> match es i g with (g', OOk _) | (g', OErr _) => alive g' | _ => False end) ->
  match unchecked_index c with Some i => 0 <= i | None => True end -> alive h -> small_host h -> returns (run_cmd ed es (api c) h).
Proof.
  intros Hk Hed Hes Hi Hh Hs.
  assert (Hed' : forall i, lv false (ed i)) by (intros i g Hg; specialize (Hed i g Hg); destruct (ed i g) as [g' []]; cbn in *; tauto).
  assert (Hes' : forall i, lv true (es i)) by (intros i g Hg; specialize (Hes i g Hg); destruct (es i g) as [g' []]; cbn in *; tauto).
  destruct (unchecked_index c) as [i|] eqn:Ei.
  - apply (safe_index ed es c i Ei Hi); auto.
  - apply (safe_api Hk ed es Hed' Hes' c Ei); auto.
Qed.
Lemma safe_quiet `{E : env} n c h : hooks_return E -> executing c = false ->
  match unchecked_index c with Some i => 0 <= i | None => True end -> alive h -> small_host h -> returns (vmApi n c h).
Proof.
  intros Hk Hc Hi Hh Hs. unfold vmApi. rewrite (run_quiet _ _ (fun _ => ret (None, None, None)) (fun _ => fail ErrNotEnoughGas) _ (quiet_api c Hc)).
  apply safe_checked; [exact Hk|intros _ g Hg; exact Hg..|exact Hi|exact Hh|exact Hs].
Qed.
