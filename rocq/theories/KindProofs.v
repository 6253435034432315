(** Which host operations each API function uses. *)
From Verif Require Import VmModel WpProofs EffProofs EffFrameProofs EffWalkProofs EffTopProofs CallSpec KeepProofs InvSpec.

Inductive kind := KPlain | KBig | KLoad | KOut | KStore | KLock | KTransfer | KAsync | KDest | KByCaller | KSame | KReadOnly | KESDT | KCreate.
Definition prim_kind {B} (p : prim B) : kind :=
  match p with
  | QGet _ | QUseGas _ | QMemStore _ _ | QFault _ | QSignal _ | QBreak _ => KPlain
  | QBigPut _ | QBigGet _ | QBigSet _ _ => KBig
  | QSetStorage _ _ => KStore
  | QSetTimeLock _ _ => KLock
  | QGetStorage _ | QGetStorageUnmetered _ | QGetStorageFrom _ _ | QBalance _ | QGetCode _ => KLoad
  | QFinish _ | QWriteLog _ _ => KOut
  | QTransfer _ _ _ _ => KTransfer
  | QAddAsync _ _ | QAsyncCallback _ _ | QAsyncCall _ _ _ => KAsync
  | QExecDest byC _ _ _ _ _ => if byC then KByCaller else KDest
  | QExecSame _ _ _ _ _ => KSame
  | QExecReadOnly _ _ _ _ => KReadOnly
  | QESDTExecute _ _ _ _ _ _ _ => KESDT
  | QCreate _ _ _ _ _ => KCreate
  end.
Definition api_kind (c : api_call) (k : kind) : bool :=
  match k with
  | KPlain => true
  | KBig => match c with
      | A_storageStore _ _ _ _ | A_transferValueExecute _ _ _ _ _ _ _ _ | A_transferValue _ _ _ _
      | A_transferESDTExecute _ _ _ _ _ _ _ _ _ _ | A_transferESDTNFTExecute _ _ _ _ _ _ _ _ _ _ _
      | A_executeOnSameContext _ _ _ _ _ _ _ _ | A_executeOnDestContext _ _ _ _ _ _ _ _ | A_delegateExecution _ _ _ _ _ _ _
      | A_executeOnDestContextByCaller _ _ _ _ _ _ _ _ | A_executeReadOnly _ _ _ _ _ _ _
      | A_createContract _ _ _ _ _ _ _ _ _ | A_deployFromSourceContract _ _ _ _ _ _ _ _ => false | _ => true end
  | KLoad => match c with
      | A_executeOnSameContext _ _ _ _ _ _ _ _ | A_executeOnDestContext _ _ _ _ _ _ _ _ | A_delegateExecution _ _ _ _ _ _ _
      | A_executeOnDestContextByCaller _ _ _ _ _ _ _ _ | A_executeReadOnly _ _ _ _ _ _ _ => false | _ => true end
  | KOut => match c with
      | A_executeOnSameContext _ _ _ _ _ _ _ _ | A_executeOnDestContext _ _ _ _ _ _ _ _ | A_delegateExecution _ _ _ _ _ _ _
      | A_executeOnDestContextByCaller _ _ _ _ _ _ _ _ | A_executeReadOnly _ _ _ _ _ _ _ => false | _ => true end
  | KStore => match c with A_storageStore _ _ _ _ | A_smallIntStorageStoreUnsigned _ _ _ | A_smallIntStorageStoreSigned _ _ _
      | A_int64storageStore _ _ _ | A_bigIntStorageStoreUnsigned _ _ _ => true | _ => false end
  | KLock => match c with A_setStorageLock _ _ _ | A_clearStorageLock _ _ => true | _ => false end
  | KTransfer => match c with A_transferValue _ _ _ _ | A_transferValueExecute _ _ _ _ _ _ _ _ => true | _ => false end
  | KAsync => match c with A_asyncCall _ _ _ _ | A_createAsyncCall _ _ _ _ _ _ _ _ _ _ _ | A_setAsyncContextCallback _ _ _ _
      | A_upgradeContract _ _ _ _ _ _ _ _ _ | A_upgradeFromSourceContract _ _ _ _ _ _ _ _ => true | _ => false end
  | KDest => match c with A_executeOnDestContext _ _ _ _ _ _ _ _ | A_transferValueExecute _ _ _ _ _ _ _ _ => true | _ => false end
  | KByCaller => match c with A_executeOnDestContextByCaller _ _ _ _ _ _ _ _ => true | _ => false end
  | KSame => match c with A_executeOnSameContext _ _ _ _ _ _ _ _ | A_delegateExecution _ _ _ _ _ _ _ => true | _ => false end
  | KReadOnly => match c with A_executeReadOnly _ _ _ _ _ _ _ => true | _ => false end
  | KESDT => match c with A_transferESDTExecute _ _ _ _ _ _ _ _ _ _ | A_transferESDTNFTExecute _ _ _ _ _ _ _ _ _ _ _ => true | _ => false end
  | KCreate => match c with A_createContract _ _ _ _ _ _ _ _ _ | A_deployFromSourceContract _ _ _ _ _ _ _ _ => true | _ => false end
  end.

Fixpoint cmd_all (P : kind -> bool) (c : cmd) : Prop :=
  match c with CRet _ => True | CPanic => True | CDo p k => P (prim_kind p) = true /\ forall x, cmd_all P (k x) end.

Section kinds.
Context `{E : env} (P : kind -> bool) (HP : P KPlain = true).
Lemma all_do {B} (p : prim B) k : P (prim_kind p) = true -> (forall x, cmd_all P (k x)) -> cmd_all P (CDo p k).
Proof. split; assumption. Qed.
Lemma all_act {B} (p : prim B) k : P (prim_kind p) = true -> (forall b, cmd_all P (k b)) -> cmd_all P (act p k).
Proof. intros H1 H2. split; [exact H1|]. intros [b|]; [apply H2|exact I]. Qed.
Lemma all_get {B} (f : host -> B) k : (forall b, cmd_all P (k b)) -> cmd_all P (get f k).
Proof. apply all_act. exact HP. Qed.
Lemma all_fault e r : cmd_all P (fault e r).
Proof. apply all_act; [exact HP|]. intros; exact I. Qed.
Lemma all_or_fault {B} (p : prim B) r k : P (prim_kind p) = true -> (forall b, cmd_all P (k b)) -> cmd_all P (or_fault p r k).
Proof. intros H1 H2. split; [exact H1|]. intros [b|]; [apply H2|apply all_fault]. Qed.
Lemma all_res {B} (x : res B) r k : (forall b, cmd_all P (k b)) -> cmd_all P (res_or_fault x r k).
Proof. intros H. destruct x; [apply H|apply all_fault|exact I]. Qed.
Lemma all_load o l r k : (forall b, cmd_all P (k b)) -> cmd_all P (load o l r k).
Proof. intros H. apply all_get. intros b. apply all_res, H. Qed.
Lemma all_store o d r k : cmd_all P k -> cmd_all P (store o d r k).
Proof. intros H. apply all_or_fault; [exact HP|]. intros _. exact H. Qed.
Lemma all_use g k : cmd_all P k -> cmd_all P (use g k).
Proof. intros H. apply all_act; [exact HP|]. intros _. exact H. Qed.
Lemma all_args a b c k : (forall x, cmd_all P (k x)) -> cmd_all P (get_args a b c k).
Proof. apply all_get. Qed.
Lemma all_extract v a b c d e f i r k : (forall x, cmd_all P (k x)) -> cmd_all P (extract v a b c d e f i r k).
Proof. intros H. apply all_get. intros x. apply all_res. intros y. apply all_use, H. Qed.
Lemma all_topics ptr n : forall i acc k, (forall l, cmd_all P (k l)) -> cmd_all P (load_topics ptr n i acc k).
Proof. induction n as [|n IH]; intros i acc k Hk; [apply Hk|]. apply all_load. intros t. apply IH, Hk. Qed.
Lemma all_extra vs k : cmd_all P k -> cmd_all P (extra_gas vs k).
Proof. intros Hk. induction vs as [|v vs IH]; cbn [extra_gas]; [exact Hk|]. destruct (_ <? _); [apply all_use|]; exact IH. Qed.
End kinds.

Ltac ck := repeat (intros;
  lazymatch goal with
  | |- cmd_all _ (CRet _) => exact I
  | |- cmd_all _ CPanic => exact I
  | |- cmd_all _ (CDo _ _) => apply all_do; [reflexivity|]
  | |- cmd_all _ (act _ _) => apply all_act; [reflexivity|]
  | |- cmd_all _ (get _ _) => apply all_get; [reflexivity|]
  | |- cmd_all _ (fault _ _) => apply all_fault; reflexivity
  | |- cmd_all _ (or_fault _ _ _) => apply all_or_fault; [reflexivity|reflexivity|]
  | |- cmd_all _ (res_or_fault _ _ _) => apply all_res; [reflexivity|]
  | |- cmd_all _ (load _ _ _ _) => apply all_load; [reflexivity|]
  | |- cmd_all _ (store _ _ _ _) => apply all_store; [reflexivity|]
  | |- cmd_all _ (use _ _) => apply all_use; [reflexivity|]
  | |- cmd_all _ (get_args _ _ _ _) => apply all_args; [reflexivity|]
  | |- cmd_all _ (extract _ _ _ _ _ _ _ _ _ _) => apply all_extract; [reflexivity|]
  | |- cmd_all _ (load_topics _ _ _ _ _) => apply all_topics; [reflexivity|]
  | |- cmd_all _ (extra_gas _ _) => apply all_extra; [reflexivity|]
  | |- cmd_all _ (if ?b then _ else _) => destruct b
  | |- cmd_all _ (match ?b with _ => _ end) => destruct b
  | |- cmd_all _ (let _ := _ in _) => cbv zeta
  | |- cmd_all _ ?c => let g := head_of c in unfold g
  end).
Lemma api_kinds `{E : env} c : cmd_all (api_kind c) (api c).
Proof. destruct c; unfold api; try (ck; fail).
Qed.
