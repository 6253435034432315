(** A marshalizer for fields and a virtual machine, for the examples. *)
From Verif Require Import Base IpcModel IpcSpec IpcProofs ExIpc HookModel HookSpec HookProofs.
From stdpp Require Import gmap countable.
Local Open Scope Z_scope.

Local Instance stransfer_dec : EqDecision stransfer. Proof. solve_decision. Defined.
Local Instance gupdate_dec : EqDecision gupdate. Proof. solve_decision. Defined.
Local Instance saccount_dec : EqDecision saccount. Proof. solve_decision. Defined.
Local Instance soutput_dec : EqDecision soutput. Proof. solve_decision. Defined.
Local Instance maccount_dec : EqDecision maccount. Proof. solve_decision. Defined.
Local Instance fields_dec : EqDecision fields. Proof. solve_decision. Defined.

Local Instance stransfer_countable : Countable stransfer.
Proof.
  apply (inj_countable' (fun t => (st_value t, st_data t, st_limit t, st_locked t, st_ctype t, st_sender t))
    (fun '(a, b, c, d, e, f) => mkSTransfer a b c d e f)). intros []; done.
Defined.
Local Instance gupdate_countable : Countable gupdate.
Proof.
  apply (inj_countable' (fun t => (gu_offset t, gu_data t)) (fun '(a, b) => mkGUpdate a b)). intros []; done.
Defined.
Local Instance saccount_countable : Countable saccount.
Proof.
  apply (inj_countable'
    (fun t => (sa_address t, sa_nonce t, sa_balance t, sa_delta t, sa_updates t, sa_code t, sa_meta t, sa_gas t, sa_transfers t, sa_deployer t))
    (fun '(a, b, c, d, e, f, g, h, i, j) => mkSAccount a b c d e f g h i j)). intros []; done.
Defined.
Local Instance soutput_countable : Countable soutput.
Proof.
  apply (inj_countable'
    (fun t => (so_data t, so_code t, so_msg t, so_gas t, so_refund t, so_accounts t, so_deleted t, so_touched t, so_logs t))
    (fun '(a, b, c, d, e, f, g, h, i) => mkSOutput a b c d e f g h i)). intros []; done.
Defined.
Local Instance maccount_countable : Countable maccount.
Proof.
  apply (inj_countable'
    (fun t => (ma_nonce t, ma_balance t, ma_codehash t, ma_roothash t, ma_address t, ma_reward t, ma_owner t, ma_username t, ma_meta t))
    (fun '(a, b, c, d, e, f, g, h, i) => mkMAccount a b c d e f g h i)). intros []; done.
Defined.
Local Instance fields_countable : Countable fields.
Proof.
  apply (inj_countable'
    (fun f => match f with
      | FNone => inl (inl (inl (inl tt))) | FBytes a => inl (inl (inl (inr a)))
      | FBytes2 a b => inl (inl (inr (inl (a, b)))) | FNewAddress a n b => inl (inl (inr (inr (a, n, b))))
      | FToken a b n => inl (inr (inl (inl (a, b, n)))) | FNum n => inl (inr (inl (inr n)))
      | FFlag b => inl (inr (inr (inl b))) | FFound b d => inl (inr (inr (inr (b, d))))
      | FList l => inr (inl (inl l)) | FState s => inr (inl (inr s))
      | FAccount a => inr (inr (inl a)) | FOption d => inr (inr (inr (inl d)))
      | FOutput o => inr (inr (inr (inr o)))
      end)
    (fun x => match x with
      | inl (inl (inl (inl tt))) => FNone | inl (inl (inl (inr a))) => FBytes a
      | inl (inl (inr (inl (a, b)))) => FBytes2 a b | inl (inl (inr (inr (a, n, b)))) => FNewAddress a n b
      | inl (inr (inl (inl (a, b, n)))) => FToken a b n | inl (inr (inl (inr n))) => FNum n
      | inl (inr (inr (inl b))) => FFlag b | inl (inr (inr (inr (b, d)))) => FFound b d
      | inr (inl (inl l)) => FList l | inr (inl (inr s)) => FState s
      | inr (inr (inl a)) => FAccount a | inr (inr (inr (inl d))) => FOption d
      | inr (inr (inr (inr o))) => FOutput o
      end)). intros []; done.
Defined.

Fixpoint bits (p : positive) : bytes :=
  match p with
  | xH => []
  | xO p => Coq.Init.Byte.x00 :: bits p
  | xI p => Coq.Init.Byte.x01 :: bits p
  end.
Fixpoint unbits (b : bytes) : positive :=
  match b with
  | [] => xH
  | Coq.Init.Byte.x00 :: b => xO (unbits b)
  | _ :: b => xI (unbits b)
  end.
Lemma unbits_bits p : unbits (bits p) = p.
Proof. induction p as [p IH|p IH|]; cbn; [rewrite IH; done..|done]. Qed.

(** Writing %% for % and dropping single ones is enough for an example. *)
Fixpoint someErrorf (t : bytes) : bytes :=
  match t with
  | Coq.Init.Byte.x25 :: Coq.Init.Byte.x25 :: t => Coq.Init.Byte.x25 :: someErrorf t
  | Coq.Init.Byte.x25 :: t => someErrorf t
  | c :: t => c :: someErrorf t
  | [] => []
  end.
Lemma someErrorf_plain t : ~ In Coq.Init.Byte.x25 t -> someErrorf t = t.
Proof.
  induction t as [|c t IH]; intros H; [done|].
  assert (someErrorf t = t) as E by (apply IH; intros ?; apply H; right; done).
  destruct c; cbn; rewrite E; try done. exfalso. apply H. left. done.
Qed.

Definition somePack (f : fields) : bytes := bits (encode f).
Definition someUnpack (b : bytes) : option fields := decode (unbits b).
Lemma some_back f : True -> someUnpack (somePack f) = Some f.
Proof. intros _. unfold someUnpack, somePack. rewrite unbits_bits. apply decode_encode. Qed.

Definition some_outside : outside :=
  mkOutside (fun A m => reverse (map_to_list m)) (fun A m => reverse_Permutation _)
    somePack someUnpack (fun _ => True) some_back
    someErrorf someErrorf_plain (fun _ => str "pipe").

(** A machine that reads a cell and an account, and reports them. *)
Definition report (d : bytes) (h : handler) : goutput :=
  mkGOutput [d] 0 [] 5 None
    (<[ str "alice" := mkGAccount (str "alice") (uh_nonce h) (Some (uh_balance h)) (Some (-3))
          {[ str "k" := mkGUpdate (str "k") (str "new") ]} [] [] 7
          [mkGTransfer (Some 3) 0 0 (str "x") 0 (str "bob")] [] ]>
     {[ str "bob" := mkGAccount (str "bob") 0 None (Some 3) ∅ [] [] 0 [] [] ]}) [] [] [].
Lemma report_tidy d h : tidy (report d h).
Proof.
  unfold tidy, report. cbn [go_accounts]. intros k a Hk.
  apply lookup_insert_Some in Hk as [[<- <-]|[_ Hk]].
  - split; [done|]. intros s u. cbn [ga_updates]. rewrite lookup_singleton_Some.
    intros [<- <-]. done.
  - apply lookup_singleton_Some in Hk as [<- <-]. split; [done|]. intros s u.
    cbn [ga_updates]. rewrite lookup_empty. done.
Qed.
Definition reading : machine :=
  MAsk (HGetStorageData (str "alice") (str "k")) (fun d =>
  MAsk (HGetUserAccount (str "alice")) (fun h =>
  match d, h with
  | Good d, Good (Some h) => MDone (Good (Some (report d h)))
  | Bad e, _ => MDone (Bad e)
  | _, _ => MDone (Bad (str "no account"))
  end)).

(** A node that counts the questions. *)
Definition some_hook (q : hook_q) (w : nat) : nat * hook_ret q :=
  (S w,
   match q as q0 return hook_ret q0 with
   | HGetStorageData _ _ => Good (str "old")
   | HGetUserAccount a => Good (Some (mkHandler 4 100 [] [] a 0 [] [] []))
   | q => gateway_failed q (str "not here")
   end).
