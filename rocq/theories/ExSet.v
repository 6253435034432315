(** Accounts for the examples on setState steps. *)
From Verif Require Import Base ScenModel WorldModel WorldSpec SetSpec ExWorld CodecProofs CheckProofs.
From stdpp Require Import gmap.
Local Open Scope Z_scope.

Lemma machine_keeps t c : codec_keeps (machine t c).
Proof.
  split.
  - intros tk _ Hn. split; [|apply token_back, Hn]. cbn. unfold put_token_bytes, put_Z. discriminate.
  - intros l. destruct l as [|r l]; [left; auto|right]. apply (roles_back (r :: l)). discriminate.
Qed.

(** Alice, with nothing but tokens. *)
Definition with_tokens (l : list esdt_data) : account :=
  mkAccount (jb alice) (ju 0) [] (ju 3) (jz 1000) (jb (str "al")) [] (jb []) (jb []) [] l.
Definition plain_instance (nonce amount : Z) : esdt_inst :=
  mkEsdtInst (ju nonce) (jz amount) (jb []) (ju 0) (jb []) (jt []) (jb []).

Lemma gems_sound : sound_token gems.
Proof.
  split; [|split; [cbn; lia|discriminate]]. repeat apply Forall_cons_2; [| |apply Forall_nil_2].
  - split; [exists 50; split; [reflexivity|lia]|]. cbn. split; [lia|]. split; [lia|]. auto.
  - split; [exists 2; split; [reflexivity|lia]|]. cbn. split; [lia|]. split; [lia|]. discriminate.
Qed.
Lemma gems_apart : told_apart [gems].
Proof.
  intros d d' i i' nb nb' Hd Hd' Hi Hi' Hnb Hnb' H.
  apply elem_of_list_singleton in Hd as ->. apply elem_of_list_singleton in Hd' as ->. split; [reflexivity|].
  apply app_inv_head in H. apply nonce_bytes_iff in Hnb as [? ->]. apply nonce_bytes_iff in Hnb' as [? ->].
  apply (f_equal be_decode) in H. rewrite !be_decode_encode in H. lia.
Qed.
Lemma accounts_sound : Forall sound_account the_accounts.
Proof.
  repeat apply Forall_cons_2; [| | |apply Forall_nil_2]; cbn [the_accounts];
    (split; [|split; [|split]]); cbn [a_storage a_esdt map].
  - intros kv Hkv. inversion Hkv.
  - apply Forall_cons_2; [apply gems_sound|apply Forall_nil_2].
  - apply NoDup_singleton.
  - apply gems_apart.
  - intros kv Hkv. inversion Hkv.
  - apply Forall_nil_2.
  - apply NoDup_nil_2.
  - intros d d' i i' nb nb' Hd. inversion Hd.
  - intros kv Hkv. apply elem_of_list_singleton in Hkv as ->. intros [rest H]. discriminate H.
  - apply Forall_nil_2.
  - apply NoDup_nil_2.
  - intros d d' i i' nb nb' Hd. inversion Hd.
Qed.
Lemma accounts_nodup : NoDup (map (fun t => jb_value (a_address t)) the_accounts).
Proof. apply (bool_decide_unpack _). vm_compute. exact I. Qed.
