(** What a setState step stores, and the checkState step that mirrors it. *)
From Verif Require Import Base ScenModel WorldModel WorldSpec SetSpec CheckProofs CodecProofs.
From stdpp Require Import gmap.
From Coq Require Import ZifyBool ZifyNat ZifyN.
Local Open Scope Z_scope.

Section Set_.
Context (W : wenv).

Definition tok_of (d : esdt_data) (i : esdt_inst) : token :=
  mkTok 0 (jz_value (ei_balance i)) (we_frozen W (0 <? ju_value (ed_frozen d)))
    (Some (mkTokMeta (ju_value (ei_nonce i)) (jb_value (ed_token d)) (jb_value (ei_creator i))
             (u32 (ju_value (ei_royalties i))) (jb_value (ei_hash i))
             [jt_value (ei_uri i)] (jb_value (ei_attributes i)))).
Notation name d := (jb_value (ed_token d)).
Definition tkey (d : esdt_data) (i : esdt_inst) : bytes := MakeTokenKey (name d) (ju_value (ei_nonce i)).
Definition nkey (d : esdt_data) : bytes := MakeLastNonceKey (name d).
Definition rkey (d : esdt_data) : bytes := MakeTokenRolesKey (name d).

Lemma put_instance_sto d a i : wa_storage (put_instance d a i) =
  <[nkey d := be_encode (ju_value (ed_last d))]> (<[tkey d i := we_marshal W (tok_of d i)]> (wa_storage a)).
Proof. reflexivity. Qed.
Lemma put_token_sto a d : wa_storage (put_token a d) =
  <[rkey d := we_marshal_roles W (ed_roles d)]> (wa_storage (fold_left (put_instance d) (ed_instances d) a)).
Proof. reflexivity. Qed.

(** The keys of the three kinds are different. *)
Lemma tn d i d' : tkey d i <> nkey d'.
Proof. unfold tkey, nkey, MakeTokenKey, MakeLastNonceKey. intros H. discriminate H. Qed.
Lemma tr d i d' : tkey d i <> rkey d'.
Proof. intros H. discriminate H. Qed.
Lemma nr d d' : nkey d <> rkey d'.
Proof. intros H. discriminate H. Qed.
Lemma nn d d' : nkey d = nkey d' -> name d = name d'.
Proof. unfold nkey, MakeLastNonceKey. intros H. apply app_inv_head in H. exact H. Qed.
Lemma rr d d' : rkey d = rkey d' -> name d = name d'.
Proof. unfold rkey, MakeTokenRolesKey. intros H. apply app_inv_head in H. exact H. Qed.

Definition writes (d : esdt_data) (k : bytes) : Prop :=
  (exists i, i ∈ ed_instances d /\ (k = tkey d i \/ k = nkey d)) \/ k = rkey d.

Lemma insts_frame d l : forall a k, (forall i, i ∈ l -> k <> tkey d i /\ k <> nkey d) ->
  wa_storage (fold_left (put_instance d) l a) !! k = wa_storage a !! k.
Proof.
  induction l as [|i l IH]; intros a k H; cbn [fold_left]; [reflexivity|].
  rewrite IH by (intros j Hj; apply H; right; exact Hj). destruct (H i ltac:(left)) as [H1 H2].
  rewrite put_instance_sto, !lookup_insert_ne by congruence. reflexivity.
Qed.
Lemma token_frame a d k : ~ writes d k -> wa_storage (put_token a d) !! k = wa_storage a !! k.
Proof.
  intros H. rewrite put_token_sto, lookup_insert_ne by (intros <-; apply H; right; reflexivity).
  apply insts_frame. intros i Hi. split; intros ->; apply H; left; exists i; auto.
Qed.
Lemma tokens_frame l : forall a k, (forall d, d ∈ l -> ~ writes d k) ->
  wa_storage (fold_left put_token l a) !! k = wa_storage a !! k.
Proof.
  induction l as [|d l IH]; intros a k H; cbn [fold_left]; [reflexivity|].
  rewrite IH by (intros e He; apply H; right; exact He). apply token_frame, H. left.
Qed.

(** Where a stored value comes from. *)
Lemma insts_origin d l : forall a k raw, wa_storage (fold_left (put_instance d) l a) !! k = Some raw ->
  wa_storage a !! k = Some raw \/
  exists i, i ∈ l /\ ((k = tkey d i /\ raw = we_marshal W (tok_of d i)) \/
                      (k = nkey d /\ raw = be_encode (ju_value (ed_last d)))).
Proof.
  induction l as [|i l IH]; intros a k raw H; cbn [fold_left] in H; [auto|].
  apply IH in H as [H|(j & Hj & H)]; [|right; exists j; split; [right; exact Hj|exact H]].
  rewrite put_instance_sto in H. destruct (decide (nkey d = k)) as [<-|H1].
  { rewrite lookup_insert in H. injection H as <-. right. exists i. split; [left|auto]. }
  rewrite lookup_insert_ne in H by exact H1. destruct (decide (tkey d i = k)) as [<-|H2].
  { rewrite lookup_insert in H. injection H as <-. right. exists i. split; [left|auto]. }
  rewrite lookup_insert_ne in H by exact H2. auto.
Qed.
Lemma tokens_origin l : forall a k raw, wa_storage (fold_left put_token l a) !! k = Some raw ->
  wa_storage a !! k = Some raw \/
  exists d, d ∈ l /\
   ((exists i, i ∈ ed_instances d /\ ((k = tkey d i /\ raw = we_marshal W (tok_of d i)) \/
                      (k = nkey d /\ raw = be_encode (ju_value (ed_last d))))) \/
    (k = rkey d /\ raw = we_marshal_roles W (ed_roles d))).
Proof.
  induction l as [|d l IH]; intros a k raw H; cbn [fold_left] in H; [auto|].
  apply IH in H as [H|(e & He & H)]; [|right; exists e; split; [right; exact He|exact H]].
  rewrite put_token_sto in H. destruct (decide (rkey d = k)) as [<-|H1].
  { rewrite lookup_insert in H. injection H as <-. right. exists d. split; [left|auto]. }
  rewrite lookup_insert_ne in H by exact H1.
  apply insts_origin in H as [H|H]; [auto|]. right. exists d. split; [left|auto].
Qed.

(** Each key holds what the last instance puts there. *)
Lemma insts_token d l i : last_with (fun i => ju_value (ei_nonce i)) l (ju_value (ei_nonce i)) i ->
  Forall sound_instance l ->
  forall a, wa_storage (fold_left (put_instance d) l a) !! tkey d i = Some (we_marshal W (tok_of d i)).
Proof.
  intros (b & t & -> & _ & Ht) Hs a. rewrite fold_left_app. cbn [fold_left].
  rewrite insts_frame.
  - rewrite put_instance_sto, lookup_insert_ne by (intros H; symmetry in H; exact (tn _ _ _ H)). apply lookup_insert.
  - intros j Hj. split; [|apply tn]. intros H. apply (Ht j Hj).
    unfold tkey, MakeTokenKey in H. do 2 apply app_inv_head in H.
    apply (f_equal be_decode) in H. rewrite !be_decode_encode in H.
    rewrite Forall_app, Forall_cons in Hs. destruct Hs as (_ & (_ & Hi & _) & Hs).
    rewrite Forall_forall in Hs. destruct (Hs j Hj) as (_ & Hjn & _). lia.
Qed.
Lemma insts_nonce d l : l <> [] -> forall a,
  wa_storage (fold_left (put_instance d) l a) !! nkey d = Some (be_encode (ju_value (ed_last d))).
Proof.
  intros Hl a. destruct (exists_last Hl) as (b & i & ->). rewrite fold_left_app. cbn [fold_left].
  rewrite put_instance_sto. apply lookup_insert.
Qed.

(** * One account *)
Section Account.
Context (HK : codec_keeps W).
Context (t : account) (HS : sound_account t) (a0 : waccount) (Ha0 : wa_storage a0 = storage_of (a_storage t)).
Let a := fold_left put_token (a_esdt t) a0.

Lemma base_reserved k : reserved k -> wa_storage a0 !! k = None.
Proof.
  intros Hr. rewrite Ha0. unfold storage_of.
  apply (last_map_none (fun kv : jbytes * jtree => jb_value (fst kv)) (fun kv => jt_value (snd kv))).
  intros y Hy <-. destruct HS as (H & _). exact (H y Hy Hr).
Qed.
Lemma token_of_name d d' : d ∈ a_esdt t -> d' ∈ a_esdt t -> name d = name d' -> d = d'.
Proof.
  intros Hd Hd' Hn. destruct HS as (_ & _ & Hnd & _).
  apply elem_of_list_lookup in Hd as [i Hi], Hd' as [j Hj].
  assert (i = j) as ->.
  { apply (NoDup_lookup _ i j (name d) Hnd); rewrite list_lookup_fmap; [rewrite Hi; reflexivity|rewrite Hj, Hn; reflexivity]. }
  congruence.
Qed.
Lemma split_token d : d ∈ a_esdt t -> exists pre post, a_esdt t = pre ++ d :: post /\
  (forall e, e ∈ post -> e ∈ a_esdt t /\ name e <> name d).
Proof.
  intros Hd. apply elem_of_list_split in Hd as (pre & post & He). exists pre, post. split; [exact He|].
  intros e Hin. assert (Hm : e ∈ a_esdt t) by (rewrite He; apply elem_of_app; right; right; exact Hin).
  split; [exact Hm|]. destruct HS as (_ & _ & Hnd & _). rewrite He, map_app in Hnd. cbn [map] in Hnd.
  apply NoDup_app in Hnd as (_ & _ & Hnd). apply NoDup_cons in Hnd as [Hno _].
  intros Heq. apply Hno. rewrite <- Heq. apply elem_of_list_fmap. exists e. auto.
Qed.
Lemma nonce_of d i : d ∈ a_esdt t -> i ∈ ed_instances d -> sound_instance i.
Proof.
  intros Hd Hi. destruct HS as (_ & Ht & _). rewrite Forall_forall in Ht. destruct (Ht d Hd) as [Hs _].
  rewrite Forall_forall in Hs. exact (Hs i Hi).
Qed.
Lemma apart d d' i i' : d ∈ a_esdt t -> d' ∈ a_esdt t -> i ∈ ed_instances d -> i' ∈ ed_instances d' ->
  tkey d i = tkey d' i' -> name d = name d' /\ ju_value (ei_nonce i) = ju_value (ei_nonce i').
Proof.
  intros Hd Hd' Hi Hi' H. destruct HS as (_ & _ & _ & Hap). unfold tkey, MakeTokenKey in H. apply app_inv_head in H.
  destruct (nonce_of d i Hd Hi) as (_ & Hn & _), (nonce_of d' i' Hd' Hi') as (_ & Hn' & _).
  apply (Hap d d' i i' (be_encode (ju_value (ei_nonce i))) (be_encode (ju_value (ei_nonce i')))); try assumption;
    apply nonce_bytes_iff; split; (lia || reflexivity).
Qed.

Lemma token_there d i : d ∈ a_esdt t -> last_with (fun i => ju_value (ei_nonce i)) (ed_instances d) (ju_value (ei_nonce i)) i ->
  wa_storage a !! tkey d i = Some (we_marshal W (tok_of d i)).
Proof.
  intros Hd Hl. unfold a. destruct (split_token d Hd) as (pre & post & He & Hpost).
  assert (Hi : i ∈ ed_instances d).
  { destruct Hl as (b & l & -> & _). apply elem_of_app. right. left. }
  rewrite He, fold_left_app. cbn [fold_left]. rewrite tokens_frame.
  - rewrite put_token_sto, lookup_insert_ne by (intros H; symmetry in H; exact (tr _ _ _ H)).
    apply insts_token; [exact Hl|]. destruct HS as (_ & Ht & _). rewrite Forall_forall in Ht. exact (proj1 (Ht d Hd)).
  - intros e Hin Hw. destruct (Hpost e Hin) as [Hm Hne]. destruct Hw as [(j & Hj & [Hk|Hk])|Hk].
    + destruct (apart d e i j Hd Hm Hi Hj Hk). congruence.
    + exact (tn _ _ _ Hk).
    + exact (tr _ _ _ Hk).
Qed.
Lemma nonce_there d : d ∈ a_esdt t -> ed_instances d <> [] ->
  wa_storage a !! nkey d = Some (be_encode (ju_value (ed_last d))).
Proof.
  intros Hd Hl. unfold a. destruct (split_token d Hd) as (pre & post & He & Hpost).
  rewrite He, fold_left_app. cbn [fold_left]. rewrite tokens_frame.
  - rewrite put_token_sto, lookup_insert_ne by (intros H; symmetry in H; exact (nr _ _ H)). apply insts_nonce, Hl.
  - intros e Hin Hw. destruct (Hpost e Hin) as [Hm Hne]. destruct Hw as [(j & Hj & [Hk|Hk])|Hk].
    + symmetry in Hk. exact (tn _ _ _ Hk).
    + apply nn in Hk. congruence.
    + exact (nr _ _ Hk).
Qed.
Lemma roles_there d : d ∈ a_esdt t -> wa_storage a !! rkey d = Some (we_marshal_roles W (ed_roles d)).
Proof.
  intros Hd. unfold a. destruct (split_token d Hd) as (pre & post & He & Hpost).
  rewrite He, fold_left_app. cbn [fold_left]. rewrite tokens_frame.
  - rewrite put_token_sto. apply lookup_insert.
  - intros e Hin Hw. destruct (Hpost e Hin) as [Hm Hne]. destruct Hw as [(j & Hj & [Hk|Hk])|Hk].
    + symmetry in Hk. exact (tr _ _ _ Hk).
    + symmetry in Hk. exact (nr _ _ Hk).
    + apply rr in Hk. congruence.
Qed.

(** The value under a token key, read from the other end. *)
Lemma token_origin rest raw : wa_storage a !! (str "ELRONDesdt" ++ rest) = Some raw ->
  exists d i, d ∈ a_esdt t /\ i ∈ ed_instances d /\ rest = name d ++ be_encode (ju_value (ei_nonce i)) /\
    raw = we_marshal W (tok_of d i).
Proof.
  intros H. apply tokens_origin in H as [H|(d & Hd & [(i & Hi & [[Hk ->]|[Hk _]])|[Hk _]])].
  - rewrite base_reserved in H; [discriminate|]. exists (str "esdt" ++ rest). reflexivity.
  - exists d, i. split; [exact Hd|]. split; [exact Hi|]. split; [|reflexivity].
    unfold tkey, MakeTokenKey, ESDTTokenKeyPrefix in Hk. apply app_inv_head in Hk. exact Hk.
  - discriminate Hk.
  - discriminate Hk.
Qed.
Lemma decoded d i : sound_instance i -> we_marshal W (tok_of d i) <> [] /\
  we_unmarshal W (we_marshal W (tok_of d i)) = Some (tok_of d i).
Proof.
  intros ((v & Hv & _) & Hn & _). apply (proj1 HK); [cbn; congruence|]. intros m [= <-]. exact Hn.
Qed.
Lemma last_of {A} (key : A -> Z) l x : x ∈ l -> exists y, last_with key l (key x) y.
Proof.
  intros Hx. assert (He : Exists (fun v => key v = key x) l) by (apply Exists_exists; exists x; auto).
  clear Hx. revert He. generalize (key x). intros k He.
  induction l as [|u l IH]; [inversion He|].
  destruct (decide (Exists (fun v => key v = k) l)) as [Hl|Hl].
  - destruct (IH Hl) as (y & b & p & -> & H2 & H3). exists y, (u :: b), p. auto.
  - exists u, [], l. split; [reflexivity|]. split; [inversion He; [assumption|contradiction]|].
    intros y Hy Hk. apply Hl, Exists_exists. exists y. auto.
Qed.

(** What the account holds. *)
Lemma holds_inv nm n v m : holds W a nm n v m -> exists d i, d ∈ a_esdt t /\
  last_with (fun i => ju_value (ei_nonce i)) (ed_instances d) n i /\ name d = nm /\
  jz_value (ei_balance i) = Some v /\
  (n = 0 -> m = mkTokMeta 0 nm [] 0 [] [] []) /\ (n <> 0 -> tk_meta (tok_of d i) = Some m).
Proof.
  intros (raw & tk & nb & Hnb & Hs & Hraw & Hu & Hv & Hpos & Hm).
  apply nonce_bytes_iff in Hnb as [Hn0 ->].
  destruct (token_origin _ _ Hs) as (d & i & Hd & Hi & Hrest & ->).
  pose proof (nonce_of d i Hd Hi) as Hsi. destruct (decoded d i Hsi) as [_ Hde].
  rewrite Hde in Hu. injection Hu as <-.
  assert (Hn : ju_value (ei_nonce i) = n).
  { destruct (Z.eqb_spec n 0) as [->|Hne].
    - destruct Hm as [Hm _]. apply (Hm _ eq_refl).
    - destruct Hm as [Hm Hn]. cbn in Hm. injection Hm as <-. exact Hn. }
  rewrite Hn in Hrest. apply app_inv_tail in Hrest.
  destruct (last_of (fun i => ju_value (ei_nonce i)) _ i Hi) as (j & Hj). rewrite Hn in Hj.
  exists d, j. split; [exact Hd|]. split; [exact Hj|]. split; [congruence|].
  assert (Hjn : ju_value (ei_nonce j) = n) by (destruct Hj as (? & ? & ? & ? & ?); assumption).
  assert (Hjk : tkey d j = tkey d i) by (unfold tkey; rewrite Hjn, Hn; reflexivity).
  assert (Htt := token_there d j Hd). cbv beta in Htt. rewrite Hjn in Htt. specialize (Htt Hj). rewrite Hjk in Htt.
  assert (Hti : wa_storage a !! tkey d i = Some (we_marshal W (tok_of d i))).
  { unfold tkey, MakeTokenKey, ESDTTokenKeyPrefix. rewrite Hn, <- Hrest. exact Hs. }
  rewrite Hti in Htt. apply (inj Some) in Htt.
  assert (Heq : tok_of d i = tok_of d j).
  { apply (inj Some). rewrite <- Hde, Htt. apply decoded. destruct Hj as (b & l & Hl & _). apply (nonce_of d j Hd). rewrite Hl. apply elem_of_app. right. left. }
  split; [|split].
  - rewrite <- Hv. rewrite Heq. reflexivity.
  - intros ->. exact (proj2 Hm).
  - intros Hne. destruct (Z.eqb_spec n 0) as [|_]; [contradiction|]. rewrite <- Heq. exact (proj1 Hm).
Qed.
Lemma holds_there d i n : d ∈ a_esdt t -> last_with (fun i => ju_value (ei_nonce i)) (ed_instances d) n i ->
  exists v m, holds W a (name d) n v m.
Proof.
  intros Hd Hl. assert (Hn : ju_value (ei_nonce i) = n) by (destruct Hl as (? & ? & ? & ? & ?); assumption).
  assert (Hi : i ∈ ed_instances d) by (destruct Hl as (b & l & -> & _); apply elem_of_app; right; left).
  pose proof (nonce_of d i Hd Hi) as Hsi. destruct (decoded d i Hsi) as [Hne Hde].
  destruct Hsi as ((v & Hv & Hpos) & Hr & _). subst n.
  exists v, (if ju_value (ei_nonce i) =? 0 then mkTokMeta 0 (name d) [] 0 [] [] [] else
     mkTokMeta (ju_value (ei_nonce i)) (jb_value (ed_token d)) (jb_value (ei_creator i))
             (u32 (ju_value (ei_royalties i))) (jb_value (ei_hash i))
             [jt_value (ei_uri i)] (jb_value (ei_attributes i))).
  exists (we_marshal W (tok_of d i)), (tok_of d i), (be_encode (ju_value (ei_nonce i))).
  split; [apply nonce_bytes_iff; split; [lia|reflexivity]|]. split; [exact (token_there d i Hd Hl)|].
  split; [exact Hne|]. split; [exact Hde|]. split; [exact Hv|]. split; [exact Hpos|].
  destruct (Z.eqb_spec (ju_value (ei_nonce i)) 0) as [Hz|Hz].
  - split; [|reflexivity]. intros m' [= <-]. exact Hz.
  - split; [reflexivity|]. reflexivity.
Qed.

Lemma mirror_last l n x : last_with (fun i => cu_value (xi_nonce i)) (map mirror_instance l) n x ->
  exists i, last_with (fun i => ju_value (ei_nonce i)) l n i /\ x = mirror_instance i.
Proof.
  intros (b & p & He & Hk & Hn). apply map_eq_app in He as (b' & q & -> & <- & Hq).
  destruct q as [|i p']; [discriminate|]. cbn in Hq. injection Hq as <- <-. exists i. split; [|reflexivity].
  exists b', p'. split; [reflexivity|]. split; [exact Hk|]. intros y Hy. apply (Hn (mirror_instance y)).
  apply elem_of_list_fmap. exists y. auto.
Qed.
Lemma mirror_last_token l nm x : last_with (fun d => jb_value (xe_token d)) (map mirror_token l) nm x ->
  exists d, d ∈ l /\ name d = nm /\ x = mirror_token d.
Proof.
  intros (b & p & He & Hk & _). assert (Hx : x ∈ map mirror_token l) by (rewrite He; apply elem_of_app; right; left).
  apply elem_of_list_fmap in Hx as (d & -> & Hd). exists d. auto.
Qed.

Lemma last_nonce_right d n : d ∈ a_esdt t -> last_nonce_of a (name d) n -> n = ju_value (ed_last d).
Proof.
  intros Hd (raw & Hst & ->). destruct HS as (_ & Ht & _). rewrite Forall_forall in Ht. destruct (Ht d Hd) as (_ & Hr & Hz).
  rewrite <- be_decode_value. destruct (decide (ed_instances d = [])) as [He|He].
  - rewrite (Hz He). assert (Hno : wa_storage a !! nkey d = None).
    { unfold a. destruct (wa_storage (fold_left put_token (a_esdt t) a0) !! nkey d) as [r|] eqn:Hk; [|reflexivity].
      apply tokens_origin in Hk as [Hk|(e & He' & [(i & Hi & [[Hk _]|[Hk _]])|[Hk _]])].
      - rewrite base_reserved in Hk; [discriminate|]. exists (str "nonce" ++ name d). reflexivity.
      - symmetry in Hk. destruct (tn _ _ _ Hk).
      - apply nn in Hk. assert (d = e) as <- by (apply token_of_name; assumption). rewrite He in Hi. inversion Hi.
      - destruct (nr _ _ Hk). }
    destruct Hst as [Hst|[_ ->]]; [|reflexivity]. change (wa_storage a !! nkey d = Some raw) in Hst. congruence.
  - pose proof (nonce_there d Hd He) as Hk. destruct Hst as [Hst|[Hst _]]; change (wa_storage a !! (str "ELRONDnonce" ++ name d)) with (wa_storage a !! nkey d) in Hst; [|congruence].
    rewrite Hk in Hst. injection Hst as <-. rewrite be_decode_encode. rewrite Z.abs_eq by lia. apply Z.mod_small. lia.
Qed.
Lemma roles_right d roles : d ∈ a_esdt t -> roles_of W a (name d) roles -> roles = ed_roles d.
Proof.
  intros Hd (raw & Hst & Hr). pose proof (roles_there d Hd) as Hk.
  destruct Hst as [Hst|[Hst _]]; change (wa_storage a !! (str "ELRONDroleesdt" ++ name d)) with (wa_storage a !! rkey d) in Hst; [|congruence].
  rewrite Hk in Hst. injection Hst as <-. destruct (proj2 HK (ed_roles d)) as [[He ->]|[Hne Hu]].
  - destruct Hr as [[_ ->]|[Hn _]]; [reflexivity|contradiction].
  - destruct Hr as [[He _]|[_ Hr]]; [contradiction|]. congruence.
Qed.

Lemma fits_mirror d : d ∈ a_esdt t -> token_fits W (name d) (mirror_token d) a.
Proof.
  intros Hd. split; [|split; [|split]].
  - intros n x Hl. apply mirror_last in Hl as (i & Hl & ->).
    assert (Hi : i ∈ ed_instances d) by (destruct Hl as (b & l & -> & _); apply elem_of_app; right; left).
    assert (Hn : ju_value (ei_nonce i) = n) by (destruct Hl as (? & ? & ? & ? & ?); assumption).
    split.
    + intros v m Hh. destruct (holds_inv _ _ _ _ Hh) as (d' & i' & Hd' & Hl' & Hnm & Hv & Hm0 & Hm).
      assert (d' = d) as -> by (apply token_of_name; assumption).
      assert (i' = i) as ->.
      { pose proof (proj1 (last_map_some (fun i => ju_value (ei_nonce i)) (fun i => i) (ed_instances d) n i)) as _.
        assert (H1 := proj2 (last_map_some (fun i => ju_value (ei_nonce i)) (fun i => i) (ed_instances d) n i)).
        assert (H2 := proj2 (last_map_some (fun i => ju_value (ei_nonce i)) (fun i => i) (ed_instances d) n i')).
        specialize (H1 (ex_intro _ i (conj Hl eq_refl))). specialize (H2 (ex_intro _ i' (conj Hl' eq_refl))). congruence. }
      destruct (nonce_of d i Hd Hi) as (_ & _ & Hroy & Hzero).
      destruct (decide (n = 0)) as [Hz|Hz].
      * rewrite (Hm0 Hz). rewrite Hz in Hn. destruct (Hzero Hn) as (Hc & Hr & Hh' & Hu' & Ha').
        split; [right; exact Hv|]. unfold mirror_instance, allows_bytes_if_given, allows_number_if_given, allows_bytes, allows_number. cbn.
        rewrite Hc, Hr, Hh', Hu', Ha'. repeat split; auto. exists []. split; [left; auto|auto].
      * specialize (Hm Hz). cbn in Hm. injection Hm as <-.
        split; [right; exact Hv|]. unfold mirror_instance, allows_bytes_if_given, allows_number_if_given, allows_bytes, allows_number. cbn.
        split; [auto|]. split; [right; right; symmetry; apply Z.mod_small; exact Hroy|]. split; [auto|]. split; [|auto].
        exists (jt_value (ei_uri i)). split; [right; reflexivity|auto].
    + intros Hno. destruct (holds_there d i n Hd Hl) as (v & m & Hh). destruct (Hno v m Hh).
  - intros n v m Hnone Hh. destruct (holds_inv _ _ _ _ Hh) as (d' & i' & Hd' & Hl' & Hnm & _).
    assert (d' = d) as -> by (apply token_of_name; assumption).
    apply (Hnone (mirror_instance i')).
    + apply elem_of_list_fmap. exists i'. split; [reflexivity|]. destruct Hl' as (b & l & -> & _). apply elem_of_app. right. left.
    + destruct Hl' as (? & ? & ? & Hk & _). exact Hk.
  - intros n Hn. right. cbn. symmetry. apply last_nonce_right; assumption.
  - intros roles Hr r. rewrite (roles_right d roles Hd Hr). reflexivity.
Qed.

Lemma tokens_mirror : tokens_as_declared W (mirror t) a.
Proof.
  right. split; [|split].
  - split.
    + intros rest raw Hs Hne. destruct (token_origin _ _ Hs) as (d & i & Hd & Hi & -> & ->).
      pose proof (nonce_of d i Hd Hi) as Hsi. exists (tok_of d i). split; [apply decoded, Hsi|].
      destruct Hsi as ((v & Hv & _) & Hn & _). split; [cbn; congruence|].
      intros m [= <-] _. exists (name d), (be_encode (ju_value (ei_nonce i))). split; [reflexivity|].
      apply nonce_bytes_iff. split; [cbn; lia|reflexivity].
    + intros nm raw Hs Hne Hu. apply tokens_origin in Hs as [Hs|(d & Hd & [(i & Hi & [[Hk _]|[Hk _]])|[Hk ->]])].
      * rewrite base_reserved in Hs; [discriminate|]. exists (str "roleesdt" ++ nm). reflexivity.
      * discriminate Hk.
      * discriminate Hk.
      * destruct (proj2 HK (ed_roles d)) as [[He _]|[_ He]]; congruence.
  - intros nm x Hl. apply mirror_last_token in Hl as (d & Hd & <- & ->). apply fits_mirror, Hd.
  - intros nm Hnone.
    assert (Hno : forall d, d ∈ a_esdt t -> name d <> nm).
    { intros d Hd. apply (Hnone (mirror_token d)). apply elem_of_list_fmap. exists d. auto. }
    split; [|split].
    + intros n v m Hh. destruct (holds_inv _ _ _ _ Hh) as (d & i & Hd & _ & Hnm & _). exact (Hno d Hd Hnm).
    + intros n (raw & Hst & ->). destruct Hst as [Hst|[_ ->]]; [|reflexivity].
      apply tokens_origin in Hst as [Hs|(d & Hd & [(i & Hi & [[Hk _]|[Hk _]])|[Hk _]])]; try discriminate Hk.
      * rewrite base_reserved in Hs; [discriminate|]. exists (str "nonce" ++ nm). reflexivity.
      * change (str "ELRONDnonce") with ESDTNonceKeyPrefix in Hk. unfold nkey, MakeLastNonceKey in Hk.
        apply app_inv_head in Hk. destruct (Hno d Hd). congruence.
    + intros roles (raw & Hst & Hr). destruct Hst as [Hst|[_ ->]]; [|destruct Hr as [[_ ->]|[? _]]; [reflexivity|contradiction]].
      apply tokens_origin in Hst as [Hs|(d & Hd & [(i & Hi & [[Hk _]|[Hk _]])|[Hk _]])]; try discriminate Hk.
      * rewrite base_reserved in Hs; [discriminate|]. exists (str "roleesdt" ++ nm). reflexivity.
      * change (str "ELRONDroleesdt") with ESDTRoleKeyPrefix in Hk. unfold rkey, MakeTokenRolesKey in Hk.
        apply app_inv_head in Hk. destruct (Hno d Hd). congruence.
Qed.

Lemma plain_key k : ~ reserved k -> wa_storage a !! k = wa_storage a0 !! k.
Proof.
  intros Hr. apply tokens_frame. intros d _ Hw. destruct Hw as [(i & _ & [->| ->])| ->]; apply Hr.
  - exists (str "esdt" ++ name d ++ be_encode (ju_value (ei_nonce i))). reflexivity.
  - exists (str "nonce" ++ name d). reflexivity.
  - exists (str "roleesdt" ++ name d). reflexivity.
Qed.
Lemma storage_mirror : storage_as_declared (mirror t) a.
Proof.
  right. intros k v Hr Hst.
  assert (Hk : wa_storage a !! k = storage_of (a_storage t) !! k) by (rewrite plain_key, Ha0; [reflexivity|exact Hr]).
  unfold storage_of in Hk. split.
  - intros d (b & p & He & Hkey & Hn). cbn [mirror x_storage] in He.
    apply map_eq_app in He as (b' & q & Hq1 & <- & Hq). destruct q as [|kv p']; [discriminate|]. cbn in Hq. injection Hq as <- <-.
    assert (Hl : fold_left (fun m kv => <[jb_value (fst kv) := jt_value (snd kv)]> m) (a_storage t) (∅ : gmap bytes bytes) !! k = Some (jt_value (snd kv))).
    { apply (last_map_some (fun kv : jbytes * jtree => jb_value (fst kv)) (fun kv => jt_value (snd kv))).
      exists kv. split; [|reflexivity]. exists b', p'. split; [exact Hq1|]. split; [exact Hkey|].
      intros y Hy. apply (Hn (fst y, exact_bytes (jt_value (snd y)))). apply elem_of_list_fmap. exists y. auto. }
    rewrite Hl in Hk. right. cbn. destruct Hst as [Hst|[Hst _]]; congruence.
  - intros Hnone. right.
    assert (Hl : fold_left (fun m kv => <[jb_value (fst kv) := jt_value (snd kv)]> m) (a_storage t) (∅ : gmap bytes bytes) !! k = None).
    { apply (last_map_none (fun kv : jbytes * jtree => jb_value (fst kv)) (fun kv => jt_value (snd kv))).
      intros y Hy. apply (Hnone (fst y, exact_bytes (jt_value (snd y)))). cbn. apply elem_of_list_fmap. exists y. auto. }
    rewrite Hl in Hk. destruct Hst as [Hst|[_ Hst]]; [congruence|exact Hst].
Qed.
End Account.

(** The other fields are those of the step. *)
Definition same_fields (a b : waccount) : Prop :=
  wa_address a = wa_address b /\ wa_nonce a = wa_nonce b /\ wa_balance a = wa_balance b /\
  wa_username a = wa_username b /\ wa_code a = wa_code b /\ wa_async a = wa_async b.
Lemma insts_fields d l : forall a, same_fields (fold_left (put_instance d) l a) a.
Proof.
  induction l as [|i l IH]; intros a; cbn [fold_left]; [repeat split|].
  unfold same_fields. destruct (IH (put_instance d a i)) as (-> & -> & -> & -> & -> & ->). repeat split.
Qed.
Lemma tokens_fields l : forall a, same_fields (fold_left put_token l a) a.
Proof.
  induction l as [|d l IH]; intros a; cbn [fold_left]; [repeat split|].
  unfold same_fields. destruct (IH (put_token a d)) as (-> & -> & -> & -> & -> & ->).
  destruct (insts_fields d (ed_instances d) a) as (H1 & H2 & H3 & H4 & H5 & H6). repeat split; assumption.
Qed.

Lemma convert_mirror t a : codec_keeps W -> sound_account t -> convertAccount t = SOk a ->
  account_as_declared W (mirror t) a /\ wa_address a = jb_value (a_address t).
Proof.
  intros HK HS H. unfold convertAccount in H. destruct (length _ =? 32)%nat; [|discriminate].
  destruct (jz_value (a_balance t)) as [z|] eqn:Hz; [|discriminate]. injection H as <-.
  match goal with |- account_as_declared _ _ (fold_left _ _ ?x) /\ _ => set (a0 := x) end.
  assert (Ha0 : wa_storage a0 = storage_of (a_storage t)) by reflexivity.
  destruct (tokens_fields (a_esdt t) a0) as (H1 & H2 & H3 & H4 & H5 & H6).
  split; [|rewrite H1; reflexivity].
  unfold account_as_declared. rewrite H1, H2, H3, H4, H5, H6.
  split; [reflexivity|]. split; [right; reflexivity|]. split; [right; cbn; exact Hz|]. split; [right; reflexivity|].
  split; [right; reflexivity|]. split; [right; right; reflexivity|].
  split; [exact (storage_mirror t a0 Ha0)|exact (tokens_mirror HK t HS a0 Ha0)].
Qed.

(** * The two steps *)
Lemma put_other l : forall m m' addr, put_accounts l m = (m', SOk tt) ->
  (forall t, t ∈ l -> jb_value (a_address t) <> addr) -> Forall sound_account l -> codec_keeps W ->
  m' !! addr = m !! addr.
Proof.
  induction l as [|t l IH]; intros m m' addr H Hn HS HK; cbn [put_accounts] in H; [congruence|].
  destruct (convertAccount t) as [a| |] eqn:Hc; try discriminate. destruct (Validate a); [|discriminate].
  inversion HS as [|? ? HSt HSl]; subst.
  rewrite (IH _ _ addr H (fun u Hu => Hn u (elem_of_list_further _ _ _ Hu)) HSl HK).
  destruct (convert_mirror t a HK HSt Hc) as [_ Ha]. apply lookup_insert_ne. rewrite Ha. apply Hn. left.
Qed.
Lemma put_all l : forall m m', put_accounts l m = (m', SOk tt) ->
  NoDup (map (fun t => jb_value (a_address t)) l) -> Forall sound_account l -> codec_keeps W ->
  forall t, t ∈ l -> exists a, m' !! jb_value (a_address t) = Some a /\ account_as_declared W (mirror t) a.
Proof.
  induction l as [|u l IH]; intros m m' H Hnd HS HK t Ht; [inversion Ht|]. cbn [put_accounts] in H.
  destruct (convertAccount u) as [a| |] eqn:Hc; try discriminate. destruct (Validate a); [|discriminate].
  inversion HS as [|? ? HSu HSl]; subst. cbn [map] in Hnd. apply NoDup_cons in Hnd as [Hno Hnd].
  inversion Ht as [|? ? ? Hin]; subst.
  - destruct (convert_mirror u a HK HSu Hc) as [Hd Ha]. exists a. split; [|exact Hd].
    rewrite (put_other l _ _ _ H); [rewrite Ha; apply lookup_insert| |exact HSl|exact HK].
    intros v Hv Heq. apply Hno. rewrite <- Heq. apply elem_of_list_fmap. exists v. auto.
  - exact (IH _ _ H Hnd HSl HK t Hin).
Qed.

Lemma set_check c c' l prev cur hashes mocks g w w' more :
  codec_ok W -> codec_keeps W -> Forall sound_account l -> NoDup (map (fun t => jb_value (a_address t)) l) ->
  more = true \/ mw_accts w = ∅ ->
  ExecuteStep g (SetState c l prev cur hashes mocks) w = (w', SOk tt) ->
  ExecuteStep g (CheckState c' (Some (mkCheckAccounts (map mirror l) more))) w' = (w', SOk tt).
Proof.
  intros HW HK HS Hnd Hmore H. rewrite check_step. f_equal. apply (accounts_ok W HW).
  cbn [ExecuteStep] in H. unfold ExecuteSetStateStep in H.
  destruct (put_accounts l (mw_accts w)) as [m [[]| |]] eqn:Hp; try discriminate H.
  assert (Hm : mw_accts w' = m) by (destruct (forallb _ mocks); [injection H as <-; reflexivity|discriminate]).
  rewrite Hm. split.
  - intros x Hx. cbn [xs_accounts] in Hx. apply elem_of_list_fmap in Hx as (t & -> & Ht).
    exact (put_all l _ _ Hp Hnd HS HK t Ht).
  - destruct Hmore as [-> |He]; [left; reflexivity|right]. intros addr a Ha. cbn [xs_accounts].
    destruct (decide (Exists (fun t => jb_value (a_address t) = addr) l)) as [Hex|Hex].
    + apply Exists_exists in Hex as (t & Ht & Heq). exists (mirror t). split; [|exact Heq]. apply elem_of_list_fmap. exists t. auto.
    + rewrite (put_other l _ _ addr Hp) in Ha; [rewrite He, lookup_empty in Ha; discriminate| |exact HS|exact HK].
      intros t Ht Heq. apply Hex, Exists_exists. exists t. auto.
Qed.
End Set_.
