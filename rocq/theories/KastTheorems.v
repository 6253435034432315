(** C90: what K is given for a scenario file. *)
From Verif Require Import Base JsonModel JsonSpec JsonProofs JsonParseProofs JsonPrintProofs KastModel KastSpec KastProofs ExKast.
From stdpp Require Import list.

(** C90: two files give the same text exactly if they say the same, once code is
    assembled. *)
Theorem C90_faithful :
  forall f data data' j j',
  (forall s, quotable s -> quotable (f s)) ->
  ParseOrderedJSON data = JOk (Some j) -> ParseOrderedJSON data' = JOk (Some j') ->
  (ConvertOrderedJSONToKast f data = ConvertOrderedJSONToKast f data' <->
   processTestCode f j = processTestCode f j').
Proof. exact convert_once. Qed.
Print Assumptions C90_faithful.

Example C90_faithful_ex :
  (forall s, quotable s -> quotable (assembled s)) /\
  (exists j, ParseOrderedJSON deploy_file = JOk (Some j)) /\ (exists j, ParseOrderedJSON other_file = JOk (Some j)) /\
  ParseOrderedJSON deploy_file <> ParseOrderedJSON other_file /\
  ConvertOrderedJSONToKast assembled deploy_file = ConvertOrderedJSONToKast assembled other_file.
Proof.
  split.
  - intros s _. apply quotable_inside. vm_compute. intuition discriminate.
  - split; [eexists; vm_compute; reflexivity|]. split; [eexists; vm_compute; reflexivity|].
    split; [vm_compute; discriminate|vm_compute; reflexivity].
Qed.

(** C90: without assembling, exactly if they say the same. *)
Theorem C90_same :
  forall data data' j j',
  ParseOrderedJSON data = JOk (Some j) -> ParseOrderedJSON data' = JOk (Some j') ->
  (ConvertOrderedJSONToKast (fun s => s) data = ConvertOrderedJSONToKast (fun s => s) data' <-> j = j').
Proof. exact convert_same. Qed.
Print Assumptions C90_same.

Example C90_same_ex :
  ParseOrderedJSON deploy_file = JOk (Some deploy_json) /\
  ParseOrderedJSON (JSONString deploy_json) = JOk (Some deploy_json) /\ JSONString deploy_json <> deploy_file.
Proof. split; [|split]; vm_compute; [reflexivity|reflexivity|discriminate]. Qed.

(** C90: every file that can be parsed is converted, no other is. *)
Theorem C90_total :
  forall f data, ConvertOrderedJSONToKast f data <> KPanic /\
  ((exists text, ConvertOrderedJSONToKast f data = KOk text) <-> exists j, lax_document data j).
Proof.
  intros f data. split; [apply convert_total|]. split.
  - intros [text H]. apply convert_ok in H as (j & H & _). apply parse_exact in H as (v & [= <-] & H). eauto.
  - intros [j H]. exists (writeKast (processTestCode f j)). apply convert_ok. exists j. split; [|reflexivity].
    apply parse_exact. eauto.
Qed.
Print Assumptions C90_total.

Example C90_total_ex :
  (exists text, ConvertOrderedJSONToKast assembled deploy_file = KOk text) /\
  ConvertOrderedJSONToKast assembled (str "{""a"": }") = KErr EMisplaced.
Proof. split; [eexists; vm_compute; reflexivity|vm_compute; reflexivity]. Qed.

(** C90: the string at a place of code is replaced by what the callback makes of
    it; everything else stays as it is: the same strings and booleans at the same
    places, lists of the same length, maps with the same keys. *)
Theorem C90_code :
  forall f j p v, value_at p j = Some v ->
  (forall s, code_at p j -> v = JStr s -> value_at p (processTestCode f j) = Some (JStr (f s))) /\
  (code_at p j -> (forall s, v <> JStr s) -> value_at p (processTestCode f j) = Some v) /\
  (~ code_at p j -> exists v', value_at p (processTestCode f j) = Some v' /\ same_shape v v').
Proof.
  intros f j p v Hv. split; [|split].
  - intros s Hc ->. exact (code_replaced f p j s Hc Hv).
  - intros Hc Hs. exact (code_not_string f p j v Hv Hs Hc).
  - intros Hc. exact (rest_kept f p j v Hv Hc).
Qed.
Print Assumptions C90_code.

Example C90_code_ex :
  value_at [0%nat; 1%nat] deploy_json = Some (JStr (str "a.wasm")) /\ code_at [0%nat; 1%nat] deploy_json /\
  value_at [1%nat] deploy_json = Some (JStr (str "c")) /\ ~ code_at [1%nat] deploy_json /\
  value_at [0%nat; 2%nat] deploy_json = Some (JList [JStr (str "b")]) /\ code_at [0%nat; 2%nat] deploy_json.
Proof.
  assert (Htx : ~ code_key [(str "tx", JMap [(str "to", JStr []); (str "contractCode", JStr (str "a.wasm"));
      (str "code", JList [JStr (str "b")])]); (str "contractCode", JStr (str "c")); (str "code", JStr (str "d"))] (str "tx")).
  { intros [H | [H _]]; discriminate H. }
  split; [reflexivity|]. split.
  - eapply ca_map; [reflexivity|exact Htx|]. eapply ca_here; [reflexivity|]. right. split; [reflexivity|left].
  - split; [reflexivity|]. split.
    + intros H. inversion H as [m i k v Hi Hk | m i k v p Hi Hk Hp | ]; subst; [|inversion Hp].
      injection Hi as <- <-. destruct Hk as [Hk | [_ Hk]]; [discriminate Hk|].
      repeat (apply elem_of_cons in Hk as [Hk | Hk]; [discriminate Hk|]). inversion Hk.
    + split; [reflexivity|]. eapply ca_map; [reflexivity|exact Htx|]. eapply ca_here; [reflexivity|]. left. reflexivity.
Qed.

(** C90: K reads the strings of the file, if they have neither quotes nor
    backslashes. *)
Theorem C90_read_partial : forall s, plain s -> read_string_token (writeKast (JStr s)) = Some s.
Proof. exact read_token. Qed.
Print Assumptions C90_read_partial.

Example C90_read_partial_ex : plain (str "0x12, {(#)}").
Proof. repeat (constructor; [split; discriminate|]). constructor. Qed.

(** C90: it cannot read a string with an escaped quote, and loses an escaped
    backslash. *)
Theorem C90_escape_refuted :
  exists data data' text text',
    ParseOrderedJSON data = JOk (Some (JStr (str "a\""b"))) /\
    ConvertOrderedJSONToKast (fun s => s) data = KOk text /\ read_string_token text = None /\
    ParseOrderedJSON data' = JOk (Some (JStr (str "a\\b"))) /\
    ConvertOrderedJSONToKast (fun s => s) data' = KOk text' /\ read_string_token text' = Some (str "ab").
Proof.
  exists (str """a\""b"""), (str """a\\b""").
  exists (writeKast (JStr (str "a\""b"))), (writeKast (JStr (str "a\\b"))).
  vm_compute. repeat split.
Qed.
Print Assumptions C90_escape_refuted.

Example C90_escape_refuted_ex : ~ plain (str "a\""b") /\ ~ plain (str "a\\b").
Proof.
  split; intros H; apply Forall_cons in H as [_ H]; apply Forall_cons in H as [[_ H] _]; destruct (H eq_refl).
Qed.
