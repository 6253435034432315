(** C53: scenario expressions and the bytes they denote.  [files] is the content
    of the files an expression may name, [keccak] the hash function, [quote] the
    quoting of strings for humans; all three are arbitrary. *)
From Coq Require Import Sorted.
From Verif Require Import Base CodecSpec JsonModel JsonSpec MandosModel MandosSpec MandosExprProofs
  MandosTextProofs.

Section C53.
  Context (files : bytes -> option bytes) (keccak : bytes -> bytes) (quote : bytes -> bytes).
  Notation Interpret := (InterpretString files keccak).
  Notation Subtree := (InterpretSubTree files keccak).
  Notation Text := (Reconstruct quote).

  (** An expression is accepted exactly if the notation gives it a meaning, and
      its bytes are those of the notation; in particular it has one meaning. *)
  Theorem C53_denotes t b : Interpret t = MOk b <-> expr files keccak t b.
  Proof. exact (InterpretString_iff files keccak t b). Qed.

  Theorem C53_unambiguous t b b' :
    expr files keccak t b -> expr files keccak t b' -> b = b'.
  Proof.
    intros H H'. apply InterpretString_iff in H, H'. congruence.
  Qed.

  (** Interpretation comes to an end. *)
  Theorem C53_ends t : Interpret t <> MFuel.
  Proof. exact (proj1 (interpret_other files keccak _ t (le_n _))). Qed.

  (** Decimal numbers, underscores and commas strewn in: the shortest bytes. *)
  Theorem C53_decimal t ds n b : grouped t ds -> numeral 10 ds n -> shortest b n ->
    Interpret t = MOk b.
  Proof. exact (interpret_decimal files keccak t ds n b). Qed.

  Theorem C53_binary t ds n b : grouped t ds -> numeral 2 ds n -> shortest b n ->
    Interpret (str "0b" ++ t) = MOk b.
  Proof. exact (interpret_binary files keccak t ds n b). Qed.

  Theorem C53_hex h b : hex_text h b -> Interpret (str "0x" ++ h) = MOk b.
  Proof. exact (interpret_hex files keccak h b). Qed.

  (** With a sign: the shortest two's complement. *)
  Theorem C53_signed (neg : bool) t ds n b : grouped t ds -> numeral 10 ds n ->
    Interpret ((if neg then Byte.x2d else Byte.x2b) :: t) = MOk b <->
    twos_value b = (if neg then - n else n)
    /\ forall b', twos_value b' = twos_value b -> (length b <= length b')%nat.
  Proof. exact (interpret_signed files keccak neg t ds n b). Qed.

  (** In a fixed width; a number that does not fit is refused. *)
  Theorem C53_width u i w t ds n b : width u i w -> grouped t ds -> numeral 10 ds n ->
    Interpret (u ++ t) = MOk b <-> length b = w /\ be_value b = n.
  Proof. exact (interpret_width files keccak u i w t ds n b). Qed.

  Theorem C53_signed_width u i w (neg : bool) t ds n b :
    width u i w -> grouped t ds -> numeral 10 ds n ->
    Interpret (i ++ (if neg then Byte.x2d else Byte.x2b) :: t) = MOk b <->
    length b = w /\ twos_value b = if neg then - n else n.
  Proof. exact (interpret_signed_width files keccak u i w neg t ds n b). Qed.

  Theorem C53_string p s : p = str "str:" \/ p = str "``" \/ p = str "''" -> bar ∉ s ->
    Interpret (p ++ s) = MOk s.
  Proof. exact (interpret_strings files keccak p s). Qed.

  Theorem C53_concat ts bs : Forall (fun t => bar ∉ t) ts -> ts <> [] ->
    ~ starts (str "file:") (joined ts) -> ~ starts (str "keccak256:") (joined ts) ->
    Forall2 (fun t b => Interpret t = MOk b) ts bs ->
    Interpret (joined ts) = MOk (concat bs).
  Proof. exact (interpret_joined files keccak ts bs). Qed.

  (** Subtrees of a scenario whose maps have every key once (as those that the
      parser makes, C52): lists in their order, maps in the order of their keys. *)
  Theorem C53_subtree v b : writable (fun _ => True) v ->
    Subtree v = MOk b <-> tree files keccak v b.
  Proof. intros H. exact (subtree_iff files keccak v H b). Qed.

  (** The order in which the entries of a map are written does not matter. *)
  Theorem C53_map_order m m' : NoDup (map fst m) -> Permutation m m' ->
    Subtree (JMap m) = Subtree (JMap m').
  Proof. exact (subtree_order files keccak m m'). Qed.

  (** A crash needs a signed width with nothing behind it. *)
  Theorem C53_crash_partial t : Interpret t = MPanic -> bare_width t.
  Proof. exact (proj2 (interpret_other files keccak _ t (le_n _))). Qed.
  Theorem C53_crash_refuted : exists t, Interpret t = MPanic.
  Proof. exists (str "i8:"). reflexivity. Qed.

  (** * From bytes to text and back *)

  (** Numbers keep their value, and their bytes if these have no leading zero. *)
  Theorem C53_number_value v : exists b, Interpret (Text v NumberHint) = MOk b
    /\ be_value b = be_value v /\ head b <> Some Byte.x00.
  Proof. exact (number_kept files keccak quote v). Qed.
  Theorem C53_number_back_partial v : head v <> Some Byte.x00 ->
    Interpret (Text v NumberHint) = MOk v.
  Proof. exact (number_exact files keccak quote v). Qed.

  Theorem C53_string_back_partial v : bar ∉ v -> Interpret (Text v StrHint) = MOk v.
  Proof. exact (string_kept files keccak quote v). Qed.

  (** Addresses, but those of contracts with a shard below sixteen. *)
  Theorem C53_address_back_partial v : length v = 32%nat ->
    bar ∉ take 31 v -> Byte.x23 ∉ take 31 v ->
    (take 8 v = replicate 8 Byte.x00 -> forall c, v !! 31%nat = Some c -> 16 <= bz c) ->
    Interpret (Text v AddressHint) = MOk v.
  Proof. exact (address_kept files keccak quote v). Qed.

  Theorem C53_code_back_partial v : (length v <= 10)%nat -> Interpret (Text v CodeHint) = MOk v.
  Proof. exact (code_kept files keccak quote v). Qed.

  (** What is lost, each for every value in question. *)
  Theorem C53_address_back_refuted v c : length v = 32%nat ->
    bar ∉ take 31 v -> Byte.x23 ∉ take 31 v ->
    take 8 v = replicate 8 Byte.x00 -> v !! 31%nat = Some c -> bz c < 16 ->
    Interpret (Text v AddressHint) = MErr.
  Proof. exact (address_lost files keccak quote v c). Qed.
  Theorem C53_short_address_refuted v : length v <> 32%nat -> v <> [] ->
    Interpret (Text v AddressHint) = MErr.
  Proof. exact (address_short files keccak quote v). Qed.
  Theorem C53_code_back_refuted v : (10 < length v)%nat -> Interpret (Text v CodeHint) = MErr.
  Proof. exact (code_cut files keccak quote v). Qed.
  Theorem C53_no_hint_refuted v : v <> [] -> Interpret (Text v NoHint) = MErr.
  Proof. exact (unknown_bad files keccak quote v). Qed.
  Theorem C53_number_back_refuted :
    Interpret (Text [Byte.x00; Byte.x05] NumberHint) = MOk [Byte.x05].
  Proof. reflexivity. Qed.
  Theorem C53_string_back_refuted :
    Interpret (Text (str "a|5") StrHint) = MOk (str "a" ++ [Byte.x05]).
  Proof. reflexivity. Qed.
  (** A negative number loses its sign. *)
  Theorem C53_negative_refuted :
    Interpret (ReconstructFromBigInt quote (-5)) = MOk [Byte.x05].
  Proof. reflexivity. Qed.
End C53.

Print Assumptions C53_denotes.
Print Assumptions C53_unambiguous.
Print Assumptions C53_ends.
Print Assumptions C53_decimal.
Print Assumptions C53_binary.
Print Assumptions C53_hex.
Print Assumptions C53_signed.
Print Assumptions C53_width.
Print Assumptions C53_signed_width.
Print Assumptions C53_string.
Print Assumptions C53_concat.
Print Assumptions C53_subtree.
Print Assumptions C53_map_order.
Print Assumptions C53_crash_partial.
Print Assumptions C53_crash_refuted.
Print Assumptions C53_number_value.
Print Assumptions C53_number_back_partial.
Print Assumptions C53_string_back_partial.
Print Assumptions C53_address_back_partial.
Print Assumptions C53_code_back_partial.
Print Assumptions C53_address_back_refuted.
Print Assumptions C53_short_address_refuted.
Print Assumptions C53_code_back_refuted.
Print Assumptions C53_no_hint_refuted.
Print Assumptions C53_number_back_refuted.
Print Assumptions C53_string_back_refuted.
Print Assumptions C53_negative_refuted.

(** * Concrete cases *)

Definition no_files : bytes -> option bytes := fun n =>
  if bool_decide (n = str "a.wasm") then Some (str "code") else None.
Notation I t := (InterpretString no_files (fun b => b ++ b) (str t)).

Example C53_denotes_case :
  I "nested:str:ab|u16:0x102|-1|keccak256:true"
     = MOk [Byte.x00; Byte.x00; Byte.x00; Byte.x02; Byte.x61; Byte.x62;
            Byte.x01; Byte.x02; Byte.xff; Byte.x01; Byte.x01]
  /\ I "keccak256:1|2" = MOk [Byte.x01; Byte.x02; Byte.x01; Byte.x02]
  /\ I "file:a.wasm" = MOk (str "code") /\ I "file:b" = MErr
  /\ I "sc:a#0f" = MOk (replicate 8 Byte.x00 ++ str "a" ++ replicate 22 Byte.x5f ++ [Byte.x0f])
  /\ I "biguint:256" = MOk [Byte.x00; Byte.x00; Byte.x00; Byte.x02; Byte.x01; Byte.x00].
Proof. vm_compute. tauto. Qed.

(** The notation has surprises: no error for a sign behind "0b", none for an
    unsigned number that fills the width of a signed one. *)
Example C53_surprises : I "0b-1" = MOk [Byte.x01] /\ I "i8:255" = MOk [Byte.xff]
  /\ I "_" = MErr /\ I "i8:+255" = MErr.
Proof. vm_compute. tauto. Qed.

Example C53_decimal_case :
  grouped (str "1_000,3") (str "10003") /\ numeral 10 (str "10003") 10003
  /\ shortest [Byte.x27; Byte.x13] 10003 /\ I "1_000,3" = MOk [Byte.x27; Byte.x13].
Proof.
  split.
  { apply gr_char; [done|done|]. apply gr_group; [by left|].
    do 3 (apply gr_char; [done|done|]). apply gr_group; [by right|].
    apply gr_char; [done|done|]. constructor. }
  split.
  { split; [done|]. exists [1; 0; 0; 0; 3]. split; [|reflexivity].
    repeat (constructor; [vm_compute; split; [reflexivity|split; [discriminate|reflexivity]]|]).
    constructor. }
  split; [split; [reflexivity|discriminate]|reflexivity].
Qed.
Example C53_binary_case : numeral 2 (str "101") 5 /\ I "0b1_01" = MOk [Byte.x05].
Proof.
  split; [|reflexivity]. split; [done|]. exists [1; 0; 1]. split; [|reflexivity].
  repeat (constructor; [vm_compute; split; [reflexivity|split; [discriminate|reflexivity]]|]).
  constructor.
Qed.
Example C53_hex_case : hex_text (str "0aFf") [Byte.x0a; Byte.xff] /\ I "0x0aFf" = MOk [Byte.x0a; Byte.xff].
Proof.
  split; [|reflexivity].
  apply (ht_byte _ _ 0 10); [left; vm_compute; intuition discriminate
    |right; left; vm_compute; intuition discriminate|reflexivity|].
  apply (ht_byte _ _ 15 15); [right; right; vm_compute; intuition discriminate
    |right; left; vm_compute; intuition discriminate|reflexivity|]. constructor.
Qed.
Example C53_signed_case : I "-256" = MOk [Byte.xff; Byte.x00] /\ I "+128" = MOk [Byte.x00; Byte.x80]
  /\ twos_value [Byte.xff; Byte.x00] = -256.
Proof. vm_compute. tauto. Qed.
Example C53_width_case : I "u32:258" = MOk [Byte.x00; Byte.x00; Byte.x01; Byte.x02] /\ I "u8:256" = MErr
  /\ I "i16:-2" = MOk [Byte.xff; Byte.xfe] /\ I "i8:-129" = MErr /\ I "i8:-128" = MOk [Byte.x80].
Proof. vm_compute. tauto. Qed.
Example C53_concat_case : I "str:a|5|''b" = MOk [Byte.x61; Byte.x05; Byte.x62]
  /\ joined [str "str:a"; str "5"; str "''b"] = str "str:a|5|''b".
Proof. vm_compute. tauto. Qed.
Example C53_subtree_case :
  let m := [(str "2:b", JStr (str "5")); (str "1:a", JList [JStr (str "str:x"); JStr []])] in
  writable (fun _ => True) (JMap m) /\ NoDup (map fst m)
  /\ InterpretSubTree no_files (fun b => b) (JMap m) = MOk [Byte.x78; Byte.x05].
Proof.
  cbv zeta. split; [|split; [|reflexivity]].
  - constructor; [repeat (constructor; try done)|]. cbn. repeat constructor; set_solver.
  - cbn. repeat constructor; set_solver.
Qed.
Example C53_crash_case : I "str:a|i64:|5" = MPanic /\ bare_width (str "str:a|i64:|5").
Proof.
  split; [reflexivity|]. exists (str "str:a|"), (str "i64:"), (str "|5").
  split; [reflexivity|]. split; [tauto|]. right. eexists. reflexivity.
Qed.
Example C53_back_case :
  let v := replicate 8 Byte.x00 ++ str "vault" ++ replicate 18 Byte.x5f ++ [Byte.x10] in
  length v = 32%nat /\ Reconstruct (fun b => b) v AddressHint = str "sc:vault#10"
  /\ I "sc:vault#10" = MOk v
  /\ Reconstruct (fun b => b) (<[31%nat := Byte.x01]> v) AddressHint = str "sc:vault#1"
  /\ I "sc:vault#1" = MErr
  /\ Reconstruct (fun b => b) [Byte.x03; Byte.xe8] NumberHint = str "1000"
  /\ Reconstruct (fun b => b) (str "xy") NoHint = str "0x7879 (str:xy)".
Proof. vm_compute. tauto. Qed.
