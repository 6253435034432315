(** The values written in scenario files: mandos-go/expression.

    The files and the hash are the outside world: [files] is the FileResolver
    (None for an error), [keccak] is golang.org/x/crypto/sha3.  math/big is
    modelled by [Z], encoding/hex and big-int-util as in CodecModel and
    CallDataModel. *)
From Verif Require Export CodecModel CallDataModel JsonModel.

(** A value, an error, a Go panic (index out of range); [MFuel] marks a model
    that stopped short and never happens. *)
Inductive mres : Type := MOk (b : bytes) | MErr | MPanic | MFuel.

Definition mbind' (r : mres) (k : bytes -> mres) : mres :=
  match r with MOk b => k b | MErr => MErr | MPanic => MPanic | MFuel => MFuel end.

(** strings.HasPrefix(t, p) with the rest, t[len(p):]. *)
Fixpoint strip (p t : bytes) : option bytes :=
  match p, t with
  | [], _ => Some t
  | a :: p, b :: t => if is a b then strip p t else None
  | _ :: _, [] => None
  end.

(** strings.Split(t, sep) for a separator of one byte. *)
Fixpoint split_on (sep : byte) (t : bytes) : list bytes :=
  match t with
  | [] => [[]]
  | c :: r =>
      if is c sep then [] :: split_on sep r
      else match split_on sep r with
           | x :: xs => (c :: x) :: xs
           | [] => [[c]]
           end
  end.

(** * interpreter/functions.go *)

(** functions.go:11 *)
Definition SCAddressNumLeadingZeros : nat := 8.

(** functions.go:23-32, decodeShardId. *)
Definition decodeShardId (raw : bytes) : option byte :=
  match hex_decode raw with
  | Some [b] => Some b
  | _ => None
  end.

(** functions.go:34-43, createAddressFromPrefix with endIndex 32: the first loop
    copies the prefix, the second fills up; other places keep the zero. *)
Definition createAddressFromPrefix (prefix : bytes) (startIndex : nat) : bytes :=
  map (fun i =>
         if (i <? startIndex)%nat then Byte.x00
         else match prefix !! (i - startIndex)%nat with
              | Some b => b
              | None => Byte.x5f
              end) (seq 0 32).

(** functions.go:45-62, createAddressOptionalShardId. *)
Definition createAddressOptionalShardId (input : bytes) (numLeadingZeros : nat) : mres :=
  match split_on Byte.x23 input with
  | [name] => MOk (createAddressFromPrefix name numLeadingZeros)
  | [name; id] =>
      match decodeShardId id with
      | None => MErr
      | Some b => MOk (<[31%nat := b]> (createAddressFromPrefix name numLeadingZeros))
      end
  | _ => MErr
  end.

(** functions.go:64-72. *)
Definition addressExpression (input : bytes) : mres := createAddressOptionalShardId input 0.
Definition scExpression (input : bytes) : mres :=
  createAddressOptionalShardId input SCAddressNumLeadingZeros.

(** * interpreter/interpreter.go *)

(** math/big (Int).SetString with a base of at most ten: an optional sign and at
    least one digit, nothing else. *)
Definition digit_of (base : Z) (c : byte) : option Z :=
  let v := bz c - 48 in if (0 <=? v) && (v <? base) then Some v else None.
Fixpoint scan_digits (base : Z) (acc : Z) (t : bytes) : option Z :=
  match t with
  | [] => Some acc
  | c :: r =>
      match digit_of base c with
      | Some v => scan_digits base (acc * base + v) r
      | None => None
      end
  end.
Definition scan_natural (base : Z) (t : bytes) : option Z :=
  match t with [] => None | _ => scan_digits base 0 t end.
Definition SetString (base : Z) (t : bytes) : option Z :=
  match t with
  | c :: r =>
      if is c Byte.x2d then option_map Z.opp (scan_natural base r)
      else if is c Byte.x2b then scan_natural base r
      else scan_natural base t
  | [] => None
  end.

(** strings.ReplaceAll with "" of "_" and ",": interpreter.go:211-212. *)
Definition is_group (c : byte) : bool := is c Byte.x5f || is c Byte.x2c.
Definition ungroup (t : bytes) : bytes := List.filter (fun c => negb (is_group c)) t.

Definition of_hex (o : option bytes) : mres :=
  match o with Some b => MOk b | None => MErr end.

(** interpreter.go:210-248, interpretUnsignedNumber. *)
Definition interpretUnsignedNumber (strRaw : bytes) : mres :=
  let st := ungroup strRaw in
  let hex h := if Nat.odd (length h) then of_hex (hex_decode (Byte.x30 :: h))
               else of_hex (hex_decode h) in
  let bin := match SetString 2 (drop 2 st) with
             | Some z => MOk (be_encode z)
             | None => MErr
             end in
  match strip (str "0x") strRaw, strip (str "0X") strRaw with
  | Some h, _ | _, Some h => hex h
  | None, None =>
      match strip (str "0b") strRaw, strip (str "0B") strRaw with
      | Some _, _ | _, Some _ => bin
      | None, None =>
          match SetString 10 st with
          | None => MErr
          | Some z => if z <? 0 then MErr else MOk (be_encode z)
          end
      end
  end.

(** big-int-util/twos-complement (not in /repo), as its tests and its use in
    /repo say: CopyAlignRight aligns to the right and fills up with zeros,
    ToBytesOfLength gives the two's complement of that length or an error.
    (Of a source that is too long CopyAlignRight keeps the end.) *)
Definition CopyAlignRight (b : bytes) (n : nat) : bytes :=
  replicate (n - length b) Byte.x00 ++ drop (length b - n) b.
Definition ToBytesOfLength (z : Z) (n : nat) : mres :=
  let b := twos_encode z in
  if (length b <=? n)%nat then
    MOk (replicate (n - length b) (if z <? 0 then Byte.xff else Byte.x00) ++ b)
  else MErr.

(** interpreter.go:250-263, interpretUnsignedNumberFixedWidth. *)
Definition interpretUnsignedNumberFixedWidth (strRaw : bytes) (targetWidth : nat) : mres :=
  mbind' (interpretUnsignedNumber strRaw) (fun b =>
    if (targetWidth =? 0)%nat then MOk b
    else if (targetWidth <? length b)%nat then MErr
    else MOk (CopyAlignRight b targetWidth)).

(** interpreter.go:183-208, interpretNumber; width 0 is any width.  An empty
    string has no first byte. *)
Definition interpretNumber (strRaw : bytes) (targetWidth : nat) : mres :=
  match strRaw with
  | [] => MPanic
  | c :: r =>
      if is c Byte.x2d || is c Byte.x2b then
        mbind' (interpretUnsignedNumber r) (fun b =>
          let number := if is c Byte.x2d then - be_decode b else be_decode b in
          if (targetWidth =? 0)%nat then MOk (twos_encode number)
          else ToBytesOfLength number targetWidth)
      else if (targetWidth =? 0)%nat then interpretUnsignedNumber strRaw
      else interpretUnsignedNumberFixedWidth strRaw targetWidth
  end.

(** interpreter.go:300-312: the length in four bytes in front. *)
Definition with_length (b : bytes) : bytes :=
  CopyAlignRight (be_encode (Z.of_nat (length b))) 4 ++ b.

Section Interpret.
  Context (files : bytes -> option bytes) (keccak : bytes -> bytes).

  (** interpreter.go:265-315, tryInterpretFixedWidth; None for not parsed. *)
  Definition tryInterpretFixedWidth (again : bytes -> mres) (strRaw : bytes)
    : option mres :=
    match strip (str "u64:") strRaw with
    | Some r => Some (interpretUnsignedNumberFixedWidth r 8) | None =>
    match strip (str "u32:") strRaw with
    | Some r => Some (interpretUnsignedNumberFixedWidth r 4) | None =>
    match strip (str "u16:") strRaw with
    | Some r => Some (interpretUnsignedNumberFixedWidth r 2) | None =>
    match strip (str "u8:") strRaw with
    | Some r => Some (interpretUnsignedNumberFixedWidth r 1) | None =>
    match strip (str "i64:") strRaw with
    | Some r => Some (interpretNumber r 8) | None =>
    match strip (str "i32:") strRaw with
    | Some r => Some (interpretNumber r 4) | None =>
    match strip (str "i16:") strRaw with
    | Some r => Some (interpretNumber r 2) | None =>
    match strip (str "i8:") strRaw with
    | Some r => Some (interpretNumber r 1) | None =>
    match strip (str "biguint:") strRaw with
    | Some r => Some (mbind' (interpretUnsignedNumber r) (fun b => MOk (with_length b)))
    | None =>
    match strip (str "nested:") strRaw with
    | Some r => Some (mbind' (again r) (fun b => MOk (with_length b)))
    | None => None
    end end end end end end end end end end.

  (** interpreter.go:131-139: the loop over the parts. *)
  Fixpoint concat_parts (again : bytes -> mres) (parts : list bytes) : mres :=
    match parts with
    | [] => MOk []
    | t :: r =>
        mbind' (again t) (fun b =>
          mbind' (concat_parts again r) (fun c => MOk (b ++ c)))
    end.

  (** interpreter.go:83-181, InterpretString.  The recursion is on shorter
      strings; [fuel] bounds its depth. *)
  Fixpoint interpret (fuel : nat) (strRaw : bytes) : mres :=
    match fuel with
    | O => MFuel
    | S n =>
        match strRaw with
        | [] => MOk []
        | _ =>
            match strip (str "file:") strRaw with
            | Some name => of_hex (files name)
            | None =>
            match strip (str "keccak256:") strRaw with
            | Some r => mbind' (interpret n r) (fun b => MOk (keccak b))
            | None =>
            match split_on Byte.x7c strRaw with
            | (_ :: _ :: _) as parts => concat_parts (interpret n) parts
            | _ =>
            if bool_decide (strRaw = str "false") then MOk []
            else if bool_decide (strRaw = str "true") then MOk [Byte.x01]
            else
            match strip (str "str:") strRaw with Some r => MOk r | None =>
            match strip (str "``") strRaw with Some r => MOk r | None =>
            match strip (str "''") strRaw with Some r => MOk r | None =>
            match strip (str "address:") strRaw with
            | Some r => addressExpression r | None =>
            match strip (str "sc:") strRaw with
            | Some r => scExpression r | None =>
            match tryInterpretFixedWidth (interpret n) strRaw with
            | Some r => r
            | None => interpretNumber strRaw 0
            end end end end end end end end end
        end
    end.

  Definition InterpretString (strRaw : bytes) : mres :=
    interpret (S (length strRaw)) strRaw.

  (** Go's order of strings. *)
  Fixpoint key_ltb (a b : bytes) : bool :=
    match a, b with
    | _, [] => false
    | [], _ :: _ => true
    | x :: a, y :: b => (bz x <? bz y) || ((bz x =? bz y) && key_ltb a b)
    end.
  (** orderedjson/ojModel.go:65-71, KeyValuePairsSortedByKey: sort.Slice by key,
      here by insertion; keys are distinct, so there is one result. *)
  Fixpoint insert_kv {V} (kv : bytes * V) (l : list (bytes * V)) : list (bytes * V) :=
    match l with
    | [] => [kv]
    | x :: r => if key_ltb (fst x) (fst kv) then x :: insert_kv kv r else kv :: l
    end.
  Definition sorted_by_key {V} (m : list (bytes * V)) : list (bytes * V) :=
    fold_right insert_kv [] m.

  (** interpreter.go:40-81, InterpretSubTree.  The values of a map are
      interpreted before they are sorted, which makes no difference: the first
      error in key order is the result. *)
  Fixpoint concat_all (l : list mres) : mres :=
    match l with
    | [] => MOk []
    | r :: rs => mbind' r (fun b => mbind' (concat_all rs) (fun c => MOk (b ++ c)))
    end.
  Fixpoint InterpretSubTree (v : json) : mres :=
    match v with
    | JStr s => InterpretString s
    | JList l => concat_all (map InterpretSubTree l)
    | JMap m =>
        concat_all (map snd (sorted_by_key
          (map (fun kv => (fst kv, InterpretSubTree (snd kv))) m)))
    | JBool _ => MErr
    end.
End Interpret.

(** * reconstructor/reconstructor.go *)

Inductive hint : Type := NoHint | NumberHint | AddressHint | StrHint | CodeHint.

(** fmt "%d" of a big.Int. *)
Fixpoint dec_digits (fuel : nat) (z : Z) (acc : bytes) : bytes :=
  match fuel with
  | O => acc
  | S f => if z <=? 0 then acc else dec_digits f (z / 10) (zb (48 + z mod 10) :: acc)
  end.
Definition decimal (z : Z) : bytes :=
  if z =? 0 then [Byte.x30]
  else (if z <? 0 then [Byte.x2d] else [])
       ++ dec_digits (S (Z.to_nat (Z.log2 (Z.abs z)))) (Z.abs z) [].

(** fmt "%x" of a byte: one digit below sixteen; "%02x" is [hex_encode]. *)
Definition hex_short (b : byte) : bytes :=
  if bz b <? 16 then [hex_digit (bz b)] else hex_encode [b].

(** strings.TrimRight(s, "_"). *)
Fixpoint trim_right (t : bytes) : bytes :=
  match t with
  | [] => []
  | c :: r =>
      match trim_right r with
      | [] => if is c Byte.x5f then [] else [c]
      | r' => c :: r'
      end
  end.

Section Reconstruct.
  (** strconv.Quote, used for humans only. *)
  Context (quote : bytes -> bytes).

  (** reconstructor.go:116-126, canInterpretAsString. *)
  Definition canInterpretAsString (b : bytes) : bool :=
    match b with
    | [] => false
    | _ => forallb (fun c => (32 <=? bz c) && (bz c <=? 126)) b
    end.
  (** reconstructor.go:61-79, unknownByteArrayPretty. *)
  Definition unknownByteArrayPretty (b : bytes) : bytes :=
    match b with
    | [] => []
    | _ =>
        if canInterpretAsString b then
          str "0x" ++ hex_encode b ++ str " (str:" ++ b ++ str ")"
        else if (length b <? 15)%nat then
          str "0x" ++ hex_encode b ++ str " (" ++ decimal (be_decode b) ++ str ")"
        else
          str "0x" ++ hex_encode b ++ str " (str:" ++ quote b ++ str ")"
    end.
  (** reconstructor.go:81-114, addressPretty. *)
  Definition addressPretty (value : bytes) : bytes :=
    if negb (length value =? 32)%nat then unknownByteArrayPretty value
    else
      let last := default Byte.x00 (value !! 31%nat) in
      if bool_decide (take 8 value = replicate 8 Byte.x00) then
        if is last Byte.x5f then str "sc:" ++ trim_right (drop 8 value)
        else str "sc:" ++ trim_right (drop 8 (take 31 value))
             ++ str "#" ++ hex_short last
      else
        if is last Byte.x5f then str "address:" ++ trim_right value
        else str "address:" ++ trim_right (take 31 value)
             ++ str "#" ++ hex_encode [last].
  (** reconstructor.go:128-139, codePretty. *)
  Definition codePretty (b : bytes) : bytes :=
    match b with
    | [] => []
    | _ =>
        let encoded := hex_encode b in
        if (20 <? length encoded)%nat then str "0x" ++ take 20 encoded ++ str "..."
        else str "0x" ++ encoded
    end.
  (** reconstructor.go:38-59, Reconstruct, ReconstructFromBigInt,
      ReconstructFromUint64. *)
  Definition Reconstruct (value : bytes) (h : hint) : bytes :=
    match h with
    | NumberHint => decimal (be_decode value)
    | StrHint => str "str:" ++ value
    | AddressHint => addressPretty value
    | CodeHint => codePretty value
    | NoHint => unknownByteArrayPretty value
    end.
  Definition ReconstructFromBigInt (z : Z) : bytes := Reconstruct (be_encode z) NumberHint.
  Definition ReconstructFromUint64 (z : Z) : bytes := Reconstruct (be_encode z) NumberHint.
End Reconstruct.
