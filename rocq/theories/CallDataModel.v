(** Call data strings: "function@hex(arg)@hex(arg)...".

    The builder follows the code of /repo; the parser is elrond-vm-common's
    CallArgsParser (not in /repo), modelled from its documented behaviour:
    split on '@', the first token must be non-empty, the others are decoded
    from hexadecimal. *)
From Verif Require Export GoRt CodecModel.

Definition sepByte : byte := zb 64. (* '@' *)

(** encoding/hex: EncodeToString gives lower-case digits, DecodeString takes
    both cases and fails on odd lengths *)
Definition hex_digit (n : Z) : byte := if n <? 10 then zb (48 + n) else zb (87 + n).
Definition hex_encode (l : bytes) : bytes :=
  l ≫= (fun b => [hex_digit (bz b `div` 16); hex_digit (bz b `mod` 16)]).
Definition hex_value (b : byte) : option Z :=
  let z := bz b in
  if (48 <=? z) && (z <=? 57) then Some (z - 48) else
  if (97 <=? z) && (z <=? 102) then Some (z - 87) else
  if (65 <=? z) && (z <=? 70) then Some (z - 55) else None.
Fixpoint hex_decode (l : bytes) : option bytes :=
  match l with
  | [] => Some []
  | [_] => None
  | a :: b :: l' =>
      match hex_value a, hex_value b, hex_decode l' with
      | Some x, Some y, Some r => Some (zb (16 * x + y) :: r)
      | _, _, _ => None
      end
  end.

(** strings.Split(data, "@") *)
Fixpoint split_at (l : bytes) : list bytes :=
  match l with
  | [] => [[]]
  | b :: l' =>
      if bool_decide (b = sepByte) then [] :: split_at l'
      else match split_at l' with
           | t :: ts => (b :: t) :: ts
           | [] => [[b]]
           end
  end.

(** parsers.NewCallArgsParser().ParseData *)
Definition ParseData (data : bytes) : res (bytes * list bytes) :=
  match split_at data with
  | [] | [] :: _ => RErr ErrParser
  | f :: args => match mapM hex_decode args with
                 | Some a => ROk (f, a)
                 | None => RErr ErrParser
                 end
  end.

(** "@" + hex.EncodeToString(arg) for each argument
    (elrondei.go:1059-1071 makeCrossShardCallFromInput, elrondei.go:1506-1541
    upgradeContract, output.go:374-381, execution.go:778-781,
    asyncCall.go:242-245) *)
Definition args_data (args : list bytes) : bytes :=
  args ≫= (fun a => sepByte :: hex_encode a).
Definition makeCallData (function : bytes) (args : list bytes) : bytes := function ++ args_data args.
