(** What the big-integer operations mean, in terms of the integer that each
    handle holds.  A handle that was never written holds 0. *)
From Verif Require Export VmTypes.

Definition bval (m : gmap Z Z) (x : Z) : Z := default 0 (m !! x).

(** Writing operations: the destination handle and the integer it must hold
    afterwards; [None] instead of an integer: the operation must fail. *)
Definition big_write (c : api_call) (v : Z -> Z) : option (Z * option Z) :=
  let v x := v (i32 x) in
  match c with
  | A_bigIntSetInt64 d z => Some (i32 d, Some (i64 z))
  | A_bigIntAdd d a b => Some (i32 d, Some (v a + v b))
  | A_bigIntSub d a b => Some (i32 d, Some (v a - v b))
  | A_bigIntMul d a b => Some (i32 d, Some (v a * v b))
  | A_bigIntTDiv d a b => Some (i32 d, if v b =? 0 then None else Some (Z.quot (v a) (v b)))
  | A_bigIntTMod d a b => Some (i32 d, if v b =? 0 then None else Some (Z.rem (v a) (v b)))
  | A_bigIntEDiv d a b => Some (i32 d, if v b =? 0 then None else Some (Z.sgn (v b) * (v a / Z.abs (v b))))
  | A_bigIntEMod d a b => Some (i32 d, if v b =? 0 then None else Some (v a mod Z.abs (v b)))
  | A_bigIntAbs d a => Some (i32 d, Some (Z.abs (v a)))
  | A_bigIntNeg d a => Some (i32 d, Some (- v a))
  | A_bigIntNot d a => Some (i32 d, if v a <? 0 then None else Some (- v a - 1))
  | A_bigIntAnd d a b => Some (i32 d, if (v a <? 0) || (v b <? 0) then None else Some (Z.land (v a) (v b)))
  | A_bigIntOr d a b => Some (i32 d, if (v a <? 0) || (v b <? 0) then None else Some (Z.lor (v a) (v b)))
  | A_bigIntXor d a b => Some (i32 d, if (v a <? 0) || (v b <? 0) then None else Some (Z.lxor (v a) (v b)))
  | A_bigIntShr d a n => Some (i32 d, if (v a <? 0) || (i32 n <? 0) then None else Some (v a / 2 ^ i32 n))
  | A_bigIntShl d a n => Some (i32 d, if (v a <? 0) || (i32 n <? 0) then None else Some (v a * 2 ^ i32 n))
  | _ => None
  end.

(** Reading operations: the integer given back to the contract. *)
Definition big_read (c : api_call) (v : Z -> Z) : option Z :=
  match c with
  | A_bigIntGetInt64 a => Some (i64 (v (i32 a)))
  | A_bigIntIsInt64 a => Some (if (min_i64 <=? v (i32 a)) && (v (i32 a) <=? max_i64) then 1 else 0)
  | A_bigIntSign a => Some (Z.sgn (v (i32 a)))
  | A_bigIntCmp a b => Some (Z.sgn (v (i32 a) - v (i32 b)))
  | _ => None
  end.

(** A sequence of writing operations on the handles' values; [None] when one of
    them must fail or is not a writing operation. *)
Fixpoint big_run (cs : list api_call) (v : Z -> Z) : option (Z -> Z) :=
  match cs with
  | [] => Some v
  | c :: cs =>
      match big_write c v with
      | Some (d, Some r) => big_run cs (fun x => if x =? d then r else v x)
      | _ => None
      end
  end.
