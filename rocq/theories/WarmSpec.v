(** What code is to see of instances: one of its own, new, and untouched by
    anybody else.  There are no identities here. *)
From Verif Require Import Base WarmModel.
From stdpp Require Import list.
Local Open Scope Z_scope.

(** the instance an invocation is to start on, [depth] others being suspended:
    of the compiled code at hand or else of the code given, if that is all right *)
Definition own_instance `{E : warm_env} (depth : Z) (code : bytes) (gas : Z) (newCode : bool) (cached : option bytes) : option winst :=
  if depth <? we_max then
    match newCode, cached with
    | false, Some c => Some (mkWInst c 0 gas 0 (we_mem c) false)
    | _, _ =>
        if we_compiles code && (negb newCode || we_valid code)
        then Some (mkWInst code 0 gas 0 (we_mem code) false) else None
    end
  else None.

(** what code with instance [w] sees, and the instance it leaves *)
Fixpoint alone `{E : warm_env} (depth : Z) (p : conduct) (w : winst) : list sight * winst :=
  match p with
  | Return => ([], w)
  | Compute points brk mem k =>
      let '(l, w') := alone depth k (mkWInst (wi_code w) points (wi_limit w) brk mem (wi_freed w)) in
      (Found w :: l, w')
  | Invoke _ code gas newCode cached body k =>
      let '(l, w') := alone depth k w in
      (match own_instance (depth + 1) code gas newCode cached with
       | Some v => Started v :: fst (alone (depth + 1) body v)
       | None => [Refused]
       end ++ l, w')
  end.

Definition alone_tx `{E : warm_env} (t : warm_tx) : list sight :=
  match own_instance 0 (wt_code t) (wt_gas t) (wt_new t) (wt_cached t) with
  | Some v => Started v :: fst (alone 0 (wt_body t) v)
  | None => [Refused]
  end.

(** the addresses for which code is started *)
Fixpoint invoked (p : conduct) : list bytes :=
  match p with
  | Return => []
  | Compute _ _ _ k => invoked k
  | Invoke addr _ _ _ _ body k => addr :: invoked body ++ invoked k
  end.
Definition invoked_tx (t : warm_tx) : list bytes := wt_addr t :: invoked (wt_body t).

(** no compiled code is at hand (ahead-of-time compilation is off) *)
Fixpoint uncached (p : conduct) : Prop :=
  match p with
  | Return => True
  | Compute _ _ _ k => uncached k
  | Invoke _ _ _ _ cached body k => cached = None /\ uncached body /\ uncached k
  end.
Definition uncached_tx (t : warm_tx) : Prop := wt_cached t = None /\ uncached (wt_body t).

(** the instances not freed *)
Definition unfreed (r : rinst) : list winst := List.filter (fun w => negb (wi_freed w)) (ri_heap r).

(** what is seen is an instance, and not a freed one *)
Definition intact (s : sight) : Prop :=
  match s with Started w | Found w => wi_freed w = false | Refused => True | Nothing => False end.
