(** C38: wrapped errors. *)
From Verif Require Import ErrModel ErrSpec ErrProofs.

(** ** C38, the method Is: whatever errors are wrapped into one another, the
    query answers, and the answer is yes exactly for the errors that were given
    or are inside those. *)
Theorem C38_is : forall ptr base added t, (forall e, In e (given base added) -> wrappable e) ->
  exists b, werr_Is (wrapped ptr base added) t = ROk b /\ (b = true <-> given_inside t (given base added)).
Proof. exact wrapped_is. Qed.
Print Assumptions C38_is.
Example C38_is_ex :
  let added := [Some (GNew 2); None; Some (GFmt 9 (GNew 3)); Some (GWrap 7 [Some (GNew 4); Some (GNew 5)])] in
  let w := wrapped 1 (GNew 1) added in
  map (werr_Is w) [GNew 1; GNew 2; GFmt 9 (GNew 3); GNew 3; GNew 4; GNew 5; GNew 6; GWrap 7 []] =
  [ROk true; ROk true; ROk true; ROk true; ROk true; ROk true; ROk false; ROk false] /\
  (forall e, In e (given (GNew 1) added) -> wrappable e).
Proof.
  split; [reflexivity|]. cbn. intros e [<-|[<-|[<-|[<-|[]]]]]; repeat constructor.
  intros x [[= <-]|[[= <-]|[]]]; constructor.
Qed.

(** ** C38, errors.Is: the same for a wrapper with two errors or more. *)
Theorem C38_errors_is_partial : forall ptr ptr' base added t, (forall e, In e (given base added) -> wrappable e) ->
  (2 <= length (wrapped ptr' base added))%nat ->
  exists b, errors_Is t (GWrap ptr (wrapped ptr' base added)) = ROk b /\
    (b = true <-> identity_of t = IWrap ptr \/ given_inside t (given base added)).
Proof. exact wrapped_errors_is. Qed.
Print Assumptions C38_errors_is_partial.
(** ... whenever errors.Is answers, the answer is right *)
Theorem C38_answers_right : forall t e b, errors_Is t e = ROk b -> (b = true <-> occurs t e).
Proof. exact is_right. Qed.
Print Assumptions C38_answers_right.
(** The condition is needed: asking an error wrapped once for another error
    panics, for all errors. *)
Theorem C38_single_refuted : forall ptr a b, a <> b ->
  errors_Is (GNew b) (WrapError ptr (Some (GNew a))) = RPanic.
Proof.
  intros ptr a b Hab. cbn. destruct (N.eqb_spec a b); [contradiction|reflexivity].
Qed.
Print Assumptions C38_single_refuted.

(** ** C38: the base error and the last one stay available. *)
Theorem C38_base : forall ptr base added, (forall e, In e (given base added) -> not_empty e) ->
  GetBaseError (wrapped ptr base added) = ROk (match base with GWrap _ (o :: _) => o | e => Some e end).
Proof. exact base_kept. Qed.
Print Assumptions C38_base.
Theorem C38_last : forall ptr base added e, match e with GWrap _ _ => False | _ => True end ->
  GetLastError (wrapped ptr base (added ++ [Some e])) = ROk (Some e).
Proof. exact last_added. Qed.
Print Assumptions C38_last.
(** ** C38, the host's record: what it holds after any errors is the chain of
    wraps of the theorems above. *)
Theorem C38_host : forall ptr errs base,
  record ptr (base :: errs) = Some (GWrap (match errs, base with [], GWrap p _ => p | _, _ => ptr end) (wrapped ptr base (map Some errs))).
Proof. exact recorded. Qed.
Print Assumptions C38_host.
Example C38_ex :
  record 1 [GNew 1; GNew 2; GFmt 9 (GNew 3)] = Some (GWrap 1 [Some (GNew 1); Some (GNew 2); Some (GFmt 9 (GNew 3))]) /\
  GetBaseError (wrapped 1 (GNew 1) [Some (GNew 2)]) = ROk (Some (GNew 1)) /\
  errors_Is (GNew 3) (GWrap 1 [Some (GNew 1); Some (GNew 2)]) = ROk false /\
  errors_Is (GNew 3) (WrapError 1 (Some (GNew 1))) = RPanic.
Proof. repeat split. Qed.
