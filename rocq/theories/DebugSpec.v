(** Vocabulary for the debugging facade: well-formed text, and a debugger that
    keeps its worlds in memory. *)
From Verif Require Import Base WorldModel WorldSpec DebugModel.

(** UTF-8 (RFC 3629, section 4) *)
Definition rng (lo hi : Z) (b : byte) : Prop := lo <= bz b <= hi.
Inductive character : bytes -> Prop :=
| ch_1 a : rng 0 127 a -> character [a]
| ch_2 a b : rng 194 223 a -> rng 128 191 b -> character [a; b]
| ch_3a a b c : bz a = 224 -> rng 160 191 b -> rng 128 191 c -> character [a; b; c]
| ch_3b a b c : rng 225 236 a \/ rng 238 239 a -> rng 128 191 b -> rng 128 191 c -> character [a; b; c]
| ch_3c a b c : bz a = 237 -> rng 128 159 b -> rng 128 191 c -> character [a; b; c]
| ch_4a a b c d : bz a = 240 -> rng 144 191 b -> rng 128 191 c -> rng 128 191 d -> character [a; b; c; d]
| ch_4b a b c d : rng 241 243 a -> rng 128 191 b -> rng 128 191 c -> rng 128 191 d -> character [a; b; c; d]
| ch_4c a b c d : bz a = 244 -> rng 128 143 b -> rng 128 191 c -> rng 128 191 d -> character [a; b; c; d].
Inductive utf8 : bytes -> Prop :=
| utf8_nil : utf8 []
| utf8_app c l : character c -> utf8 l -> utf8 (c ++ l).

(** all text of the accounts is well formed: addresses, storage keys and call data *)
Definition text_accounts (m : gmap bytes waccount) : Prop :=
  forall k a, m !! k = Some a ->
    utf8 k /\ utf8 (wa_async a) /\ forall s v, wa_storage a !! s = Some v -> utf8 s.

(** A debugger that keeps its worlds in memory, by directory and name. *)
Notation memory := (gmap (bool * list bytes * bytes) (gmap bytes waccount)).
Definition place (b : request_base) : bool * list bytes * bytes := (Clean (rb_database b), rb_world b).
Definition remember `{denv} (r : request) (s : memory) : memory * sres response :=
  match digest r with
  | None => (s, SErr)
  | Some a =>
      let k := place (digest_base (base_of r)) in
      match serve a (Some (default ∅ (s !! k))) with
      | Some (Some m, x) => (if is_query a then s else <[k := m]> s, SOk x)
      | _ => (s, SPanic)
      end
  end.
Fixpoint remember_run `{denv} (l : list request) (s : memory) : memory * list (sres response) :=
  match l with
  | [] => (s, [])
  | r :: l =>
      let '(s, x) := remember r s in
      let '(s, xs) := remember_run l s in (s, x :: xs)
  end.
(** on the way only well-formed text turns up *)
Fixpoint all_text `{denv} (l : list request) (s : memory) : Prop :=
  (forall k m, s !! k = Some m -> text_accounts m) /\
  match l with [] => True | r :: l => all_text l (fst (remember r s)) end.

(** names that stay in their directory, and can be written *)
Definition plain (name : bytes) : Prop := slash ∉ name.
Record usual `{denv} (r : request) : Prop := mkUsual {
  us_world : plain (rb_world (base_of r));
  us_text : utf8 (rb_world (base_of r));
  us_outcome : plain (rb_outcome (base_of r));
  us_disk : forall name, plain name ->
    let root := rb_database (digest_base (base_of r)) in
    de_writable _ (getWorldFile root name) = true /\ de_writable _ (getOutcomeFile root name) = true
}.

(** the sum of the balances in the world of a request, as a later request would
    find it *)
Definition worth (root name : bytes) (fs : disk) : Z :=
  match loadWorld root name fs with
  | Some d => total_balance (default ∅ (wd_accounts d))
  | None => 0
  end.
Definition makes_account (r : request) : Prop := match r with CreateAccount _ _ _ _ => True | _ => False end.
Definition asks (r : request) : Prop := match r with Query _ _ _ => True | _ => False end.
(** what the machine answered *)
Definition answer (x : response) : option vm_output :=
  match x with RContract _ o | RDeploy _ o _ => o | RAccount _ => None end.
