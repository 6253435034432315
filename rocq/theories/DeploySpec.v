(** Vocabulary for deployments: which contracts are well-formed, who may replace
    code, which code an address has and which module is running. *)
From Verif Require Import VmTypes CtxModel.

(** a name that contracts may export *)
Definition exportable `{E : env} (name : bytes) : Prop :=
  name <> [] /\ (length name <= 255)%nat /\ Forall (fun b => bz b < 128) name /\
  e_apiname E name = false /\ e_isBuiltin E name = false /\ name <> str "upgradeContract".
(** a module that declares memory and exports only functions of such names
    without arguments and results *)
Definition well_formed `{E : env} (m : wmodule) : Prop :=
  wm_hasmem m = true /\ forall name p, In (name, p) (wm_exports m) -> exportable name /\ wm_void m name = Some (0, 0).
(** [code] compiles to a well-formed module *)
Definition deployable `{E : env} (code : bytes) : Prop := exists m, e_compile E code = Some m /\ well_formed m.

(** the module of the running instance *)
Definition running_module (h : host) : option wmodule :=
  match h_cur h with
  | Some c => in_mod <$> h_insts h !! c
  | None => None
  end.

(** the code which [a] has: as changed in this transaction, else as in the world *)
Definition code_now (h : host) (a : bytes) : bytes :=
  let changed := default [] (oa_code <$> o_accounts (h_out h) !! a) in
  if bool_decide (changed = []) then default [] (ua_code <$> w_accounts (h_world h) !! a) else changed.
(** the compiled-code cache holds nothing else than the compilation of [code]
    under the hash which the world has for [a] *)
Definition cache_right (h : host) (a code : bytes) : Prop :=
  forall u c, w_accounts (h_world h) !! a = Some u -> ua_codehash u <> [] -> h_cache h !! ua_codehash u = Some c -> c = code.
(** the cache maps hashes to code with that hash only *)
Definition cache_ok `{E : env} (h : host) : Prop :=
  forall hash code, h_cache h !! hash = Some code -> e_sha256 E code = hash.

(** who may replace the code of [a]: [by], when [a] exists, is marked
    upgradeable (bit 0 of the first of two metadata bytes) and [by] is its owner *)
Definition upgradeable (meta : bytes) : Prop := exists b c, meta = [b; c] /\ Z.odd (bz b) = true.
Definition may_upgrade (w : world) (a by_ : bytes) : Prop :=
  exists u, w_accounts w !! a = Some u /\ upgradeable (ua_meta u) /\ ua_owner u = by_.

(** built-in functions change neither metadata nor owner of [a] *)
Definition builtins_keep_owner `{E : env} (a : bytes) : Prop :=
  forall w i u, w_accounts w !! a = Some u ->
    exists u', w_accounts (fst (e_builtin E w i)) !! a = Some u' /\ ua_meta u' = ua_meta u /\ ua_owner u' = ua_owner u.

(** the nonce that address derivations see for [c] *)
Definition nonce_now (h : host) (c : bytes) : Z :=
  let changed := default 0 (oa_nonce <$> o_accounts (h_out h) !! c) in
  if changed =? 0 then default 0 (ua_nonce <$> w_accounts (h_world h) !! c) else changed.

(** [a] exists in [w] and is not marked upgradeable *)
Definition not_upgradeable (a : bytes) (w : world) : Prop :=
  exists u, w_accounts w !! a = Some u /\ ~ upgradeable (ua_meta u).
(** the output [o] replaces nothing of the code of [a] *)
Definition keeps_code (o : vm_output) (a : bytes) : Prop :=
  forall x, o_accounts o !! a = Some x -> oa_code x = [] /\ oa_meta x = [] /\ oa_deployer x = None.

(** states in which [code], freshly compiled and well-formed, is about to run *)
Definition new_code_runs `{E : env} (code : bytes) (hs : host) : Prop :=
  exists m, e_compile E code = Some m /\ well_formed m /\ running_module hs = Some m.
(** states in which the address [a] runs, still with the code which it had in
    [h], and the module that runs is the compilation of that code *)
Definition current_code_runs `{E : env} (a : bytes) (h hs : host) : Prop :=
  r_addr (h_rt hs) = a /\ code_now hs a = code_now h a /\
  exists m, e_compile E (code_now hs a) = Some m /\ running_module hs = Some m.
(** no cache, or a cache that holds nothing wrong for the code of [a] *)
Definition cache_fine `{E : env} (h : host) (a code : bytes) : Prop := e_aot E = false \/ cache_right h a code.
