(** Function names and call data: properties C40 and C49. *)
From Verif Require Import CtxModel CallDataModel CallDataProofs DigitSpec DigitProofs ExEnv.

(** C40.  A name is accepted exactly when it is non-empty, at most 255 bytes,
    ASCII, and neither an API import, an active built-in function nor
    "upgradeContract"; every other name is rejected with the invalid-name
    error. *)
Theorem C40_name_valid_iff : forall `{E : env} n,
  verifyValidFunctionName n = ROk tt <->
  (n <> [] /\ (length n <= 255)%nat /\ Forall (fun b => bz b < 128) n /\
   e_apiname E n = false /\ e_isBuiltin E n = false /\ n <> str "upgradeContract").
Proof. exact @valid_name_spec. Qed.
Print Assumptions C40_name_valid_iff.

Theorem C40_name_rejected_otherwise : forall `{E : env} n,
  verifyValidFunctionName n = ROk tt \/ verifyValidFunctionName n = RErr ErrInvalidFunctionName.
Proof. exact @valid_name_total. Qed.
Print Assumptions C40_name_rejected_otherwise.

(** C40, whole modules: accepted iff every exported name is valid and void,
    whatever the order in which the exports are visited. *)
Theorem C40_module_names : forall `{E : env} m, env_ok E ->
  verifyFunctions m = ROk tt <->
  Forall (fun n => verifyValidFunctionName n = ROk tt /\ wm_void m n = Some (0, 0)) (map fst (wm_exports m)).
Proof. exact @verifyFunctions_spec. Qed.
Print Assumptions C40_module_names.

Example C40_ex_valid : verifyValidFunctionName (E := exEnv []) (str "getSum") = ROk tt.
Proof. reflexivity. Qed.
Example C40_ex_reserved : verifyValidFunctionName (E := exEnv []) (str "builtin") = RErr ErrInvalidFunctionName.
Proof. reflexivity. Qed.
Example C40_ex_length :
  verifyValidFunctionName (E := exEnv []) (replicate 255 Byte.x61) = ROk tt /\
  verifyValidFunctionName (E := exEnv []) (replicate 256 Byte.x61) = RErr ErrInvalidFunctionName.
Proof. split; vm_compute; reflexivity. Qed.
Example C40_ex_module : verifyFunctions (E := exEnv []) (mod_of [(str "f", PRet); (str "init", PRet)]) = ROk tt.
Proof. reflexivity. Qed.

(** C49.  The call data built from a function name without separator and any
    arguments parses back to the same call. *)
Theorem C49_call_data_roundtrip : forall f args,
  f <> [] -> Forall (fun b => b <> sepByte) f ->
  ParseData (makeCallData f args) = ROk (f, args).
Proof. exact ParseData_make. Qed.
Print Assumptions C49_call_data_roundtrip.

(** The text of call data: the name, then separators and lower-case digits, one
    separator for each argument and two digits for each of its bytes. *)
Theorem C49_text : forall f args, exists t, makeCallData f args = f ++ t /\
  Forall (fun b => b = zb 64 \/ 48 <= bz b <= 57 \/ 97 <= bz b <= 102) t /\
  length t = (length args + 2 * length (concat args))%nat.
Proof. exact make_text. Qed.
Print Assumptions C49_text.

(** The data that parse as a call are that text, in which digits may also be
    upper-case, and no other. *)
Theorem C49_parse_iff : forall d f args, ParseData d = ROk (f, args) <->
  f <> [] /\ Forall (fun b => b <> zb 64) f /\ exists t, d = f ++ t /\ map lower t = makeCallData [] args.
Proof. exact parse_text. Qed.
Print Assumptions C49_parse_iff.
Example C49_parse_ex : ParseData (str "f@0aFF@") = ROk (str "f", [[Byte.x0a; Byte.xff]; []]) /\
  ParseData (str "@0aFF@") = RErr ErrParser /\ ParseData (str "f@0aF") = RErr ErrParser.
Proof. split_and!; reflexivity. Qed.
Example C49_text_ex : makeCallData (str "f") [[Byte.x00; Byte.xff]; []] = str "f@00ff@".
Proof. reflexivity. Qed.

Example C49_ex : ParseData (makeCallData (str "transfer") [[]; [Byte.x00; Byte.xff]; str "@"])
  = ROk (str "transfer", [[]; [Byte.x00; Byte.xff]; str "@"]).
Proof. reflexivity. Qed.
(** a separator inside the name does change the call: the hypothesis is needed *)
Example C49_ex_sep : ParseData (makeCallData (str "a@b") []) <> ROk (str "a@b", []).
Proof. vm_compute. discriminate. Qed.
