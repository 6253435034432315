(** A file for the examples on K. *)
From Verif Require Import Base JsonModel.

Definition deploy_file : bytes :=
  str "{""tx"": {""to"": """", ""contractCode"": ""a.wasm"", ""code"": [""b""]}, ""contractCode"": ""c"", ""code"": ""d""}".
Definition deploy_json : json :=
  JMap [(str "tx", JMap [(str "to", JStr []); (str "contractCode", JStr (str "a.wasm")); (str "code", JList [JStr (str "b")])]);
        (str "contractCode", JStr (str "c")); (str "code", JStr (str "d"))].
(** Another, in which the code is named otherwise. *)
Definition other_file : bytes :=
  str "{""tx"": {""to"": """", ""contractCode"": ""z.wasm"", ""code"": [""b""]}, ""contractCode"": ""c"", ""code"": ""d""}".
Definition assembled (s : bytes) : bytes := str "0x".
