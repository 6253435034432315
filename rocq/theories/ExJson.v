(** A scenario file in small, as a value and as a text. *)
From Verif Require Import Base JsonModel JsonSpec.

Definition step_json : json :=
  JMap [ (str "name", JStr (str "a \""quoted\"" name"));
         (str "steps",
          JList [ JMap [ (str "step", JStr (str "scCall"));
                         (str "args", JList [JStr (str "0x01"); JStr []]);
                         (str "checkGas", JBool false) ];
                  JMap []; JList []; JBool true ]);
         (str "", JStr (str "empty key")) ].

(** A text that differs from what the printer makes of it. *)
Definition step_text : bytes :=
  str " { ""b"" :[ true,""x"" ,[] ]
, ""a"":{}, ""b"":""again"" } ".
Definition step_value : json :=
  JMap [ (str "b", JList [JBool true; JStr (str "x"); JList []]);
         (str "a", JMap []) ].
