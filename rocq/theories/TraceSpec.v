(** What a line of the trace is, independent of the model. *)
From Coq Require Import String.
From Verif Require Import Base StrModel StrSpec TlvSpec.
Open Scope string_scope.
Open Scope Z_scope.
Open Scope list_scope.

Definition source_names : list (Z * string) := [(1, "TTL"); (2, "TAL"); (4, "EMV"); (8, "APP")].
Definition level_names : list (Z * string) := [(1, "ERROR"); (2, "INFO"); (3, "CARD"); (4, "TRACE")].
(** The name of a number, [unknown] if it has none. *)
Definition called (names : list (Z * string)) (unknown : string) (n : Z) (s : list Z) : Prop :=
  (exists t, In (n, t) names /\ s = lit t) \/ (~ In n (map fst names) /\ s = lit unknown).
(** A message, all of the octets in hexadecimal and perhaps a note in parentheses. *)
Definition shows_octets (str data text : list Z) : Prop :=
  exists note, text = str ++ lit ": " ++ hex_text data ++ note ++ [10] /\ (note = [] \/ exists s, note = lit " (" ++ s ++ lit ")").
