(** Specification of the text printed for BER data. *)
From Coq Require Import String.
From Verif Require Import Base BerSpec TlvSpec StrModel StrSpec FlagsSpec ToolsSpec PrintSpec.
Open Scope string_scope.
Open Scope Z_scope.
Open Scope list_scope.
Notation length := List.length.

(** The characters before the first NUL. *)
Inductive before_nul : list Z -> list Z -> Prop :=
| bn_all s : ~ In 0 s -> before_nul s s
| bn_cut s r : ~ In 0 s -> before_nul (s ++ 0 :: r) s.
(** Numbers with a space between them. *)
Definition numbers (arcs : list Z) : list Z := tl (flat_map (fun a => 32 :: decimal_text a) arcs).
(** What follows the octets of a primitive object: strings in quotation marks, object identifiers in braces. *)
Inductive remark (tag : Z) (v : list Z) : list Z -> Prop :=
| re_string s : string_tag tag -> Zlen v < 1024 -> before_nul v s -> remark tag v (lit " " ++ [34] ++ s ++ [34])
| re_long : string_tag tag -> 1024 <= Zlen v -> remark tag v (lit " " ++ [34] ++ lit "..." ++ [34])
| re_oid arcs : tag = 6 -> oid_arcs v arcs -> Zlen arcs <= 10 -> Zlen v < 40 -> remark tag v (lit " {" ++ numbers arcs ++ lit "}")
| re_none : ~ string_tag tag -> tag <> 6 -> remark tag v [].
Definition ber_head (id v : list Z) : list Z := hex_text id ++ lit " : " ++ bracketed (Zlen v).
(** The objects one after the other, each in a line; those in a constructed one below it. *)
Inductive ber_text (prefix : list Z) : nat -> list Z -> list Z -> Prop :=
| bx_nil d : ber_text prefix d [] []
| bx_leaf d id lf v rest t txt : identifier id -> bytes v -> ~ constructed (hd 0 id) -> length_octets lf (Zlen v) -> remark (be id) v t -> ber_text prefix d rest txt ->
    ber_text prefix d (id ++ lf ++ v ++ rest) (line_at prefix d (ber_head id v ++ spaced v ++ t) ++ txt)
| bx_node d id lf v rest inner txt : identifier id -> bytes v -> constructed (hd 0 id) -> length_octets lf (Zlen v) -> ber_text prefix (S d) v inner -> ber_text prefix d rest txt ->
    ber_text prefix d (id ++ lf ++ v ++ rest) (line_at prefix d (ber_head id v) ++ inner ++ txt).
(** Object identifiers the dump can show. *)
Definition plain_oid (v : list Z) : Prop := exists arcs, oid_arcs v arcs /\ Zlen arcs <= 10 /\ Zlen v < 40.
(** Data that breaks off, and what is printed before the offset. *)
Inductive ber_broken (prefix : list Z) : nat -> list Z -> Z -> list Z -> Prop :=
| bb_here d enc bad txt code : ber_text prefix d enc txt -> no_object bad -> 1 <= code <= 11 ->
    ber_broken prefix d (enc ++ bad) (Zlen enc) (txt ++ lit "BER decoding error -" ++ decimal_text code)
| bb_in d enc id lf v rest off txt inner : ber_text prefix d enc txt -> identifier id -> bytes v -> constructed (hd 0 id) ->
    length_octets lf (Zlen v) -> ber_broken prefix (S d) v off inner ->
    ber_broken prefix d (enc ++ id ++ lf ++ v ++ rest) (Zlen enc + Zlen id + Zlen lf + off)
      (txt ++ line_at prefix d (ber_head id v) ++ inner).
