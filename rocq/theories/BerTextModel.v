(** Model of the text print_ber_buf writes (tools/print_helpers.c); what is printed in which order is in
    ToolsModel.v. *)
From Coq Require Import String.
From Verif Require Import Base BerModel StrModel CapduModel FlagsModel InfoModel ToolsModel PrintModel.
Open Scope string_scope.
Open Scope Z_scope.
Open Scope list_scope.
Notation length := List.length.

(** printf's "%d" *)
Definition p_int (r : Z) : list Z := if r <? 0 then 0x2D :: p_dec (- r) else p_dec r.
(** print_helpers.c:446-448 and 485-487: " %02X" for each octet *)
Definition p_octets (v : list Z) : list Z := flat_map (fun b => 32 :: p_02X b) v.
(** print_helpers.c:422-424: "%s%u", i ? " " : "" *)
Fixpoint p_arcs (first : bool) (arcs : list Z) : list Z :=
  match arcs with [] => [] | a :: arcs => (if first then [] else [32]) ++ p_dec a ++ p_arcs false arcs end.
(** print_helpers.c:401-426: what follows the octets of a primitive field; [str] holds the value and a NUL. *)
Definition note_text (n : note) : out (list Z) :=
  match n with
  | NNone => Ret []
  | NText v => let* s := p_s (v ++ [0]) in Ret (lit " " ++ [34] ++ s ++ [34])
  | NLong => Ret (lit " " ++ [34] ++ lit "..." ++ [34])
  | NOid arcs => Ret (lit " {" ++ p_arcs true arcs ++ lit "}")
  | NInfo t => Ret t
  end.
(** print_helpers.c:361-372 and 397-428, 441-449, 456, 481 and 484-488.  The line of an object identifier that
    is not decoded (no note) is not ended. *)
Definition event_text (prefix : list Z) (ev : event) : out (list Z) :=
  match ev with
  | ELeaf d tag v n =>
    let* t := note_text n in
    Ret (field_head prefix d tag (Zlen v) None ++ p_octets v ++ t ++
         match n with NNone => if tag =? 0x06 then [] else newline | _ => newline end)
  | ENode d tag len => Ret (field_head prefix d tag len None ++ newline)
  | EPad d p => Ret (indent prefix d ++ lit "Padding : [" ++ p_dec (Zlen p) ++ lit "]" ++ p_octets p ++ newline)
  | EErr r => Ret (lit "BER decoding error " ++ p_int r)
  | EFailed => Ret (lit "BER decoding failed" ++ newline)
  | ERest off p => Ret (lit " at offset " ++ p_int off ++ lit "; remaining invalid data:" ++ p_octets p ++ newline)
  end.
Fixpoint events_text (prefix : list Z) (evs : list event) : out (list Z) :=
  match evs with
  | [] => Ret []
  | ev :: evs => let* a := event_text prefix ev in let* b := events_text prefix evs in Ret (a ++ b)
  end.
(** print_helpers.c:463-490 [print_ber_buf]: the text. *)
Definition print_ber_text (prefix buf : list Z) (depth : nat) (ign : bool) : out (list Z) :=
  let* evs := print_ber_buf buf depth ign in events_text prefix evs.
