(** Specification of what is printed for an answer to reset. *)
From Coq Require Import String.
From Verif Require Import Base DolSpec TlvSpec StrModel StrSpec FlagsSpec CapduSpec CardSpec AtrSpec AtrTextSpec StatusSpec PrintSpec.
Open Scope string_scope.
Open Scope Z_scope.
Open Scope list_scope.
Notation length := List.length.

Definition rule_line : list Z := lit "  ----" ++ nl.
(** "  NAME = 0xHH: text" *)
Definition octet_text (name : list Z) (b : Z) (s : list Z) : list Z := lit "  " ++ name ++ lit " = 0x" ++ hex2 b ++ lit ": " ++ s ++ nl.
(** An interface byte: for i = 1 and i = 2 also if it is absent. *)
Definition iface_text (name : string) (i : nat) (o : option Z) (s : list Z) : list Z :=
  let n := lit name ++ decimal_text (Z.of_nat i) in
  match o with
  | Some b => octet_text n b s
  | None => if (i <=? 2)%nat then lit "  " ++ n ++ lit " absent: " ++ s ++ nl else []
  end.
Definition present (o : option Z) : bool := match o with Some _ => true | None => false end.
(** The texts of the interface bytes [a i] of TAi, and so on. *)
Definition group_text (gs : list group) (a b c d : nat -> list Z) (i : nat) : list Z :=
  (if present (byte_of gA i gs) || present (byte_of gB i gs) || present (byte_of gC i gs) || present (byte_of gD i gs) || (i <=? 2)%nat then rule_line else []) ++
  iface_text "TA" i (byte_of gA i gs) (a i) ++ iface_text "TB" i (byte_of gB i gs) (b i) ++ iface_text "TC" i (byte_of gC i gs) (c i) ++
  match byte_of gD i gs with Some t => octet_text (lit "TD" ++ decimal_text (Z.of_nat i)) t (d i) | None => [] end.

(** ** Historical bytes *)
Definition joined (v : list Z) : list Z := match v with [] => [] | b :: v => hex2 b ++ spaced v end.
Definition hex1 (k : Z) : list Z := skipn 1 (hex2 k).
Definition object_name (k : Z) (n : string) : Prop := In (0x40 + k, n) ctlv_names \/ (n = "Unknown" /\ forall t, ~ In (0x40 + k, t) ctlv_names).
(** The descriptions of card service data (first octet) and card capabilities; none if the number of
    logical channels is a reserved value. *)
Definition object_lists (o : Z * list Z) : list (list Z) :=
  if fst o =? 3 then table_texts T_service (firstn 1 (snd o))
  else if (fst o =? 7) && negb ((3 <=? length (snd o))%nat && (range (octet (snd o) 3) 5 4 =? 3)) then caps_texts (snd o)
  else [].
Definition object_text (o : Z * list Z) (txt : list Z) : Prop :=
  exists n, object_name (fst o) n /\
    txt = lit "  " ++ lit n ++ lit " (0x" ++ hex1 (fst o) ++ lit "): " ++ bracketed (Zlen (snd o)) ++ lit " " ++ joined (snd o) ++ nl ++
      flat_map (fun t => line_at (lit "  ") 2 (lit "- " ++ t)) (object_lists o).
Definition objects_text (objs : list (Z * list Z)) (txt : list Z) : Prop := exists ts, Forall2 object_text objs ts /\ txt = List.concat ts.
Definition objects_enc (objs : list (Z * list Z)) : list Z := flat_map (fun o => ctlv_enc (fst o) (snd o)) objs.
(** Objects that can be described. *)
Definition describable (o : Z * list Z) : Prop := o <> (3, []) /\ o <> (7, [0]).
(** The category indicator, then the objects or the octets. *)
Inductive hist_text : list Z -> list Z -> Prop :=
| ht_none : hist_text [] []
| ht_other b h : b <> 0 -> b <> 0x80 -> hist_text (b :: h) (rule_line ++ octet_text (lit "T1 ") b (category_text b) ++ lit "  Historical bytes: " ++ hex_text h ++ nl)
| ht_80 objs txt : Forall ctlv_ok objs -> objects_text objs txt -> hist_text (0x80 :: objects_enc objs) (rule_line ++ octet_text (lit "T1 ") 0x80 (category_text 0x80) ++ txt)
| ht_00 objs si txt : Forall ctlv_ok objs -> length si = 3%nat -> objects_text objs txt ->
    hist_text (0 :: objects_enc objs ++ si) (rule_line ++ octet_text (lit "T1 ") 0 (category_text 0) ++ txt).
(** All objects in the historical bytes can be described. *)
Definition printable_hist (hist : list Z) : Prop :=
  forall objs, Forall ctlv_ok objs -> hist = 0x80 :: objects_enc objs \/ (exists si, length si = 3%nat /\ hist = 0 :: objects_enc objs ++ si) ->
    Forall describable objs.

(** ** Status indicator *)
Definition life_says (b : Z) (s : list Z) : Prop :=
  match iso_life b with
  | LifeNone => s = lit "No information given" | LifeCreation => s = lit "Creation state" | LifeInit => s = lit "Initialisation state"
  | LifeActive => s = lit "Operational state (activated)" | LifeInactive => s = lit "Operational state (deactivated)"
  | LifeTerminated => s = lit "Termination state" | LifeProprietary => s = lit "Proprietary" | LifeReserved => True
  end.
Definition status_values (st : list Z) : Z * Z * Z :=
  match st with [l] => (l, 0, 0) | [a; b] => (0, a, b) | [l; a; b] => (l, a, b) | _ => (0, 0, 0) end.
Definition status_text (st : option (list Z)) (txt : list Z) : Prop :=
  match st with
  | None => txt = []
  | Some st =>
    let '(l, a, b) := status_values st in
    exists sl sw, life_says l sl /\ sw_says a b sw /\
      txt = rule_line ++ lit "  LCS = " ++ hex2 l ++ lit ": " ++ sl ++ nl ++
        (if (a =? 0) && (b =? 0) then [] else lit "  SW  = " ++ hex2 a ++ hex2 b ++ lit ": (" ++ sw ++ lit ")" ++ nl)
  end.

(** ** All of it *)
Definition atr_text (atr : list Z) (ts t0 : Z) (gs : list group) (tck : list Z) (s0 : list Z) (a b c d : nat -> list Z) (h st : list Z) : list Z :=
  lit "ATR: " ++ hex_text atr ++ nl ++
  octet_text (lit "TS ") ts (lit (if ts =? 0x3B then "Direct convention" else "Inverse convention")) ++
  octet_text (lit "T0 ") t0 s0 ++
  flat_map (group_text gs a b c d) [1; 2; 3; 4]%nat ++ h ++ st ++
  rule_line ++ lit "  TCK = 0x" ++ hex2 (hd 0 tck) ++ nl.
