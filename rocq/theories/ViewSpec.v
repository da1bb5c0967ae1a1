(** Specification of what emv-viewer shows. *)
From Coq Require Import String.
From Verif Require Import Base BerSpec TlvSpec StrModel StrSpec InfoModel InfoSpec ToolsSpec PrintSpec ViewModel.
Open Scope string_scope.
Open Scope Z_scope.
Open Scope list_scope.
Notation length := List.length.

(** ** The layout of data *)

(** The end of a block of DES or AES: the data is a multiple of 8 and what remains is less than 8, or a multiple
    of 16 and less than 16. *)
Definition block_padding (len rest : Z) : Prop := (len mod 8 = 0 /\ rest < 8) \/ (len mod 16 = 0 /\ rest < 16).
(** A place in data: a tag of so many octets, or padding. *)
Inductive place := TagAt (off n : Z) | PadAt (off n : Z).
(** [layout ign len off buf ps off' ok]: the octets [buf] at offset [off], the rest of [len] octets, have tags and
    padding at the places [ps]; everything before [off'] is valid, and [ok] tells whether that is all. *)
Inductive layout (ign : bool) : Z -> Z -> list Z -> list place -> Z -> bool -> Prop :=
| la_end len off : layout ign len off [] [] off true
| la_leaf len off id lf v rest ps off' ok : identifier id -> ~ constructed (hd 0 id) -> length_octets lf (Zlen v) ->
    layout ign len (off + Zlen id + Zlen lf + Zlen v) rest ps off' ok ->
    layout ign len off (id ++ lf ++ v ++ rest) (TagAt off (Zlen id) :: ps) off' ok
| la_node len off id lf v rest inner ps off' ok : identifier id -> constructed (hd 0 id) -> length_octets lf (Zlen v) ->
    layout ign (Zlen v) (off + Zlen id + Zlen lf) v inner (off + Zlen id + Zlen lf + Zlen v) true ->
    layout ign len (off + Zlen id + Zlen lf + Zlen v) rest ps off' ok ->
    layout ign len off (id ++ lf ++ v ++ rest) (TagAt off (Zlen id) :: inner ++ ps) off' ok
| la_broken len off id lf v rest inner off' : identifier id -> constructed (hd 0 id) -> length_octets lf (Zlen v) ->
    layout ign (Zlen v) (off + Zlen id + Zlen lf) v inner off' false ->
    layout ign len off (id ++ lf ++ v ++ rest) (TagAt off (Zlen id) :: inner) off' false
| la_pad len off bad : no_object bad -> ign = true -> block_padding len (Zlen bad) ->
    layout ign len off bad [PadAt off (Zlen bad)] (off + Zlen bad) true
| la_bad len off bad : no_object bad -> ~ (ign = true /\ block_padding len (Zlen bad)) ->
    layout ign len off bad [] off false.
(** The layout of data as a whole. *)
Definition data_layout (ign : bool) (buf : list Z) (ps : list place) (valid : Z) (ok : bool) : Prop :=
  layout ign (Zlen buf) 0 buf ps valid ok.
(** The marks are at the places. *)
Definition mark_at (m : mark) (p : place) : Prop :=
  match m, p with
  | Tag off tag, TagAt off' n => off = off' /\ tag_digits tag = n
  | Pad off n, PadAt off' n' => off = off' /\ n = n'
  | _, _ => False
  end.

(** ** Characters *)

(** A character that is not white space; a hex digit. *)
Definition visible (c : Z) : Prop := q_space c = false.
(** White space (the property White_Space of Unicode). *)
Definition white (c : Z) : Prop :=
  9 <= c <= 13 \/ 0x2000 <= c <= 0x200A \/ In c [0x20; 0x85; 0xA0; 0x1680; 0x2028; 0x2029; 0x202F; 0x205F; 0x3000].
Definition hex_char (c : Z) : Prop := exists v, xdigit c v.
(** [octets_of digits bs]: two hex digits for each octet. *)
Inductive octets_of : list Z -> list Z -> Prop :=
| oc_nil : octets_of [] []
| oc_pair a va b vb ds bs : xdigit a va -> xdigit b vb -> octets_of ds bs -> octets_of (a :: b :: ds) (va * 16 + vb :: bs).
(** [reads text data rest]: without white space, [text] is the digits of the octets [data] and [rest], and
    [rest] does not begin with two more digits. *)
Definition no_pair (rest : list Z) : Prop := forall a b r, rest = a :: b :: r -> ~ (hex_char a /\ hex_char b).
Definition reads (str data rest : list Z) : Prop := exists ds, str = ds ++ rest /\ octets_of ds data /\ no_pair rest.

(** The format a digit should have: number [i] of all digits. *)
Definition covered (ps : list place) (sort : place -> option (Z * Z)) (i : Z) : Prop :=
  exists p off n, In p ps /\ sort p = Some (off, n) /\ 2 * off <= i < 2 * (off + n).
Definition as_tag (p : place) : option (Z * Z) := match p with TagAt off n => Some (off, n) | _ => None end.
Definition as_pad (p : place) : option (Z * Z) := match p with PadAt off n => Some (off, n) | _ => None end.
Inductive base_fmt (emph : bool) (ps : list place) (valid : Z) (i : Z) : fmt -> Prop :=
| bf_pad : emph = true -> covered ps as_pad i -> base_fmt emph ps valid i padding_fmt
| bf_tag : emph = true -> ~ covered ps as_pad i -> covered ps as_tag i -> base_fmt emph ps valid i tag_fmt
| bf_plain : ~ (emph = true /\ (covered ps as_pad i \/ covered ps as_tag i)) -> i < 2 * valid -> base_fmt emph ps valid i plain_fmt
| bf_bad : ~ (emph = true /\ (covered ps as_pad i \/ covered ps as_tag i)) -> 2 * valid <= i -> base_fmt emph ps valid i invalid_fmt.
Inductive digit_fmt (emph : bool) (sel : Z * Z) (ps : list place) (valid : Z) (i : Z) : fmt -> Prop :=
| df_selected f : 0 < snd sel -> fst sel <= i < fst sel + snd sel -> base_fmt emph ps valid i f -> digit_fmt emph sel ps valid i (selected_fmt f)
| df_base f : ~ (0 < snd sel /\ fst sel <= i < fst sel + snd sel) -> base_fmt emph ps valid i f -> digit_fmt emph sel ps valid i f.

(** ** The tree *)

Definition spaced_hex (v : list Z) : list Z := tl (spaced v).
Definition tag_line (id v : list Z) : list Z := hex_text id ++ lit " : " ++ bracketed (Zlen v).
(** The name of a field, with its description if that is one line. *)
Inductive named_line (id : list Z) : option string -> kind -> list Z -> list Z -> Prop :=
| nl_none k s : named_line id None k s (hex_text id)
| nl_bare n k s : s = [] \/ last s 0 = 10 -> named_line id (Some n) k s (titled id (Some n))
| nl_text n k s : In k [IsA; IsAN; IsANS] -> s <> [] -> last s 0 <> 10 -> named_line id (Some n) k s (titled id (Some n) ++ lit " : " ++ [34] ++ s ++ [34])
| nl_other n k s : ~ In k [IsA; IsAN; IsANS] -> s <> [] -> last s 0 <> 10 -> named_line id (Some n) k s (titled id (Some n) ++ lit " : " ++ s).
(** [t] is [s] without white space at its ends. *)
Definition trimmed_text (s t : list Z) : Prop :=
  exists a b, s = a ++ t ++ b /\ Forall space a /\ Forall space b /\ (t <> [] -> ~ space (hd 0 t) /\ ~ space (last t 0)).
Definition line_item (t : list Z) (kids : list item) : item := Item (mkAttr None false [] [] t false) kids.
Inductive dol_shown : list Z -> list item -> Prop :=
| ds_end buf : (forall id n rest, identifier id -> buf <> id ++ n :: rest) -> dol_shown buf []
| ds_entry id n name rest l : identifier id -> is_byte n -> has_entry_name (be id) (Z.to_nat n) name -> dol_shown rest l ->
    dol_shown (id ++ n :: rest) (line_item (titled id name ++ lit " " ++ bracketed n) [] :: l).
Inductive tags_shown : list Z -> list item -> Prop :=
| ts_end buf : (forall id rest, identifier id -> buf <> id ++ rest) -> tags_shown buf []
| ts_entry id name rest l : identifier id -> has_entry_name (be id) 0 name -> tags_shown rest l ->
    tags_shown (id ++ rest) (line_item (titled id name) [] :: l).
(** What is below a primitive field, after its octets. *)
Inductive below (v : list Z) : kind -> list Z -> list item -> Prop :=
| bl_list k s t : s <> [] -> last s 0 = 10 -> trimmed_text s t -> below v k s [line_item t []]
| bl_dol s l : s = [] \/ last s 0 <> 10 -> dol_shown v l -> below v IsDol s [line_item (lit "Data Object List:") l]
| bl_tags s l : s = [] \/ last s 0 <> 10 -> tags_shown v l -> below v IsTagList s [line_item (lit "Tag List:") l]
| bl_none k s : ~ In k [IsDol; IsTagList] -> s = [] \/ last s 0 <> 10 -> below v k s [].
Definition octets_line (v : list Z) : list Z := bracketed (Zlen v) ++ lit " " ++ spaced_hex v.
Definition hide (h : bool) (i : item) : item := match i with Item a k => Item (mkAttr (a_src a) (a_cons a) (a_simple a) (a_decoded a) (a_text a) h) k end.
(** An item for a field: its place, the text without and with decoding, and which of them is shown. *)
Definition field_attr (dec : bool) (off n : Z) (cons : bool) (simple decoded : list Z) : attr :=
  mkAttr (Some (off, n)) cons simple decoded (if dec then decoded else simple) false.
Inductive leaf_shown (describes : describer) (dec : bool) (off : Z) (id lf v : list Z) : item -> Prop :=
| ls_leaf n k s d more : has_name (be id) v n -> describes (be id) v k s -> named_line id n k s d -> below v k s more ->
    leaf_shown describes dec off id lf v
      (Item (field_attr dec off (Zlen id + Zlen lf + Zlen v) false (tag_line id v ++ lit " " ++ spaced_hex v) d)
            (map (hide (negb dec)) (line_item (octets_line v) [] :: more))).
Definition padding_shown (off : Z) (bad : list Z) : item :=
  Item (field_attr false off (Zlen bad) false (lit "Padding : " ++ bracketed (Zlen bad) ++ lit " " ++ spaced_hex bad)
          (lit "Padding : " ++ bracketed (Zlen bad) ++ lit " " ++ spaced_hex bad)) [].
(** The items for data, as the layout. *)
Inductive tree_shown (describes : describer) (ign dec : bool) : Z -> Z -> list Z -> list item -> Z -> bool -> Prop :=
| tr_end len off : tree_shown describes ign dec len off [] [] off true
| tr_leaf len off id lf v rest i l off' ok : identifier id -> ~ constructed (hd 0 id) -> length_octets lf (Zlen v) ->
    leaf_shown describes dec off id lf v i ->
    tree_shown describes ign dec len (off + Zlen id + Zlen lf + Zlen v) rest l off' ok ->
    tree_shown describes ign dec len off (id ++ lf ++ v ++ rest) (i :: l) off' ok
| tr_node len off id lf v rest n k s d inner l off' ok : identifier id -> constructed (hd 0 id) -> length_octets lf (Zlen v) ->
    has_name (be id) v n -> describes (be id) v k s -> named_line id n k s d ->
    tree_shown describes ign dec (Zlen v) (off + Zlen id + Zlen lf) v inner (off + Zlen id + Zlen lf + Zlen v) true ->
    tree_shown describes ign dec len (off + Zlen id + Zlen lf + Zlen v) rest l off' ok ->
    tree_shown describes ign dec len off (id ++ lf ++ v ++ rest)
      (Item (field_attr dec off (Zlen id + Zlen lf + Zlen v) true (tag_line id v) d) inner :: l) off' ok
| tr_broken len off id lf v rest n k s d inner off' : identifier id -> constructed (hd 0 id) -> length_octets lf (Zlen v) ->
    has_name (be id) v n -> describes (be id) v k s -> named_line id n k s d ->
    tree_shown describes ign dec (Zlen v) (off + Zlen id + Zlen lf) v inner off' false ->
    tree_shown describes ign dec len off (id ++ lf ++ v ++ rest)
      [Item (field_attr dec off (Zlen id + Zlen lf + Zlen v) true (tag_line id v) d) inner] off' false
| tr_pad len off bad : no_object bad -> ign = true -> block_padding len (Zlen bad) ->
    tree_shown describes ign dec len off bad [padding_shown off bad] (off + Zlen bad) true
| tr_bad len off bad : no_object bad -> ~ (ign = true /\ block_padding len (Zlen bad)) ->
    tree_shown describes ign dec len off bad [] off false.

(** The items that stand for fields or padding, parents first; where they begin. *)
Fixpoint fields_in (i : item) : list (Z * Z) :=
  match i with Item a kids => match a_src a with Some p => p :: flat_map fields_in kids | None => flat_map fields_in kids end end.
Definition begins (m : mark) : Z := match m with Tag off _ => off | Pad off _ => off end.
(** Characters that isxdigit can be asked about. *)
Definition latin (c : Z) : Prop := 0 <= c < 256.
(** What an item stands for: an object or padding. *)
Definition stands_for (enc : list Z) : Prop :=
  (exists tag flags v, encodes enc tag flags v) \/ (exists id rest, enc = id ++ 128 :: rest /\ identifier id /\ constructed (hd 0 id)) \/ no_object enc.
Definition field_at (data : list Z) (p : Z * Z) : Prop :=
  exists pre enc post, data = pre ++ enc ++ post /\ Zlen pre = fst p /\ Zlen enc = snd p /\ stands_for enc.
(** An item is in the tree. *)
Inductive in_tree (i : item) : list item -> Prop :=
| it_here l : In i l -> in_tree i l
| it_below a kids l : In (Item a kids) l -> in_tree i kids -> in_tree i l.
(** A field that cannot be described (InfoProps.v) is in the data. *)
Definition has_unprintable (itr : list Z) : Prop := exists pre enc post tag flags v, itr = pre ++ enc ++ post /\ encodes enc tag flags v /\ unprintable tag v value_str.
