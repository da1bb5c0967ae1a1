(** Model of emv-viewer: viewer/emvhighlighter.cpp, viewer/emvtreeview.cpp, viewer/emvtreeitem.cpp and
    the parts of viewer/emv-viewer-mainwindow.cpp that work on the data.  Text typed by the user is a
    list of UTF-16 units; text of the library is a list of the octets that are given to Qt, which takes
    them as UTF-8.  Fonts, colours other than those below, expansion of items, the description panel,
    timers and signals are not modelled. *)
From Coq Require Import String.
From Verif Require Import Base BerModel TlvModel DolModel StrModel CapduModel FlagsModel InfoModel ToolsModel PrintModel.
Open Scope string_scope.
Open Scope Z_scope.
Open Scope list_scope.
Notation length := List.length.

(** ** Text *)

(** isxdigit(c.unicode()): the argument must be a value of unsigned char. *)
Definition xdigit_of (c : Z) : out bool := if c <? 256 then Ret (is_xdigit c) else UB.
(** QChar::isSpace: the characters 9 to 13, 20, 85 and A0 and the separators of Unicode. *)
Definition q_space (c : Z) : bool :=
  ((0x09 <=? c) && (c <=? 0x0D)) || (c =? 0x20) || (c =? 0x85) || (c =? 0xA0) || (c =? 0x1680) ||
  ((0x2000 <=? c) && (c <=? 0x200A)) || (c =? 0x2028) || (c =? 0x2029) || (c =? 0x202F) || (c =? 0x205F) || (c =? 0x3000).
(** str.simplified().remove(' '): simplified leaves single spaces only. *)
Definition stripped (s : list Z) : list Z := filter (fun c => negb (q_space c)) s.
(** emvhighlighter.cpp:195-201 and mainwindow.cpp:189-196: the number of characters before the first
    that is not a hex digit. *)
Fixpoint hex_prefix (s : list Z) : out Z :=
  match s with
  | [] => Ret 0
  | c :: s => let* x := xdigit_of c in if (x : bool) then let* n := hex_prefix s in Ret (1 + n) else Ret 0
  end.
(** emvhighlighter.cpp:203-208, mainwindow.cpp:198-203 *)
Definition even_down (n : Z) : Z := if Z.odd n then n - 1 else n.
(** QByteArray::fromHex for an even number of hex digits. *)
Fixpoint from_hex (s : list Z) : list Z :=
  match s with a :: b :: s => xvalue a * 16 + xvalue b :: from_hex s | _ => [] end.

(** ** What is valid *)

(** emvhighlighter.cpp:120-132, emvtreeview.cpp:95-104: the remaining octets look like padding. *)
Definition looks_padding (ign : bool) (len valid : Z) : bool :=
  ign && (0 <? len - valid) &&
  (((Z.land len 0x7 =? 0) && (len - valid <? 8)) || ((Z.land len 0xF =? 0) && (len - valid <? 16))).

(** A call of tagFunc or of paddingFunc. *)
Inductive mark := Tag (off tag : Z) | Pad (off len : Z).
(** emvhighlighter.cpp:62-144 [parseBerData]; the result is the return value, the calls and
    [*totalValidBytes].  [valid] is validBytes and [total] is *totalValidBytes. *)
Fixpoint ber_walk (fuel : nat) (ign : bool) (buf itr : list Z) (valid total : Z) : out (bool * list mark * Z) :=
  match fuel with
  | O => NoFuel
  | Datatypes.S fuel =>
    let* (r, t, itr') := ber_itr_next itr in
    if r <=? 0 then
      if r <? 0 then
        if looks_padding ign (Zlen buf) valid
        then Ret (true, [Pad total (Zlen buf - valid)], total + (Zlen buf - valid))
        else Ret (false, [], total)
      else Ret (true, [], total)
    else match t with
    | None => UB
    | Some t =>
      if ber_is_constructed t then
        let* (ok, ms, total2) := ber_walk fuel ign (b_val t) (ber_itr_init (b_val t)) 0 (total + (r - b_len t)) in
        if negb ok then Ret (false, Tag total (b_tag t) :: ms, total2)
        else
          let* (ok, ms', total3) := ber_walk fuel ign buf itr' (valid + (r - b_len t) + b_len t) total2 in
          Ret (ok, Tag total (b_tag t) :: ms ++ ms', total3)
      else
        let* (ok, ms, total2) := ber_walk fuel ign buf itr' (valid + r) (total + r) in
        Ret (ok, Tag total (b_tag t) :: ms, total2)
    end
  end.
Definition parse_ber (ign : bool) (buf : list Z) : out (bool * list mark * Z) :=
  ber_walk (Datatypes.S (length buf)) ign buf (ber_itr_init buf) 0 0.

(** ** Highlighting *)

(** emvhighlighter.cpp:217-235: positions in digits.  A tag is an unsigned int, so the last case of
    the code does not occur. *)
Definition tag_digits (tag : Z) : Z :=
  if tag <=? 0xFF then 1 else if tag <=? 0xFFFF then 2 else if tag <=? 0xFFFFFF then 3 else 4.
Definition tag_positions (ms : list mark) : list (Z * Z) :=
  flat_map (fun m => match m with Tag off tag => [(off * 2, tag_digits tag * 2)] | Pad _ _ => [] end) ms.
Definition pad_positions (ms : list mark) : list (Z * Z) :=
  flat_map (fun m => match m with Pad off len => [(off * 2, len * 2)] | Tag _ _ => [] end) ms.
(** What parseBlocks leaves: start and length of each block without white space, berStrLen and the
    positions. *)
Record parsed := mkParsed { p_blocks : list (Z * Z); p_ber : Z; p_tags : list (Z * Z); p_pads : list (Z * Z) }.
Fixpoint block_data (start : Z) (blocks : list (list Z)) : list (Z * Z) :=
  match blocks with [] => [] | b :: bs => (start, Zlen (stripped b)) :: block_data (start + Zlen (stripped b)) bs end.
(** emvhighlighter.cpp:159-239 [parseBlocks]; [blocks] are the texts of the blocks. *)
Definition parse_blocks (ign : bool) (blocks : list (list Z)) : out parsed :=
  let str := List.concat (map stripped blocks) in
  let* n := hex_prefix str in
  let n := even_down n in
  let* (_, ms, valid) := parse_ber ign (from_hex (firstn (Z.to_nat n) str)) in
  Ret (mkParsed (block_data 0 blocks) (valid * 2) (tag_positions ms) (pad_positions ms)).

(** The parts of a QTextCharFormat that are used. *)
Inductive color := Red | Blue | DarkGray | White | Base00.
Record fmt := mkFmt { f_bold : bool; f_fg : option color; f_bg : option color }.
Definition plain_fmt : fmt := mkFmt false None None.
Definition invalid_fmt : fmt := mkFmt false (Some Red) None.
Definition non_hex_fmt : fmt := mkFmt true None (Some Red).
Definition tag_fmt : fmt := mkFmt true (Some Blue) None.
Definition padding_fmt : fmt := mkFmt false (Some DarkGray) None.
(** emvhighlighter.cpp:367-374 *)
Definition selected_fmt (f : fmt) : fmt := mkFmt (f_bold f) (if f_bold f then Some White else f_fg f) (Some Base00).

(** A loop over the characters of the block that counts the hex digits: digit number [idx] of the document
    gets [d idx], other characters get [o]; each is given the format the character had. *)
Fixpoint paint (d : Z -> fmt -> fmt) (o : fmt -> fmt) (idx : Z) (text : list Z) (fs : list fmt) : out (list fmt) :=
  match text, fs with
  | c :: text, f :: fs =>
    let* x := xdigit_of c in
    let* r := paint d o (if (x : bool) then idx + 1 else idx) text fs in
    Ret ((if (x : bool) then d idx f else o f) :: r)
  | _, _ => Ret fs
  end.
Definition within (p : Z * Z) (idx : Z) : bool := (fst p <=? idx) && (idx <? fst p + snd p).
(** emvhighlighter.cpp:307-349: a loop for each position. *)
Fixpoint paint_all (f : fmt) (ps : list (Z * Z)) (start : Z) (text : list Z) (fs : list fmt) : out (list fmt) :=
  match ps with
  | [] => Ret fs
  | p :: ps =>
    let* fs := paint (fun idx old => if within p idx then f else old) (fun old => old) start text fs in
    paint_all f ps start text fs
  end.
(** emvhighlighter.cpp:241-382 [highlightBlock]; the result is the format of each character.  [sel] is
    m_selectionStart and m_selectionCount. *)
Definition highlight_block (p : parsed) (emph : bool) (sel : Z * Z) (block : Z * Z) (text : list Z) : out (list fmt) :=
  let start := fst block in
  let fs := repeat plain_fmt (length text) in
  let* fs :=
    (if start + snd block <=? p_ber p then Ret fs
     else if p_ber p <=? start then paint (fun _ _ => invalid_fmt) (fun _ => non_hex_fmt) start text fs
     else paint (fun idx _ => if idx <? p_ber p then plain_fmt else invalid_fmt) (fun _ => non_hex_fmt) start text fs) in
  let* fs :=
    (if emph then
       let* fs := paint_all tag_fmt (p_tags p) start text fs in
       paint_all padding_fmt (p_pads p) start text fs
     else Ret fs) in
  if ((-1 <=? fst sel) && (0 <? snd sel))%bool
  then paint (fun idx f => if within sel idx then selected_fmt f else f) (fun f => f) start text fs
  else Ret fs.
(** rehighlight: every block. *)
Fixpoint highlight_blocks (p : parsed) (emph : bool) (sel : Z * Z) (bs : list (Z * Z)) (blocks : list (list Z)) : out (list (list fmt)) :=
  match bs, blocks with
  | b :: bs, text :: blocks =>
    let* f := highlight_block p emph sel b text in
    let* fs := highlight_blocks p emph sel bs blocks in
    Ret (f :: fs)
  | _, _ => Ret []
  end.
(** The document is parsed and highlighted (mainwindow.cpp:228-242). *)
Definition highlight (ign emph : bool) (sel : Z * Z) (blocks : list (list Z)) : out (list (list fmt)) :=
  let* p := parse_blocks ign blocks in
  highlight_blocks p emph sel (p_blocks p) blocks.

(** ** The tree *)

(** An item: m_srcOffset and m_srcLength if it is an EmvTreeItem, m_constructed, m_simpleFieldStr,
    m_decodedFieldStr, the text that is shown and whether it is hidden. *)
Record attr := mkAttr { a_src : option (Z * Z); a_cons : bool; a_simple : list Z; a_decoded : list Z; a_text : list Z; a_hidden : bool }.
Inductive item := Item (a : attr) (kids : list item).
Definition i_attr (i : item) : attr := match i with Item a _ => a end.
Definition i_kids (i : item) : list item := match i with Item _ k => k end.
Definition set_hidden (h : bool) (a : attr) : attr := mkAttr (a_src a) (a_cons a) (a_simple a) (a_decoded a) (a_text a) h.
Definition set_text (dec : bool) (a : attr) : attr :=
  mkAttr (a_src a) (a_cons a) (a_simple a) (a_decoded a) (if dec then a_decoded a else a_simple a) (a_hidden a).
(** new QTreeWidgetItem(parent, text) *)
Definition plain_attr (text : list Z) : attr := mkAttr None false [] [] text false.
Definition plain_item (text : list Z) (kids : list item) : item := Item (plain_attr text) kids.
(** emvtreeitem.cpp:128-150 [render] *)
Definition render (dec : bool) (i : item) : item :=
  match i with
  | Item a kids =>
    Item (set_text dec a)
         (if a_cons a then kids else map (fun k => match k with Item b ks => Item (set_hidden (negb dec) b) ks end) kids)
  end.

(** toHex(' ').toUpper() *)
Definition hex_spaced (v : list Z) : list Z :=
  match v with [] => [] | b :: v => p_02X b ++ flat_map (fun b => 32 :: p_02X b) v end.
(** emvtreeitem.cpp:211-254 [buildSimpleFieldString] *)
Definition simple_str (name : list Z) (len : Z) (value : option (list Z)) : list Z :=
  name ++ lit " : [" ++ p_dec len ++ lit "]" ++ match value with Some v => lit " " ++ hex_spaced v | None => [] end.
(** emvtreeitem.cpp:256-281 [buildDecodedFieldString]; [s] is the string in valueStr, and 201-209
    [valueStrIsList] is [str_is_list s]. *)
Definition decoded_str (tag : Z) (name : option string) (k : kind) (s : list Z) : list Z :=
  match name with
  | Some _ =>
    tag_name tag name ++
    (if (negb (str_is_list s) && negb (length s =? 0)%nat)%bool then
       match k with IsA | IsAN | IsANS => lit " : " ++ [34] ++ s ++ [34] | _ => lit " : " ++ s end
     else [])
  | None => p_X2 tag
  end.
(** emvtreeitem.cpp:283-302 [buildFieldString] *)
Definition field_str (tag : Z) (name : option string) (len : option Z) : list Z :=
  tag_name tag name ++ match len with Some n => lit " [" ++ p_dec n ++ lit "]" | None => [] end.
(** QString::trimmed, for white space of ASCII only. *)
Fixpoint trim_front (s : list Z) : list Z := match s with c :: t => if is_space c then trim_front t else s | [] => [] end.
Definition trimmed (s : list Z) : list Z := rev (trim_front (rev (trim_front s))).
(** emvtreeitem.cpp:304-332 [addValueStringList] *)
Definition list_item (s : list Z) : item := plain_item (trimmed (firstn (Z.to_nat 2047) s)) [].
(** emvtreeitem.cpp:334-382 [addValueDol]: the entries; nothing is said about an error. *)
Fixpoint dol_items (e : env) (fuel : nat) (itr : list Z) : out (list item) :=
  match fuel with
  | O => NoFuel
  | Datatypes.S fuel =>
    let* (r, en, itr') := dol_itr_next itr in
    if r <=? 0 then Ret []
    else match en with
    | None => UB
    | Some (tag, len) =>
      let* (_, name, _, _) := tlv_get_info e tag (Null (Z.to_nat len)) [] in
      let* rest := dol_items e fuel itr' in
      Ret (plain_item (field_str tag name (Some len)) [] :: rest)
    end
  end.
(** emvtreeitem.cpp:384-428 [addValueTagList] *)
Fixpoint tag_items (e : env) (fuel : nat) (buf : list Z) : out (list item) :=
  match fuel with
  | O => NoFuel
  | Datatypes.S fuel =>
    let* (r, tag) := ber_tag_decode buf in
    if r <=? 0 then Ret []
    else
      let* (_, name, _, _) := tlv_get_info e tag (Null 0) [] in
      let* buf := sub buf (Z.to_nat r) (length buf - Z.to_nat r) in
      let* rest := tag_items e fuel buf in
      Ret (plain_item (field_str tag name None) [] :: rest)
  end.
(** emvtreeitem.cpp:430-456 [addValueRaw] *)
Definition raw_item (v : list Z) : item := plain_item (lit "[" ++ p_dec (Zlen v) ++ lit "] " ++ hex_spaced v) [].
(** emvtreeitem.cpp:79-97 and 152-199: the constructor and [setTlv].  valueStr has 2048 chars, all zero, and a
    NUL after them. *)
Definition value_str : list Z := repeat 0 (Z.to_nat 2048).
Definition tlv_item (e : env) (dec : bool) (off len : Z) (t : ber_tlv) : out item :=
  let* (_, name, k, str) := tlv_get_info e (b_tag t) (Octets (b_val t)) value_str in
  let* s := p_s (str ++ [0]) in
  let cons := ber_is_constructed t in
  let a := mkAttr (Some (off, len)) cons
             (simple_str (p_X2 (b_tag t)) (b_len t) (if cons then None else Some (b_val t)))
             (decoded_str (b_tag t) name k s) [] false in
  let* kids :=
    (if cons then Ret []
     else
       let* more :=
         (if str_is_list s then Ret [list_item s]
          else match k with
               | IsDol => let* l := dol_items e (Datatypes.S (length (b_val t))) (b_val t) in Ret [plain_item (lit "Data Object List:") l]
               | IsTagList => let* l := tag_items e (Datatypes.S (length (b_val t))) (b_val t) in Ret [plain_item (lit "Tag List:") l]
               | _ => Ret []
               end) in
       Ret (raw_item (b_val t) :: more)) in
  Ret (render dec (Item a kids)).
(** emvtreeitem.cpp:99-116 *)
Definition padding_item (off : Z) (bad : list Z) : item :=
  let s := simple_str (lit "Padding") (Zlen bad) (Some bad) in
  render false (Item (mkAttr (Some (off, Zlen bad)) false s s [] false) []).
(** new items in a parent *)
Definition with_kids (i : item) (l : list item) : item := match i with Item a kids => Item a (kids ++ l) end.
(** emvtreeview.cpp:33-129 [parseData]; the result is the return value, the items added to the parent and
    [*totalValidBytes]. *)
Fixpoint tree_walk (e : env) (fuel : nat) (ign dec : bool) (buf itr : list Z) (valid total : Z) : out (bool * list item * Z) :=
  match fuel with
  | O => NoFuel
  | Datatypes.S fuel =>
    let* (r, t, itr') := ber_itr_next itr in
    if r <=? 0 then
      if r <? 0 then
        if looks_padding ign (Zlen buf) valid
        then
          let* bad := sub buf (Z.to_nat valid) (Z.to_nat (Zlen buf - valid)) in
          Ret (true, [padding_item total bad], total + (Zlen buf - valid))
        else Ret (false, [], total)
      else Ret (true, [], total)
    else match t with
    | None => UB
    | Some t =>
      let* i := tlv_item e dec total r t in
      if ber_is_constructed t then
        let* (ok, l, total2) := tree_walk e fuel ign dec (b_val t) (ber_itr_init (b_val t)) 0 (total + (r - b_len t)) in
        if negb ok then Ret (false, [with_kids i l], total2)
        else
          let* (ok, l', total3) := tree_walk e fuel ign dec buf itr' (valid + (r - b_len t) + b_len t) total2 in
          Ret (ok, with_kids i l :: l', total3)
      else
        let* (ok, l, total2) := tree_walk e fuel ign dec buf itr' (valid + r) (total + r) in
        Ret (ok, i :: l, total2)
    end
  end.
(** emvtreeview.cpp:131-149 [populateItems] *)
Definition populate (e : env) (ign dec : bool) (data : list Z) : out (list item * Z) :=
  let* (_, l, total) := tree_walk e (Datatypes.S (length data)) ign dec data (ber_itr_init data) 0 0 in
  Ret (l, total).
(** emvtreeview.cpp:151-170 [setDecodeFields] if the setting changes: every item is visited, parents
    first; [hide] is what the visit of the parent did to this item. *)
Fixpoint visit_item (dec : bool) (hide : option bool) (i : item) : item :=
  match i with
  | Item a kids =>
    let a := match hide with Some h => set_hidden h a | None => a end in
    match a_src a with
    | Some _ => Item (set_text dec a) (map (visit_item dec (if a_cons a then None else Some (negb dec))) kids)
    | None => Item a (map (visit_item dec None) kids)
    end
  end.
Definition set_decode_fields (dec : bool) (l : list item) : list item := map (visit_item dec None) l.

(** ** The main window *)

(** QPlainTextEdit::toPlainText: the blocks separated by line feeds; some characters are replaced. *)
Definition plain_char (c : Z) : Z :=
  if c =? 0xA0 then 32 else if (c =? 0xFDD0) || (c =? 0xFDD1) || (c =? 0x2028) || (c =? 0x2029) then 10 else c.
Fixpoint plain_text (blocks : list (list Z)) : list Z :=
  match blocks with
  | [] => []
  | [b] => map plain_char b
  | b :: bs => map plain_char b ++ 10 :: plain_text bs
  end.
(** mainwindow.cpp:172-221 [parseData]: the items of the tree. *)
Definition show_data (e : env) (ign dec : bool) (text : list Z) : out (list item) :=
  match text with
  | [] => Ret []
  | _ =>
    let str := stripped text in
    let* n := hex_prefix str in
    let* (l, valid) := populate e ign dec (from_hex (firstn (Z.to_nat (even_down n)) str)) in
    if valid * 2 <? Zlen str
    then Ret (l ++ [plain_item (lit "Remaining invalid data: " ++ skipn (Z.to_nat (valid * 2)) str) []])
    else Ret l
  end.
(** mainwindow.cpp:273-290 [on_treeView_itemPressed]: the selection if an EmvTreeItem is pressed. *)
Definition press (i : item) (sel : Z * Z) : Z * Z :=
  match a_src (i_attr i) with Some (off, len) => (off * 2, len * 2) | None => sel end.
