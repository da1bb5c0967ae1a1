(** Model of tools/print_helpers.c: what the functions write to standard output, as a list of
    characters.  printf does not fail.  Local arrays start with arbitrary contents (the arguments
    [junk]).  The octet dumps of BER data are in ToolsModel.v. *)
From Coq Require Import String.
From Verif Require Import Base BerModel TlvModel TlvListModel StrModel CapduModel FlagsModel DolModel AtrModel AtrTextModel InfoModel ToolsModel CardModel.
Open Scope string_scope.
Open Scope Z_scope.
Open Scope list_scope.
Notation length := List.length.

(** %X and %02X of an unsigned int. *)
Fixpoint p_X_n (k : nat) (v : Z) : list Z :=
  match k with O => [] | Datatypes.S k => if v <? 16 then [hexd v] else p_X_n k (v / 16) ++ [hexd (v mod 16)] end.
Definition p_X (v : Z) : list Z := p_X_n 8 v.
Definition p_X2 (v : Z) : list Z := if v <? 16 then 48 :: p_X v else p_X v.
Definition newline : list Z := [10].

(** print_helpers.c:41-49 [str_is_list]; [s] is the string without NUL. *)
Definition str_is_list (s : list Z) : bool := match s with [] => false | _ => last s 0 =? 10 end.

(** print_helpers.c:51-66 [print_buf]; buf is not NULL. *)
Definition print_buf (name : option (list Z)) (buf : list Z) : list Z :=
  (match name with Some n => n ++ lit ": " | None => [] end) ++ flat_map p_02X buf ++ newline.

(** for (i = 0; i < depth; ++i) printf("%s", prefix); *)
Definition indent (prefix : list Z) (depth : nat) : list Z := List.concat (repeat prefix depth).

(** strtok_r with the delimiter "\n", repeated: the non-empty parts between newlines. *)
Definition token (cur : list Z) : list (list Z) := match cur with [] => [] | _ => [cur] end.
Fixpoint tokens (cur s : list Z) : list (list Z) :=
  match s with [] => token cur | c :: s => if c =? 10 then token cur ++ tokens [] s else tokens (cur ++ [c]) s end.
(** print_helpers.c:68-95 [print_str_list] with delim "\n", bullet "- " and suffix "\n", as in all calls. *)
Definition print_str_list (s prefix : list Z) (depth : nat) : list Z :=
  flat_map (fun t => indent prefix depth ++ lit "- " ++ t ++ newline) (tokens [] s).

(** ** Answer to reset *)

(** The string in a buffer, for %s. *)
Definition shown_by (m : out (bool * list Z)) : out (list Z) :=
  let* (ok, str) := m in if (ok : bool) then p_s str else UB.
(** "TA%zu" with the value or "absent". *)
Definition octet_line (name : string) (i : nat) (o : option Z) (text : list Z) : list Z :=
  lit "  " ++ lit name ++ p_dec (Z.of_nat i) ++
  match o with Some b => lit " = 0x" ++ p_02X b | None => lit " absent" end ++ lit ": " ++ text ++ newline.
(** print_helpers.c:117-141: one of TAi, TBi, TCi. *)
Definition inter (name : string) (i : nat) (o : option Z) (text : out (list Z)) : out (list Z) :=
  match o with
  | Some _ => let* t := text in Ret (octet_line name i o t)
  | None => if (i <? 3)%nat then let* t := text in Ret (octet_line name i o t) else Ret []
  end.
Definition rule : list Z := lit "  ----" ++ newline.
(** print_helpers.c:106-148: one turn of the loop; [str] is the array of 1024 chars. *)
Definition group_lines (x : info) (i : nat) (str : list Z) : out (list Z) :=
  let* a := deref t_A i x in
  let* b := deref t_B i x in
  let* c := deref t_C i x in
  let* d := deref t_D i x in
  let some (o : option Z) := match o with Some _ => true | None => false end in
  let* la := inter "TA" i a (shown_by (TAi_get_string x i str)) in
  let* lb := inter "TB" i b (shown_by (TBi_get_string x i str)) in
  let* lc := inter "TC" i c (shown_by (TCi_get_string x i str)) in
  let* ld := (match d with Some _ => let* t := shown_by (TDi_get_string x i str) in Ret (octet_line "TD" i d t) | None => Ret [] end) in
  Ret ((if some a || some b || some c || some d || (i <? 3)%nat then rule else []) ++ la ++ lb ++ lc ++ ld).
Fixpoint groups_lines (k : nat) (x : info) (i : nat) (str : list Z) : out (list Z) :=
  match k with
  | O => Ret []
  | Datatypes.S k => let* a := group_lines x i str in let* b := groups_lines k x (Datatypes.S i) str in Ret (a ++ b)
  end.

(** print_helpers.c:213-243: what is printed for the data object and its description; [value] are
    the octets from tlv.value to the end of the array that contains the historical bytes (value[0] is
    read even if the length is 0). *)
Definition object_lines (o : ctlv) (value : list Z) (str : list Z) : out (list Z) :=
  let head := lit "  " ++ ctlv_tag_string (c_tag o) ++ lit " (0x" ++ p_X (c_tag o) ++ lit "): [" ++ p_dec (c_len o) ++ lit "] " ++
    match c_val o with [] => [] | b :: v => p_02X b ++ flat_map (fun b => 32 :: p_02X b) v end ++ newline in
  let* (r, new) :=
    (if c_tag o =? 3 then let* b := rd value 0 in service_list b str
     else if c_tag o =? 7 then caps_list (c_val o) str
     else Ret (-1, str)) in
  if r =? 0 then let* s := p_s new in Ret (head ++ print_str_list s (lit "  ") 2) else Ret head.
(** The loop.  [beyond] is what follows the historical bytes in memory. *)
Fixpoint object_loop (fuel : nat) (itr beyond str : list Z) : out (list Z) :=
  match fuel with
  | O => NoFuel
  | Datatypes.S fuel =>
    let* (r, t, itr') := ctlv_itr_next itr in
    if r <=? 0 then Ret (if r =? 0 then [] else lit "Failed to parse ATR historical bytes" ++ newline)
    else match t with
    | None => UB
    | Some o =>
      let* a := object_lines o (c_val o ++ itr' ++ beyond) str in
      let* b := object_loop fuel itr' beyond str in
      Ret (a ++ b)
    end
  end.
(** print_helpers.c:187-248 [print_atr_historical_bytes]; iso7816_atr_T1_get_string is not NULL here. *)
Definition print_historical (x : info) (beyond str : list Z) : out (list Z) :=
  match i_hist x with
  | None => UB
  | Some hist =>
    match T1_get_string x with
    | None => UB
    | Some t =>
      let head := lit "  T1  = 0x" ++ p_02X (i_T1 x) ++ lit ": " ++ t ++ newline in
      if negb (i_T1 x =? 0x00) && negb (i_T1 x =? 0x80)
      then Ret (head ++ print_buf (Some (lit "  Historical bytes")) hist)
      else
        match snd (ctlv_itr_init hist) with
        | None => Ret (head ++ lit "Failed to parse ATR historical bytes" ++ newline)
        | Some itr => let* b := object_loop (Datatypes.S (length itr)) itr beyond str in Ret (head ++ b)
        end
    end
  end.
(** print_helpers.c:154-179 *)
Definition status_lines (x : info) (str : list Z) : out (list Z) :=
  match i_status x with
  | None => Ret []
  | Some _ =>
    let a := rule ++ lit "  LCS = " ++ p_02X (i_LCS x) ++ lit ": " ++ lcs_get_string (i_LCS x) ++ newline in
    if negb (i_SW1 x =? 0) || negb (i_SW2 x =? 0) then
      let* t := shown_by (sw1sw2_get_string (i_SW1 x) (i_SW2 x) str) in
      Ret (a ++ lit "  SW  = " ++ p_02X (i_SW1 x) ++ p_02X (i_SW2 x) ++ lit ": (" ++ t ++ lit ")" ++ newline)
    else Ret a
  end.
(** print_helpers.c:97-185 [print_atr].  Each call describes one octet into the whole array [str]; what
    the array contained before does not matter (AtrTextProps.v), so it is the same for all. *)
Definition print_atr (x : info) (beyond str : list Z) : out (list Z) :=
  let* t0 := shown_by (T0_get_string x str) in
  let* g := groups_lines 4 x 1 str in
  let* h := (if i_K x =? 0 then Ret []
             else let* a := print_historical x beyond str in let* b := status_lines x str in Ret (rule ++ a ++ b)) in
  Ret (print_buf (Some (lit "ATR")) (firstn (i_len x) (i_atr x)) ++
       lit "  TS  = 0x" ++ p_02X (i_TS x) ++ lit ": " ++ TS_get_string x ++ newline ++
       lit "  T0  = 0x" ++ p_02X (i_T0 x) ++ lit ": " ++ t0 ++ newline ++
       g ++ h ++ rule ++ lit "  TCK = 0x" ++ p_02X (i_TCK x) ++ newline).

(** ** Commands and responses *)

(** print_helpers.c:250-278 [print_capdu]; c_apdu not NULL, str[1024] is [junk], [jid] is the local array of
    [iso7816_capdu_select_get_string]. *)
Definition print_capdu (c junk jid : list Z) : out (list Z) :=
  if (length c =? 0)%nat then Ret (lit "(null)" ++ newline)
  else
    let* (r, str) := emv_capdu_get_string c junk jid in
    if negb (r =? 0) then Ret (flat_map p_02X c ++ newline)
    else let* s := p_s str in Ret (flat_map p_02X c ++ lit " (" ++ s ++ lit ")" ++ newline).
(** print_helpers.c:280-314 [print_rapdu] *)
Definition print_rapdu (r junk : list Z) : out (list Z) :=
  if (length r =? 0)%nat then Ret (lit "(null)" ++ newline)
  else if (length r <? 2)%nat then Ret (flat_map p_02X r ++ newline)
  else
    let* sw1 := rd r (length r - 2) in
    let* sw2 := rd r (length r - 1) in
    let* (ok, str) := sw1sw2_get_string sw1 sw2 junk in
    if negb ok then Ret (flat_map p_02X r ++ newline)
    else
      let* s := p_s str in
      Ret (flat_map p_02X r ++ match s with [] => [] | _ => lit " (" ++ s ++ lit ")" end ++ newline).
(** print_helpers.c:316-328 [print_sw1sw2] *)
Definition print_sw1sw2 (sw1 sw2 : Z) (junk : list Z) : out (list Z) :=
  let* (ok, str) := sw1sw2_get_string sw1 sw2 junk in
  if negb ok then Ret (lit "Failed to parse SW1-SW2 status bytes" ++ newline)
  else let* s := p_s str in Ret (lit "SW1SW2: " ++ p_02X sw1 ++ p_02X sw2 ++ lit " (" ++ s ++ lit ")" ++ newline).

(** ** EMV data *)

(** printf("%02X | %s", tag, name) or printf("%02X", tag). *)
Definition tag_name (tag : Z) (name : option string) : list Z :=
  p_X2 tag ++ match name with Some n => lit " | " ++ lit n | None => [] end.
(** print_helpers.c:753-790 [print_emv_dol]; ptr is not NULL.  Nothing is printed when the loop ends
    with an error. *)
Fixpoint dol_lines (e : env) (fuel : nat) (itr prefix : list Z) (depth : nat) : out (list Z) :=
  match fuel with
  | O => NoFuel
  | Datatypes.S fuel =>
    let* (r, en, itr') := dol_itr_next itr in
    if r <=? 0 then Ret []
    else match en with
    | None => UB
    | Some (tag, len) =>
      let* (_, name, _, _) := tlv_get_info e tag (Null (Z.to_nat len)) [] in
      let* rest := dol_lines e fuel itr' prefix depth in
      Ret (indent prefix depth ++ tag_name tag name ++ lit " [" ++ p_dec len ++ lit "]" ++ newline ++ rest)
    end
  end.
Definition print_emv_dol (e : env) (buf prefix : list Z) (depth : nat) : out (list Z) :=
  let* l := dol_lines e (Datatypes.S (length buf)) buf prefix (Datatypes.S depth) in
  Ret (indent prefix depth ++ lit "Data Object List:" ++ newline ++ l).
(** print_helpers.c:792-825 [print_emv_tag_list] *)
Fixpoint tag_lines (e : env) (fuel : nat) (buf prefix : list Z) (depth : nat) : out (list Z) :=
  match fuel with
  | O => NoFuel
  | Datatypes.S fuel =>
    let* (r, tag) := ber_tag_decode buf in
    if r <=? 0 then Ret []
    else
      let* (_, name, _, _) := tlv_get_info e tag (Null 0) [] in
      let* buf := sub buf (Z.to_nat r) (length buf - Z.to_nat r) in
      let* rest := tag_lines e fuel buf prefix depth in
      Ret (indent prefix depth ++ tag_name tag name ++ newline ++ rest)
  end.
Definition print_emv_tag_list (e : env) (buf prefix : list Z) (depth : nat) : out (list Z) :=
  let* l := tag_lines e (Datatypes.S (length buf)) buf prefix (Datatypes.S depth) in
  Ret (indent prefix depth ++ lit "Tag List:" ++ newline ++ l).

(** print_helpers.c:524-536 and 672-687: tag, name and length. *)
Definition field_head (prefix : list Z) (depth : nat) (tag len : Z) (name : option string) : list Z :=
  indent prefix depth ++ tag_name tag name ++ lit " : [" ++ p_dec len ++ lit "]".
(** print_helpers.c:568-599 and 699-729: octets and description of a primitive field; [str] is value_str. *)
Definition field_value (e : env) (prefix : list Z) (depth : nat) (v : list Z) (k : kind) (str : list Z) : out (list Z) :=
  let* s := p_s str in
  let octs := flat_map (fun b => 32 :: p_02X b) v in
  if match s with [] => true | _ => str_is_list s end then
    let* d := (match k with IsDol => print_emv_dol e v prefix (Datatypes.S depth) | _ => Ret [] end) in
    let* t := (match k with IsTagList => print_emv_tag_list e v prefix (Datatypes.S depth) | _ => Ret [] end) in
    Ret (octs ++ newline ++ (if str_is_list s then print_str_list s prefix (Datatypes.S depth) else []) ++ d ++ t)
  else
    Ret (octs ++ (match k with IsA | IsAN | IsANS => lit " " ++ [34] ++ s ++ [34] | _ => lit " (" ++ s ++ lit ")" end) ++ newline).

(** print_helpers.c:606-632: after the loop, which ended with [r]. *)
Definition emv_end (prefix buf : list Z) (valid : Z) (depth : nat) (ign : bool) (r : Z) : list Z * Z :=
  if r <? 0 then
    if (ign && (valid <? Zlen buf) &&
        (((Z.land (Zlen buf) 0x7 =? 0) && (Zlen buf - valid <? 8)) ||
         ((Z.land (Zlen buf) 0xF =? 0) && (Zlen buf - valid <? 15))))%bool
    then (indent prefix depth ++ lit "Padding : [" ++ p_dec (Zlen buf - valid) ++ lit "]" ++
          flat_map (fun b => 32 :: p_02X b) (skipn (Z.to_nat valid) buf) ++ newline, Zlen buf)
    else (lit "BER decoding error -" ++ p_dec (- r), valid)
  else ([], valid).
(** print_helpers.c:501-633 [print_emv_buf_internal]; [junk] is value_str of each turn.  The result is
    what is printed and the return value. *)
Fixpoint emv_loop (e : env) (prefix junk : list Z) (fuel : nat) (buf itr : list Z) (valid : Z) (depth : nat) (ign : bool) : out (list Z * Z) :=
  match fuel with
  | O => NoFuel
  | Datatypes.S fuel =>
    let* (r, t, itr') := ber_itr_next itr in
    if r <=? 0 then Ret (emv_end prefix buf valid depth ign r)
    else match t with
    | None => UB
    | Some t =>
      let* (_, name, k, str) := tlv_get_info e (b_tag t) (Octets (b_val t)) junk in
      let head := field_head prefix depth (b_tag t) (b_len t) name in
      if ber_is_constructed t then
        let valid := valid + (r - b_len t) in
        let* (txt, r2) := emv_loop e prefix junk fuel (b_val t) (b_val t) 0 (Datatypes.S depth) ign in
        let txt := head ++ newline ++ txt in
        if r2 <? 0 then Ret (txt, r2)
        else
          let valid := valid + r2 in
          if r2 <? b_len t then Ret (txt, valid)
          else
            let* (txt', x) := emv_loop e prefix junk fuel buf itr' valid depth ign in
            Ret (txt ++ txt', x)
      else
        let valid := valid + r in
        let* txt := field_value e prefix depth (b_val t) k str in
        let* (txt', x) := emv_loop e prefix junk fuel buf itr' valid depth ign in
        Ret (head ++ txt ++ txt', x)
    end
  end.
(** print_helpers.c:635-662 [print_emv_buf].  Comparing r with the size_t len converts a negative r to a
    large value. *)
Definition print_emv_text (e : env) (prefix junk buf : list Z) (depth : nat) (ign : bool) : out (list Z) :=
  let* (txt, r) := emv_loop e prefix junk (Datatypes.S (length buf)) buf (ber_itr_init buf) 0 depth ign in
  Ret (txt ++ (if r <? 0 then lit "BER decoding failed" ++ newline else []) ++
       (if ((0 <=? r) && (r <? Zlen buf))%bool
        then lit " at offset " ++ p_dec r ++ lit "; remaining invalid data:" ++ flat_map (fun b => 32 :: p_02X b) (skipn (Z.to_nat r) buf) ++ newline
        else [])).

(** print_helpers.c:664-735 [print_emv_tlv_internal] and [print_emv_tlv]. *)
Definition print_emv_tlv_internal (e : env) (f : field) (prefix junk : list Z) (depth : nat) (ign : bool) : out (list Z) :=
  let* (_, name, k, str) := tlv_get_info e (f_tag f) (Octets (f_val f)) junk in
  let head := field_head prefix depth (f_tag f) (f_len f) name in
  if negb (Z.land (f_flags f) 0x20 =? 0) then
    let* txt := print_emv_text e prefix junk (f_val f) (Datatypes.S depth) ign in Ret (head ++ newline ++ txt)
  else let* txt := field_value e prefix depth (f_val f) k str in Ret (head ++ txt).
Definition print_emv_tlv (e : env) (f : field) (junk : list Z) : out (list Z) := print_emv_tlv_internal e f (lit "  ") junk 0 false.
(** print_helpers.c:744-751 [print_emv_tlv_list] *)
Fixpoint print_emv_tlv_list (e : env) (l : list field) (junk : list Z) : out (list Z) :=
  match l with
  | [] => Ret []
  | f :: l => let* a := print_emv_tlv_internal e f (lit "  ") junk 1 false in let* b := print_emv_tlv_list e l junk in Ret (a ++ b)
  end.
