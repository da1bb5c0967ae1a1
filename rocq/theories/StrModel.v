(** Model of the text functions of src/emv_strings.c and src/iso7816_strings.c.

    Characters are their codes.  An output buffer [str] of [str_len] chars is a list
    of that length; [str_len] = 0 (or NULL) is the empty list.  Functions give the
    return value and the buffer afterwards.  Input strings are their characters
    without the terminating NUL. *)
From Coq Require Export String Ascii.
From Verif Require Import Base TlvModel TtlModel.
Open Scope Z_scope.
Open Scope list_scope.
Notation length := List.length.

(** String literals. *)
Fixpoint lit (s : string) : list Z :=
  match s with EmptyString => [] | String c t => Z.of_nat (nat_of_ascii c) :: lit t end.

(** snprintf into [n] chars at offset [o] when the whole text would be [s]. *)
Definition snprintf (buf : list Z) (o n : nat) (s : list Z) : out (list Z) :=
  match n with O => Ret buf | S m => put buf o (firstn m s ++ [0]) end.
(** strncpy(buf, s, n): the characters, then NULs up to [n]. *)
Definition strncpy (buf : list Z) (n : nat) (s : list Z) : out (list Z) :=
  put buf 0 (firstn n (s ++ repeat 0 n)).

(** ** Text formats *)

(** The loop shared by the four functions that follow: characters are copied while
    they satisfy [ok]. *)
Fixpoint copy_chars (ok : Z -> bool) (l : list Z) (buf : list Z) (o : nat) : out (Z * list Z) :=
  match l with
  | [] => let* buf := wr buf o 0 in Ret (0, buf)
  | c :: l' => if ok c then let* buf := wr buf o c in copy_chars ok l' buf (S o) else Ret (1, buf)
  end.
Definition text_get_string (ok : Z -> bool) (val str : list Z) : out (Z * list Z) :=
  if ((length val =? 0) || (length str =? 0))%nat then Ret (-1, str)
  else if (length str <? length val + 1)%nat then Ret (-2, str)
  else copy_chars ok val str 0.
Definition is_alpha (c : Z) : bool := ((0x41 <=? c) && (c <=? 0x5A)) || ((0x61 <=? c) && (c <=? 0x7A)).
Definition is_num (c : Z) : bool := (0x30 <=? c) && (c <=? 0x39).
(** emv_strings.c:1372-1406 [emv_format_a_get_string] *)
Definition format_a_get_string := text_get_string is_alpha.
(** emv_strings.c:1408-1443 [emv_format_an_get_string] *)
Definition format_an_get_string := text_get_string (fun c => is_num c || is_alpha c).
(** emv_strings.c:1445-1482 [emv_format_ans_only_space_get_string] *)
Definition format_ans_only_space_get_string := text_get_string (fun c => is_num c || is_alpha c || (c =? 0x20)).
(** emv_strings.c:1484-1519 [emv_format_ans_ccs_get_string] *)
Definition format_ans_ccs_get_string := text_get_string (fun c => (0x20 <=? c) && (c <=? 0x7F)).

(** emv_strings.c:1521-1567 [emv_format_cn_get_string]: the loop from byte [i] on. *)
Fixpoint cn_loop (l : list Z) (i : nat) (buf : list Z) : out (Z * list Z) :=
  match l with
  | [] => let* buf := wr buf (i * 2) 0 in Ret (0, buf)
  | b :: l' =>
    let d := Z.shiftr b 4 in
    if 9 <? d then
      if negb (d =? 0xF) then Ret (1, buf) else let* buf := wr buf (i * 2) 0 in Ret (0, buf)
    else
      let* buf := wr buf (i * 2) (0x30 + d) in
      let d := Z.land b 0xF in
      if 9 <? d then
        if negb (d =? 0xF) then Ret (1, buf) else let* buf := wr buf (i * 2 + 1) 0 in Ret (0, buf)
      else
        let* buf := wr buf (i * 2 + 1) (0x30 + d) in
        cn_loop l' (S i) buf
  end.
Definition format_cn_get_string (val str : list Z) : out (Z * list Z) :=
  if ((length val =? 0) || (length str =? 0))%nat then Ret (-1, str)
  else if (length str <? length val * 2 + 1)%nat then Ret (-2, str)
  else cn_loop val 0 str.

(** emv_strings.c:1582-1627 [emv_uint_to_str]: the loop; [k] is the number of
    dividers left, the divider is 10^(k-1); [o] is the number of characters written. *)
Fixpoint uint_loop (k : nat) (value : Z) (found : bool) (o : nat) (buf : list Z) : out (Z * list Z) :=
  match k with
  | O => let* buf := wr buf o 0 in Ret (0, buf)
  | S k' =>
    let divider := 10 ^ Z.of_nat k' in
    let digit := u8 (value / divider) in
    let* (found, o, buf) :=
      (if negb (digit =? 0) || found then let* buf := wr buf o (0x30 + digit) in Ret (true, S o, buf)
       else Ret (found, o, buf)) in
    if (length buf - o =? 0)%nat then
      let* buf := wr buf o 0 in Ret (-3, buf)                          (* line 1616 *)
    else uint_loop k' (value mod divider) found o buf
  end.
Definition uint_to_str (value : Z) (str : list Z) : out (Z * list Z) :=
  if (length str <? 2)%nat then Ret (-2, str)
  else if value =? 0 then
    let* str := wr str 0 0x30 in let* str := wr str 1 0 in Ret (0, str)
  else uint_loop 10 value false 0 str.

(** emv_strings.c:1569-1580 [emv_format_n_get_string] *)
Definition format_n_get_string (val str : list Z) : out (Z * list Z) :=
  let '(r, value) := format_n_to_uint val in
  if negb (r =? 0) then Ret (r, str)
  else match value with Some v => uint_to_str v str | None => UB end.
(** emv_strings.c:1743-1763 [emv_amount_get_string] *)
Definition amount_get_string (val str : list Z) : out (Z * list Z) :=
  if (length val =? 0)%nat then Ret (-1, str)
  else if (length str =? 0)%nat then Ret (0, str)
  else
    let '(r, value) := format_b_to_uint val in
    if negb (r =? 0) then Ret (r, str)
    else match value with Some v => uint_to_str v str | None => UB end.

(** emv_strings.c:1261-1370 [emv_tlv_value_get_string] for the formats used;
    [max] = 0: no maximum. *)
Inductive format := FormatA | FormatAN | FormatANS | FormatCN | FormatN.
Definition get_string (fmt : format) (tag : Z) (val str : list Z) : out (Z * list Z) :=
  let* (r, str') :=
    match fmt with
    | FormatA => format_a_get_string val str
    | FormatAN => format_an_get_string val str
    | FormatANS =>
      if tag =? 0x50 then format_ans_only_space_get_string val str
      else if tag =? 0x9F12 then
        let* str := put str 0 val in let* str := wr str (length val) 0 in Ret (0, str)
      else format_ans_ccs_get_string val str
    | FormatCN => format_cn_get_string val str
    | FormatN => format_n_get_string val str
    end in
  if negb (r =? 0) then let* str' := wr str' 0 0 in Ret (r, str') else Ret (0, str').
Definition tlv_value_get_string (fmt : format) (max : nat) (tag : Z) (val str : list Z) : out (Z * list Z) :=
  if (length str =? 0)%nat then Ret (0, str)
  else if (negb (max =? 0)%nat && (match fmt with FormatA | FormatAN | FormatANS => max <? length val | FormatCN | FormatN => (max + 1) / 2 <? length val end)%nat)
  then Ret (match fmt with FormatA | FormatAN | FormatANS => -2 | _ => -3 end, str)
  else if (negb (max =? 0)%nat && (length str <? max + 1)%nat) then Ret (-5, str)
  else get_string fmt tag val str.

(** ** Packing digits *)

(** emv_strings.c:1629-1682 [emv_str_to_format_cn]; str and buf not NULL.
    [o] and [left] are the current position and the remaining length, [odd] the
    parity of i.  The result has the return value and the buffer. *)
Fixpoint pad_ff (left o : nat) (buf : list Z) : out (list Z) :=
  match left with O => Ret buf | S k => let* buf := wr buf o 0xFF in pad_ff k (S o) buf end.
Definition cn_finish (buf : list Z) (o left : nat) (odd : bool) : out (Z * list Z) :=
  match left with
  | O => Ret (0, buf)
  | S k =>
    if odd then
      let* b := rd buf o in let* buf := wr buf o (Z.lor b 0x0F) in let* buf := pad_ff k (S o) buf in Ret (0, buf)
    else let* buf := pad_ff left o buf in Ret (0, buf)
  end.
Fixpoint cn_pack (s : list Z) (buf : list Z) (o left : nat) (odd : bool) : out (Z * list Z) :=
  match s, left with
  | c :: s', S left' =>
    if is_num c then
      let nibble := c - 0x30 in
      if odd then
        let* b := rd buf o in let* buf := wr buf o (Z.lor b (Z.land nibble 0x0F)) in cn_pack s' buf (S o) left' false
      else let* buf := wr buf o (u8 (Z.shiftl nibble 4)) in cn_pack s' buf o left true
    else Ret (1, buf)
  | _, _ => cn_finish buf o left odd
  end.
Definition str_to_format_cn (s buf : list Z) : out (Z * list Z) :=
  if (length buf =? 0)%nat then Ret (-1, buf) else cn_pack s buf 0 (length buf) false.

(** emv_strings.c:1684-1741 [emv_str_to_format_n]; str and buf not NULL.  [rs] is the
    rest of the string from the end; the current byte is [left - 1].  (The pointers one
    before the first element that are computed but not used are not modelled as
    undefined.) *)
Fixpoint pad_00 (left : nat) (buf : list Z) : out (list Z) :=
  match left with O => Ret buf | S k => let* buf := wr buf k 0 in pad_00 k buf end.
Fixpoint n_pack (rs : list Z) (buf : list Z) (left : nat) (odd : bool) : out (Z * list Z) :=
  match rs, left with
  | c :: rs', S k =>
    if is_num c then
      let nibble := c - 0x30 in
      if odd then
        let* b := rd buf k in let* buf := wr buf k (u8 (Z.lor b (Z.shiftl nibble 4))) in n_pack rs' buf k false
      else let* buf := wr buf k nibble in n_pack rs' buf left true
    else Ret (1, buf)
  | _, _ => let* buf := pad_00 (if odd then left - 1 else left)%nat buf in Ret (0, buf)
  end.
Definition str_to_format_n (s buf : list Z) : out (Z * list Z) :=
  if (length buf =? 0)%nat then Ret (-1, buf) else n_pack (rev s) buf (length buf) false.

(** ** Date and time *)

(** The loop of emv_strings.c:1789-1808 and 1862-1881: the digits of the field in the
    local array [loc], whose first [2 * i] chars are written. *)
Fixpoint digits_loop (l : list Z) (i : nat) (loc : list Z) : out (Z * list Z) :=
  match l with
  | [] => Ret (0, loc)
  | b :: l' =>
    let d := Z.shiftr b 4 in
    if 9 <? d then Ret (2, loc)
    else
      let* loc := wr loc (i * 2) (0x30 + d) in
      let d := Z.land b 0xF in
      if 9 <? d then Ret (3, loc)
      else let* loc := wr loc (i * 2 + 1) (0x30 + d) in digits_loop l' (S i) loc
  end.
(** [loc] is the local array, [min] the minimum [str_len], [fmt] what is written from
    the six digits. *)
Definition date_time (loc : list Z) (min : nat) (fmt : list Z -> list Z) (val str : list Z) : out (Z * list Z) :=
  if (length val =? 0)%nat then Ret (-1, str)
  else if (length str =? 0)%nat then Ret (0, str)
  else if negb (length val =? 3)%nat then Ret (1, str)
  else if (length str <? min)%nat then Ret (-2, str)
  else
    let* (r, loc) := digits_loop val 0 loc in
    if negb (r =? 0) then Ret (r, str)
    else
      let* loc := wr loc (length val * 2 + 1) 0 in                     (* lines 1809, 1882 *)
      let* d := sub loc 0 6 in
      let* str := put str 0 (fmt d) in
      Ret (0, str).
Definition date_text (d : list Z) : list Z := lit "20" ++ firstn 2 d ++ lit "-" ++ firstn 2 (skipn 2 d) ++ lit "-" ++ skipn 4 d ++ [0].
Definition time_text (d : list Z) : list Z := firstn 2 d ++ lit ":" ++ firstn 2 (skipn 2 d) ++ lit ":" ++ skipn 4 d ++ [0].
(** emv_strings.c:1765-1836 [emv_date_get_string] *)
Definition date_get_string := date_time (repeat 0 7) 11 date_text.
(** emv_strings.c:1838-1906 [emv_time_get_string] *)
Definition time_get_string := date_time (repeat 0 7) 9 time_text.

(** ** Lists of strings *)

(** emv_strings.c:47-50 [struct str_itr_t] with the buffer: [s_off] = ptr - buffer. *)
Record str_itr := mkItr { s_buf : list Z; s_off : nat; s_len : nat }.
(** emv_strings.c:1998-2002 [emv_str_list_init], iso7816_strings.c:34-38 *)
Definition str_list_init (str : list Z) : str_itr := mkItr str 0 (length str).
(** emv_strings.c:2004-2050 [emv_str_list_add]; [s] is the whole formatted text
    (vsnprintf does not fail; texts are shorter than 2^31). *)
Definition str_list_add (itr : str_itr) (s : list Z) : out str_itr :=
  if (s_len itr <? 3)%nat then Ret itr
  else
    let max := (s_len itr - 1)%nat in
    let* buf := snprintf (s_buf itr) (s_off itr) max s in
    let n := if (max <=? length s)%nat then (max - 1)%nat else length s in
    let* buf := wr buf (s_off itr + n) 10 in
    let n := S n in
    let* buf := wr buf (s_off itr + n) 0 in
    Ret (mkItr buf (s_off itr + n) (s_len itr - n)).
(** iso7816_strings.c:40-63 [iso7816_str_list_add] *)
Definition iso_str_list_add (itr : str_itr) (s : list Z) : out str_itr :=
  if (s_len itr <? length s + 2)%nat then Ret itr
  else
    let* buf := put (s_buf itr) (s_off itr) s in
    let* buf := wr buf (s_off itr + length s) 10 in
    let n := S (length s) in
    let* buf := wr buf (s_off itr + n) 0 in
    Ret (mkItr buf (s_off itr + n) (s_len itr - n)).
(** A sequence of additions. *)
Fixpoint add_all (add : str_itr -> list Z -> out str_itr) (itr : str_itr) (texts : list (list Z)) : out str_itr :=
  match texts with [] => Ret itr | t :: ts => let* itr := add itr t in add_all add itr ts end.

(** ** Track 2 *)

(** emv_strings.c:2843-2887 [emv_track2_equivalent_data_get_string] *)
Fixpoint track2_loop (l : list Z) (i : nat) (buf : list Z) : out (Z * list Z) :=
  match l with
  | [] => let* buf := wr buf (i * 2) 0 in Ret (0, buf)
  | b :: l' =>
    let d := Z.shiftr b 4 in
    if d =? 0xF then let* buf := wr buf (i * 2) 0 in Ret (0, buf)
    else
      let* buf := wr buf (i * 2) (0x30 + d) in
      let d := Z.land b 0xF in
      if d =? 0xF then let* buf := wr buf (i * 2 + 1) 0 in Ret (0, buf)
      else let* buf := wr buf (i * 2 + 1) (0x30 + d) in track2_loop l' (S i) buf
  end.
Definition track2_get_string (val str : list Z) : out (Z * list Z) :=
  if (length val =? 0)%nat then Ret (-1, str)
  else if (length str =? 0)%nat then Ret (0, str)
  else track2_loop val 0 str.
